(** Small value types: the rest of [NGram], [DistanceThreshold::from_str] and
    the visited cache. *)
From Verif Require Import M_Base M_Anahash M_Iter M_Float M_Types M_Model.
From stdpp Require Import options.

(** src/types.rs:392-404 [from_option_list]; [None] is the [Err] result *)
Definition ng_from_option_list (v : list (option vocab_id)) : option ngram :=
  match v with
  | [] => Some NEmpty
  | [Some a] => Some (NUni a)
  | [Some a; Some b] => Some (NBi a b)
  | [Some a; Some b; Some c] => Some (NTri a b c)
  | [Some a; Some b; Some c; Some d] => Some (NQuad a b c d)
  | [Some a; Some b; Some c; Some d; Some e] => Some (NQuint a b c d e)
  | _ => None
  end.

(** src/types.rs:433-442 [len] *)
Definition ng_len (n : ngram) : nat :=
  match n with NEmpty => 0 | NUni _ => 1 | NBi _ _ => 2 | NTri _ _ _ => 3 | NQuad _ _ _ _ => 4 | NQuint _ _ _ _ _ => 5 end.

(** src/types.rs:444-468 [push]: the returned flag and the new value *)
Definition ng_push (n : ngram) (item : vocab_id) : bool * ngram :=
  match n with
  | NEmpty => (true, NUni item)
  | NUni x => (true, NBi x item)
  | NBi x y => (true, NTri x y item)
  | NTri x y z => (true, NQuad x y z item)
  | NQuad a b c d => (true, NQuint a b c d item)
  | NQuint a b c d e => (false, NQuint a b c d e)
  end.

(** src/types.rs:470-479 [first] *)
Definition ng_first (n : ngram) : option vocab_id :=
  match n with
  | NEmpty => None
  | NUni x | NBi x _ | NTri x _ _ | NQuad x _ _ _ | NQuint x _ _ _ _ => Some x
  end.

(** src/types.rs:481-505 [pop_first]: the returned n-gram and the new value *)
Definition ng_pop_first (n : ngram) : ngram * ngram :=
  match n with
  | NEmpty => (NEmpty, NEmpty)
  | NUni x => (NUni x, NEmpty)
  | NBi x y => (NUni x, NUni y)
  | NTri x y z => (NUni x, NBi y z)
  | NQuad a b c d => (NUni a, NTri b c d)
  | NQuint a b c d e => (NUni a, NQuad b c d e)
  end.

(** src/types.rs:507-531 [pop_last] *)
Definition ng_pop_last (n : ngram) : ngram * ngram :=
  match n with
  | NEmpty => (NEmpty, NEmpty)
  | NUni x => (NUni x, NEmpty)
  | NBi x y => (NUni y, NUni x)
  | NTri x y z => (NUni z, NBi x y)
  | NQuad a b c d => (NUni d, NTri a b c)
  | NQuint a b c d e => (NUni e, NQuad a b c d)
  end.

(** src/types.rs:86-109 [DistanceThreshold::from_str]; [None] is the [Err]
    result; [parse_f32] stands for Rust's [str::parse::<f32>]. *)
Definition threshold_from_str (parse_f32 : str -> option f32) (s : str) : option threshold :=
  if existsb (N.eqb 59) s then
    match split_on 59 s with
    | [f0; f1] =>
        match parse_f32 f0 with
        | Some ratio => match parse_u8 f1 with Some limit => Some (TRatioWithLimit ratio (N.to_nat limit)) | None => None end
        | None => None
        end
    | _ => None
    end
  else match parse_u8 s with
       | Some num => Some (TAbsolute (N.to_nat num))
       | None =>
           match parse_f32 s with
           | Some num => if fge num f0 && fle num f32_1 then Some (TRatio num) else None
           | None => None
           end
       end.

(** src/cache.rs:5-9 [Cache]; the set of visited values is a list without
    repetitions ([visited_insert]). *)
Record cache := Cache { ca_visited : list N; ca_max_size : nat }.
(** src/cache.rs:12-17 [new] *)
Definition cache_new (max_size : nat) : cache := Cache [] max_size.
(** src/cache.rs:19-21 [clear] *)
Definition cache_clear (c : cache) : cache := Cache [] (ca_max_size c).
(** src/cache.rs:23-27 [check] *)
Definition cache_check (c : cache) : cache :=
  if (0 <? ca_max_size c) && (ca_max_size c <? length (ca_visited c)) then Cache [] (ca_max_size c) else c.
