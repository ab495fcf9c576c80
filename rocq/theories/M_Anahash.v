(** Model of src/anahash.rs (hashing and normalisation). *)
From Verif Require Import M_Base.
From stdpp Require Import options.

(** src/types.rs:37 [Alphabet = Vec<Vec<String>>] *)
Notation alphabet := (list (list str)).

(** src/types.rs:20-30 [PRIMES] *)
Definition PRIMES : list N :=
  [2; 3; 5; 7; 11; 13; 17; 19; 23; 29; 31; 37; 41; 43; 47; 53; 59; 61; 67; 71; 73; 79; 83; 89; 97;
   101; 103; 107; 109; 113; 127; 131; 137; 139; 149; 151; 157; 163; 167; 173; 179; 181; 191; 193;
   197; 199; 211; 223; 227; 229; 233; 239; 241; 251; 257; 263; 269; 271; 277; 281; 283; 293; 307;
   311; 313; 317; 331; 337; 347; 349; 353; 359; 367; 373; 379; 383; 389; 397; 401; 409; 419; 421;
   431; 433; 439; 443; 449; 457; 461; 463; 467; 479; 487; 491; 499; 503; 509; 521; 523; 541; 547;
   557; 563; 569; 571; 577; 587; 593; 599; 601; 607; 613; 617; 619; 631; 641; 643; 647; 653; 659;
   661; 673; 677; 683; 691; 701; 709; 719; 727; 733; 739; 743; 751; 757; 761; 769; 773; 787; 797;
   809; 811; 821; 823; 827; 829; 839; 853; 857; 859; 863; 877; 881; 883; 887; 907; 911; 919; 929;
   937; 941; 947; 953; 967; 971; 977; 983; 991; 997]%N.

(** src/anahash.rs:141-143 [Anahash::character]: [PRIMES[seqnr as usize]] *)
Definition character (seqnr : nat) : res N := rindex PRIMES seqnr.

(** src/anahash.rs:252-254 [empty] (= 1) *)
Definition ana_empty : N := 1%N.

(** src/anahash.rs:258-260 [is_empty] *)
Definition ana_is_empty (v : N) : bool := (v =? 1)%N || (v =? 0)%N.

(** src/anahash.rs:146-152 [insert] *)
Definition ana_insert (self value : N) : N :=
  if (self =? 0)%N then value else (self * value)%N.

(** src/anahash.rs:165-171 [contains].  ([self % value] would divide by zero
    for [self = value = 0]; hashes are never 0.) *)
Definition ana_contains (self value : N) : bool :=
  if (self <? value)%N then false else (self mod value =? 0)%N.

(** src/anahash.rs:156-162 [delete] *)
Definition ana_delete (self value : N) : option N :=
  if ana_contains self value then Some (self / value)%N else None.

(** [slice == element] for [slice = self.get(bytepos..bytepos+element.len())]
    (src/anahash.rs:29-30): the element is a prefix of the text that remains
    at [bytepos].  At the level of characters; M_Utf8.v proves that the
    comparison of bytes gives the same answer. *)
Fixpoint is_prefix (e t : str) : bool :=
  match e, t with
  | [], _ => true
  | x :: e', y :: t' => (x =? y)%N && is_prefix e' t'
  | _ :: _, [] => false
  end.

(** The loop over one alphabet line (src/anahash.rs:26-37, inner [for]):
    length in characters of the first matching element. *)
Fixpoint match_line (line : list str) (t : str) : option nat :=
  match line with
  | [] => None
  | e :: line' => if is_prefix e t then Some (length e) else match_line line' t
  end.

(** The loop ['abciter] over the alphabet (src/anahash.rs:25-39, 60-72):
    index of the first matching line and length of the matched element. *)
Fixpoint match_alphabet (A : alphabet) (seqnr : nat) (t : str) : option (nat * nat) :=
  match A with
  | [] => None
  | line :: A' =>
      match match_line line t with
      | Some charlen => Some (seqnr, charlen)
      | None => match_alphabet A' (S seqnr) t
      end
  end.

(** [skip = charlen - 1] on [usize] (src/anahash.rs:34, 69) *)
Definition skip_of (charlen : nat) : res nat :=
  match charlen with O => Panic Overflow | S k => Ok k end.

(** src/anahash.rs:16-47 [anahash]: the [for] loop with its state
    ([skip], [hash]). *)
Fixpoint anahash_loop (A : alphabet) (t : str) (skip : nat) (hash : N) : res N :=
  match t with
  | [] => Ok hash
  | _ :: t' =>
      match skip with
      | S k => anahash_loop A t' k hash
      | O =>
          match match_alphabet A 0 t with
          | Some (seqnr, charlen) =>
              let* charvalue := character (as_u8 seqnr) in
              let* k := skip_of charlen in
              anahash_loop A t' k (ana_insert hash charvalue)
          | None =>
              let* charvalue := character (as_u8 (length A)) in
              anahash_loop A t' 0 (ana_insert hash charvalue)
          end
      end
  end.

Definition anahash (A : alphabet) (t : str) : res N := anahash_loop A t 0 ana_empty.

(** [x + 1] on [u8] *)
Definition u8_succ (n : nat) : res nat :=
  if (n <? 255)%nat then Ok (S n) else Panic Overflow.

(** src/anahash.rs:50-80 [normalize_to_alphabet]; [result] is built in order. *)
Fixpoint normalize_loop (A : alphabet) (t : str) (skip : nat) (result : list nat)
    : res (list nat) :=
  match t with
  | [] => Ok result
  | _ :: t' =>
      match skip with
      | S k => normalize_loop A t' k result
      | O =>
          match match_alphabet A 0 t with
          | Some (seqnr, charlen) =>
              let* k := skip_of charlen in
              normalize_loop A t' k (result ++ [as_u8 seqnr])
          | None =>
              let* unk := u8_succ (as_u8 (length A)) in
              normalize_loop A t' 0 (result ++ [unk])
          end
      end
  end.

Definition normalize_to_alphabet (A : alphabet) (t : str) : res (list nat) :=
  normalize_loop A t 0 [].

(** src/lib.rs:163-165 [alphabet_size]: [self.alphabet.len() as u8 + 1] *)
Definition alphabet_size (A : alphabet) : res nat := u8_succ (as_u8 (length A)).
