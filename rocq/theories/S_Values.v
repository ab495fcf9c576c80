(** Specification of the small value types. *)
From Verif Require Import M_Base M_Anahash M_Iter M_Float M_Types M_Model M_Values S_Model.
From stdpp Require Import options.

(** Texts of distance thresholds: a number from 0 to 255, a ratio from 0 to 1
    that is no such number, or both separated by a semicolon. *)
Inductive threshold_text (parse_f32 : str -> option f32) : str -> threshold -> Prop :=
| tt_absolute s n : decimal 255 s n -> threshold_text parse_f32 s (TAbsolute (N.to_nat n))
| tt_ratio s x : 59%N ∉ s -> (forall n, ~ decimal 255 s n) -> parse_f32 s = Some x ->
    fle f0 x = true -> fle x f32_1 = true -> threshold_text parse_f32 s (TRatio x)
| tt_pair s s' x n : 59%N ∉ s -> 59%N ∉ s' -> parse_f32 s = Some x -> decimal 255 s' n ->
    threshold_text parse_f32 (s ++ 59%N :: s') (TRatioWithLimit x (N.to_nat n)).

(** What can happen to a cache. *)
Inductive cache_history (max_size : nat) : cache -> Prop :=
| ch_new : cache_history max_size (cache_new max_size)
| ch_clear c : cache_history max_size c -> cache_history max_size (cache_clear c)
| ch_check c : cache_history max_size c -> cache_history max_size (cache_check c)
| ch_search c value asz p fuel l visited : cache_history max_size c ->
    rd_run fuel (iter_recursive_external_cache value asz p (ca_visited c)) = Ok (l, visited) ->
    cache_history max_size (Cache visited (ca_max_size c)).

(** Operations on n-grams and on lists of at most five items. *)
Inductive ng_op := OpPush (x : vocab_id) | OpPopFirst | OpPopLast.
Definition ng_apply (n : ngram) (o : ng_op) : ngram :=
  match o with OpPush x => (ng_push n x).2 | OpPopFirst => (ng_pop_first n).2 | OpPopLast => (ng_pop_last n).2 end.
Definition list_apply (l : list vocab_id) (o : ng_op) : list vocab_id :=
  match o with
  | OpPush x => if decide (length l < 5) then l ++ [x] else l
  | OpPopFirst => tail l
  | OpPopLast => take (length l - 1) l
  end.
