(** Properties C53, C56 and the cache half of C55. *)
From Verif Require Import M_Base M_Anahash M_Iter M_Float M_Types M_Model M_Values S_Model S_Values P_Values.
From stdpp Require Import options.

(** ** C53 *)
Theorem C53_round_trip l n : ng_from_list l = Some n <-> length l <= 5 /\ ng_to_vec n = l.
Proof.
  split.
  - intros H. split; [|by apply ng_list_inv]. destruct (decide (length l <= 5)); [done|]. rewrite ng_long in H by lia. done.
  - intros [_ <-]. apply ng_vec.
Qed.
Print Assumptions C53_round_trip.
Theorem C53_round_trip_total l : length l <= 5 -> exists n, ng_from_list l = Some n.
Proof. intros H. destruct (ng_list l H) as (n & Hn & _). by exists n. Qed.
Print Assumptions C53_round_trip_total.
Theorem C53_optional_items l n : ng_from_option_list l = Some n <-> l = map Some (ng_to_vec n).
Proof. exact (ng_options l n). Qed.
Print Assumptions C53_optional_items.
Theorem C53_operations n os : ng_to_vec (foldl ng_apply n os) = foldl list_apply (ng_to_vec n) os.
Proof. exact (ng_steps os n). Qed.
Print Assumptions C53_operations.
Theorem C53_reports n :
  ng_len n = length (ng_to_vec n) /\ ng_len n <= 5 /\
  (forall x, (ng_push n x).1 = true <-> length (ng_to_vec n) < 5) /\
  ng_first n = head (ng_to_vec n) /\
  ng_to_vec (ng_pop_first n).1 = take 1 (ng_to_vec n) /\
  ng_to_vec (ng_pop_last n).1 = drop (length (ng_to_vec n) - 1) (ng_to_vec n).
Proof. destruct (ng_vec n) as (_ & E & H). split; [done|]. split; [done|]. exact (ng_reports n). Qed.
Print Assumptions C53_reports.
Example C53_ex : ng_to_vec (foldl ng_apply NEmpty [OpPush 7; OpPush 8; OpPush 9; OpPopFirst; OpPush 4; OpPopLast]) = [8; 9] /\
  ng_from_list [1; 2; 3; 4; 5; 6] = None /\ ng_push (NQuint 1 2 3 4 5) 6 = (false, NQuint 1 2 3 4 5).
Proof. done. Qed.

(** ** C55 (the cache; for the searches see C55_shared_visited_set) *)
Theorem C55_cache_bounded max_size c : cache_history max_size c ->
  NoDup (ca_visited c) /\ (0 < max_size -> length (ca_visited (cache_check c)) <= max_size).
Proof. intros H. split; [by eapply history_ok|]. by apply checked. Qed.
Print Assumptions C55_cache_bounded.
(** a check keeps everything (within the limit) or nothing; 0 means no limit *)
Theorem C55_check_keeps max_size c : cache_history max_size c ->
  (ca_visited (cache_check c) = ca_visited c \/ ca_visited (cache_check c) = []) /\
  (max_size = 0 \/ length (ca_visited c) <= max_size -> cache_check c = c).
Proof. intros H. apply (checked max_size c H). Qed.
Print Assumptions C55_check_keeps.
(** the hash 90 has 3 single deletions: 30, 45, 18; a limit of 2 is exceeded *)
Definition exSP : search_params :=
  {| sp_min_distance := None; sp_max_distance := Some 1; sp_breadthfirst := true; sp_allow_duplicates := false; sp_allow_empty_leaves := true |}.
Example C55_cache_ex : exists c, cache_history 2 c /\ length (ca_visited c) = 3 /\ ca_visited (cache_check c) = [].
Proof.
  eexists (Cache _ 2). split.
  - eapply (ch_search 2 (cache_new 2) 90 5 exSP 50); [constructor|]. vm_compute. reflexivity.
  - done.
Qed.

(** ** C56 *)
Theorem C56_threshold_text parse_f32 s t : threshold_from_str parse_f32 s = Some t <-> threshold_text parse_f32 s t.
Proof. exact (threshold_parse parse_f32 s t). Qed.
Print Assumptions C56_threshold_text.
(** the ratio of a pair is not checked to be from 0 to 1: "7;3" *)
Theorem C56_ratio_range_refuted parse_f32 : parse_f32 [55%N] = Some (f32_of_nat 7) ->
  exists s x n, threshold_from_str parse_f32 s = Some (TRatioWithLimit x n) /\ fgt x f32_1 = true.
Proof.
  intros H. exists [55; 59; 51]%N, (f32_of_nat 7), 3. split; [|by vm_compute].
  apply C56_threshold_text. apply (tt_pair parse_f32 [55%N] [51%N] _ 3%N); [set_solver|set_solver|done|].
  exists [51%N]. split; [by left|]. split; [done|]. split; [|done]. repeat constructor; lia.
Qed.
Print Assumptions C56_ratio_range_refuted.
(** "3", "0.5" and "0.5;3" with a parser that knows "0.5" *)
Definition exP32 (s : str) : option f32 :=
  if decide (s = [48; 46; 53]%N) then Some (S754_finite false 8388608 (-24)) else None.
Example C56_ex :
  threshold_from_str exP32 [51]%N = Some (TAbsolute 3) /\
  threshold_from_str exP32 [48; 46; 53]%N = Some (TRatio (S754_finite false 8388608 (-24))) /\
  threshold_from_str exP32 [48; 46; 53; 59; 51]%N = Some (TRatioWithLimit (S754_finite false 8388608 (-24)) 3) /\
  threshold_from_str exP32 [48; 59; 46; 59; 51]%N = None.
Proof. by vm_compute. Qed.
