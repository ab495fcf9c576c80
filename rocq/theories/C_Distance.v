(** Properties C09-C13: distances. *)
From Verif Require Import M_Base M_Anahash M_Iter M_Distance S_Distance P_Base P_Align P_Distance P_Distance2.
From stdpp Require Import options.

(** Only the first string is limited to 255 characters (its positions are
    stored in bytes); the second may have any length. *)
Theorem C09_damerau_levenshtein_minimal s t max :
  length s <= 255 -> max <= 255 ->
  exists d, min_edits true s t d /\
    damerau_levenshtein s t max = Ok (if (d <=? max)%nat then Some d else None).
Proof. exact (damerau_spec s t max). Qed.
Print Assumptions C09_damerau_levenshtein_minimal.

(** "ca" to "abc": two edits (swap, then insert between), where the restricted
    variant would need three *)
Example C09_ex :
  damerau_levenshtein [3; 1] [1; 2; 3] 5 = Ok (Some 2) /\
  damerau_levenshtein [1; 2; 3; 4] [2; 1; 4; 3] 1 = Ok None /\
  damerau_levenshtein [1; 2; 3; 4] [2; 1; 4; 3] 2 = Ok (Some 2).
Proof. vm_compute. done. Qed.

Theorem C10_levenshtein_exact a b max :
  max <= 255 ->
  exists d, min_edits false a b d /\
    levenshtein a b max = Ok (if (d <=? max)%nat then Some d else None).
Proof. exact (levenshtein_spec a b max). Qed.
Print Assumptions C10_levenshtein_exact.

Example C10_ex :
  levenshtein [1; 2; 3; 4] [2; 1; 4; 3] 9 = Ok (Some 3) /\ levenshtein [1; 2; 3; 4] [2; 1; 4; 3] 2 = Ok None /\
  levenshtein [] [1; 2] 1 = Ok None /\ levenshtein [1; 2; 3] [1; 3] 1 = Ok (Some 1).
Proof. vm_compute. done. Qed.

Theorem C11_damerau_is_metric s t r :
  length s <= 255 -> length t <= 255 -> length r <= 255 ->
  exists d1 d2 d3, damerau_levenshtein s t 255 = Ok (Some d1) /\
    damerau_levenshtein t r 255 = Ok (Some d2) /\ damerau_levenshtein s r 255 = Ok (Some d3) /\
    (d1 = 0 <-> s = t) /\ d3 <= d1 + d2 /\
    forall max, max <= 255 -> damerau_levenshtein s t max = damerau_levenshtein t s max.
Proof.
  exact (metric_laws true damerau_levenshtein (fun s t max Hs _ Hm => damerau_spec s t max Hs Hm) s t r).
Qed.
Print Assumptions C11_damerau_is_metric.

Theorem C11_levenshtein_is_metric s t r :
  length s <= 255 -> length t <= 255 -> length r <= 255 ->
  exists d1 d2 d3, levenshtein s t 255 = Ok (Some d1) /\
    levenshtein t r 255 = Ok (Some d2) /\ levenshtein s r 255 = Ok (Some d3) /\
    (d1 = 0 <-> s = t) /\ d3 <= d1 + d2 /\
    forall max, max <= 255 -> levenshtein s t max = levenshtein t s max.
Proof.
  exact (metric_laws false levenshtein (fun s t max _ _ Hm => levenshtein_spec s t max Hm) s t r).
Qed.
Print Assumptions C11_levenshtein_is_metric.

Example C11_ex :
  damerau_levenshtein [1; 2] [2; 1] 255 = Ok (Some 1) /\ damerau_levenshtein [2; 1] [2; 3; 1] 255 = Ok (Some 1) /\
  damerau_levenshtein [1; 2] [2; 3; 1] 255 = Ok (Some 2).
Proof. vm_compute. done. Qed.

Theorem C12_longest_common_substring s t :
  (N.of_nat (Nat.min (length s) (length t)) < 65536)%N ->
  exists w, lcs_length s t = Ok (N.of_nat (length w)) /\
    substring w s /\ substring w t /\
    forall w', substring w' s -> substring w' t -> length w' <= length w.
Proof. exact (lcs_spec s t). Qed.
Print Assumptions C12_longest_common_substring.

Theorem C12_common_prefix s t :
  (N.of_nat (Nat.min (length s) (length t)) < 65536)%N ->
  exists w, common_prefix_length s t = Ok (N.of_nat (length w)) /\
    w `prefix_of` s /\ w `prefix_of` t /\
    forall w', w' `prefix_of` s -> w' `prefix_of` t -> length w' <= length w.
Proof. exact (common_prefix_spec s t). Qed.
Print Assumptions C12_common_prefix.

Theorem C12_common_suffix s t :
  (N.of_nat (Nat.min (length s) (length t)) < 65536)%N ->
  exists w, common_suffix_length s t = Ok (N.of_nat (length w)) /\
    w `suffix_of` s /\ w `suffix_of` t /\
    forall w', w' `suffix_of` s -> w' `suffix_of` t -> length w' <= length w.
Proof. exact (common_suffix_spec s t). Qed.
Print Assumptions C12_common_suffix.

Theorem C12_symmetric s t :
  (N.of_nat (Nat.min (length s) (length t)) < 65536)%N ->
  lcs_length s t = lcs_length t s /\ common_prefix_length s t = common_prefix_length t s /\
  common_suffix_length s t = common_suffix_length t s.
Proof. exact (lengths_sym s t). Qed.
Print Assumptions C12_symmetric.

Example C12_ex :
  lcs_length [1; 2; 3; 4; 5] [9; 2; 3; 4; 8; 1; 2] = Ok 3%N /\
  common_prefix_length [1; 2; 3] [1; 2; 4; 3] = Ok 2%N /\ common_suffix_length [1; 2; 3] [1; 2; 4; 3] = Ok 1%N.
Proof. vm_compute. done. Qed.

Theorem C13_bag_difference_at_most_twice s t max d n :
  length s <= 255 -> max <= 255 ->
  damerau_levenshtein s t max = Ok (Some d) -> bag_diff s t n -> n <= 2 * d.
Proof. exact (damerau_bag s t max d n). Qed.
Print Assumptions C13_bag_difference_at_most_twice.

(** every pair of strings has a bag difference, so the theorem is not vacuous *)
Theorem C13_bag_difference_exists (s t : norm) : exists n, bag_diff s t n.
Proof. exact (bag_diff_exists s t). Qed.
Print Assumptions C13_bag_difference_exists.

(** bound attained: one substitution, two bag operations *)
Example C13_ex : damerau_levenshtein [1; 2] [1; 3] 9 = Ok (Some 1) /\ bag_diff [1; 2] [1; 3] 2.
Proof.
  split; [vm_compute; done|]. exists [1], [2], [3]. split_and!; [done..|].
  intros a Ha%elem_of_list_singleton Hb%elem_of_list_singleton. congruence.
Qed.
