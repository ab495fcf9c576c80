(** Properties C14-C16: retrieval of candidates. *)
From Coq Require Import Lia.
From Verif Require Import M_Base M_Anahash M_Iter M_Distance M_Float M_Types M_Model M_Confusable M_Search.
From Verif Require Import S_Anahash S_Iter S_Distance S_Model S_Search P_Anahash P_Nearest C_Anahash C_Model.
From stdpp Require Import options.

(** ** C14 *)
(** The retrieved hashes are the hashes of the searchable entries within the
    distance, for limits below the length of the query and texts of fewer than
    256 characters. *)
Theorem C14_retrieval_within o o' m m' q ks max :
  alphabet_ok (m_alphabet m) -> some_order o -> some_order o' -> build o o' m = Ok m' ->
  (forall id v ks', entry_reading m id v ks' -> length ks' < 256) ->
  reads (m_alphabet m) q ks -> Forall (fun k => k < 167) ks -> length ks < 256 -> max < length ks ->
  exists focus F near, anahash (m_alphabet m') q = Ok focus /\
    (forall f order, F <= f -> some_order order -> find_nearest f order m' focus max Exhaustive = Ok near) /\
    forall h, h ∈ near <->
      exists id v ks', entry_reading m id v ks' /\ anahash (m_alphabet m) (vv_text v) = Ok h /\ bag_within ks ks' max.
Proof. exact (retrieval_within o o' m m' q ks max). Qed.
Print Assumptions C14_retrieval_within.

(** What is retrieved without these two limits. *)
Theorem C14_retrieval_exact o o' m m' q ks max :
  alphabet_ok (m_alphabet m) -> some_order o -> some_order o' -> build o o' m = Ok m' -> short_entries m ->
  reads (m_alphabet m) q ks -> Forall (fun k => k < 167) ks ->
  (N.of_nat (length ks) + N.of_nat max < 65536)%N -> max <= 255 ->
  exists focus F near, anahash (m_alphabet m') q = Ok focus /\
    (forall f order, F <= f -> some_order order -> find_nearest f order m' focus max Exhaustive = Ok near) /\
    forall h, h ∈ near <->
      exists id v ks', entry_reading m id v ks' /\ anahash (m_alphabet m) (vv_text v) = Ok h /\ in_reach ks max ks'.
Proof. intros HA Ho Ho' B HS. exact (retrieval_exact o o' m m' HA Ho Ho' B HS q ks max). Qed.
Print Assumptions C14_retrieval_exact.

(** a vocabulary with "ab", "ba", "abch", "b", "hh" (all searchable), built *)
Definition exWords : list str := [[97; 98]; [98; 97]; [97; 98; 99; 104]; [98]; [104; 104]]%N.
Definition exV : res model := run_adds (new_with_alphabet exA w1) (map (fun t => (t, None, par FSum 1 0)) exWords).
Definition exB : res model := let* m := exV in build id id m.
(** from "ab" with limit 1: the classes of "ab" (6), "abch" (30) and "b" (3) *)
Example C14_ex :
  (let* m := exB in let* n := find_nearest 100 id m 6 1 Exhaustive in Ok (btree_list n)) = Ok [3; 6; 30]%N.
Proof. by vm_compute. Qed.
(** with limit 2, as long as the query, "hh" (at distance 4) still is out of
    reach, but so would be a disjoint "h": the query's own length counts *)
Example C14_ex_reads : reads exA [97; 98]%N [0; 1] /\ bag_within [0; 1] [0; 1; 2] 1 /\ ~ bag_within [0; 1] [4; 4] 2.
Proof.
  split; [|split].
  - destruct (reads_total exA [97; 98]%N exA_ok) as [ks H]. assert (ks = [0; 1]) as <-; [|done].
    pose proof (normalize_reads exA [97; 98]%N ks exA_ok H) as E. vm_compute in E.
    destruct ks as [|a [|b [|c l]]]; try done. injection E as Ha Hb.
    assert (Forall (fun k => k <= 5) [a; b]) as F by (exact (reads_bound _ _ _ H)).
    apply Forall_cons in F as [? F]. apply Forall_cons in F as [? _].
    destruct a as [|[|[|[|[|[]]]]]], b as [|[|[|[|[|[]]]]]]; try done; lia.
  - exists 1. split; [|lia]. exists [0; 1], [], [2]. split; [done|]. split; [done|]. split; [done|]. intros a Ha. by apply elem_of_nil in Ha.
  - intros (d & (c & x & y & E1 & E2 & -> & _) & Hd).
    assert (c = []) as ->.
    { destruct c as [|k c]; [done|]. exfalso. assert (k ∈ [0; 1]) as H1 by (rewrite E1; left).
      assert (k ∈ [4; 4]) as H2 by (rewrite E2; left). set_solver. }
    apply Permutation_length in E1, E2. cbn in *. lia.
Qed.

(** ** C15 *)
(** Retrieval succeeds for alphabets of at most 166 lines ... *)
Theorem C15_retrieval_succeeds o o' m m' q ks max stop :
  alphabet_ok (m_alphabet m) -> length (m_alphabet m) <= 166 -> some_order o -> some_order o' ->
  build o o' m = Ok m' -> short_entries m -> reads (m_alphabet m) q ks ->
  (N.of_nat (length ks) + N.of_nat max < 65536)%N -> max <= 255 ->
  exists focus F near, anahash (m_alphabet m') q = Ok focus /\
    forall f order, F <= f -> some_order order -> find_nearest f order m' focus max stop = Ok near.
Proof.
  intros HA H166 Ho Ho' B HS Hr Hlen Hmax.
  assert (Forall (fun k => k < 167) ks) as Hks.
  { eapply Forall_impl; [by eapply reads_bound|]. cbn. lia. }
  destruct stop.
  - destruct (retrieval_exact o o' m m' HA Ho Ho' B HS q ks max Hr Hks Hlen Hmax) as (focus & F & near & ? & ? & _). eauto 10.
  - destruct (retrieval_stop o o' m m' HA Ho Ho' B HS q ks max Hr Hks Hlen Hmax) as (focus & F & near & ? & ? & _). eauto 10.
Qed.
Print Assumptions C15_retrieval_succeeds.

(** ... but with 167 lines, which the hasher accepts, a query with an unknown
    character makes it fail. *)
Definition alphabet167 : alphabet := map (fun i => [[N.of_nat (200 + i)]]) (seq 0 167).
Theorem C15_retrieval_succeeds_refuted :
  exists m m' focus, m_alphabet m = alphabet167 /\ length alphabet167 = 167 /\ build id id m = Ok m' /\
    anahash alphabet167 [97]%N = Ok focus /\
    forall f order, find_nearest (S f) order m' focus 1 Exhaustive = Panic IndexOutOfBounds.
Proof.
  exists (new_with_alphabet alphabet167 w1).
  destruct (build id id (new_with_alphabet alphabet167 w1)) as [m'|] eqn:E; [|exfalso; revert E; by vm_compute].
  exists m', 997%N. split; [done|]. split; [done|]. split; [done|]. split; [by vm_compute|].
  intros f order.
  assert (m_index m' !! 997%N = None /\ m_alphabet m' = alphabet167) as [Hi HA].
  { revert E. vm_compute. intros [= <-]. done. }
  unfold find_nearest. rewrite Hi, HA. destruct f; by vm_compute.
Qed.
Print Assumptions C15_retrieval_succeeds_refuted.
Example C15_ex : alphabet_ok exA /\ length exA <= 166 /\
  (let* m := exB in let* n := find_nearest 1000 id m 1 3 Exhaustive in Ok (btree_list n)) = Ok [3; 6; 30; 121]%N.
Proof. split; [exact exA_ok|]. split; [cbn; lia|]. by vm_compute. Qed.

(** ** C16 *)
Theorem C16_stop_at_exact_match o o' m m' q ks max :
  alphabet_ok (m_alphabet m) -> some_order o -> some_order o' -> build o o' m = Ok m' -> short_entries m ->
  reads (m_alphabet m) q ks -> Forall (fun k => k < 167) ks ->
  (N.of_nat (length ks) + N.of_nat max < 65536)%N -> max <= 255 ->
  exists focus F near, anahash (m_alphabet m') q = Ok focus /\
    (forall f order, F <= f -> some_order order -> find_nearest f order m' focus max StopAtExactMatch = Ok near) /\
    ((exists id v, indexed m id v /\ anahash (m_alphabet m) (vv_text v) = Ok focus) -> near = {[ focus ]}) /\
    ((~ exists id v, indexed m id v /\ anahash (m_alphabet m) (vv_text v) = Ok focus) ->
     forall f order, F <= f -> some_order order -> find_nearest f order m' focus max Exhaustive = Ok near).
Proof. intros HA Ho Ho' B HS. exact (retrieval_stop o o' m m' HA Ho Ho' B HS q ks max). Qed.
Print Assumptions C16_stop_at_exact_match.
Example C16_ex :
  (let* m := exB in let* n := find_nearest 1000 id m 6 1 StopAtExactMatch in Ok (btree_list n)) = Ok [6]%N /\
  (let* m := exB in let* n := find_nearest 1000 id m 15 2 StopAtExactMatch in Ok (btree_list n)) = Ok [3; 6; 30]%N.
Proof. by vm_compute. Qed.
