(** Properties C06-C08 and the iterator half of C55. *)
From Coq Require Import Sorted Lia.
From Verif Require Import M_Base M_Anahash S_Anahash M_Iter S_Iter P_Primes P_Anahash P_Iter P_Recurse.
From stdpp Require Import options.

Theorem C06_iter_lists_characters asz ks :
  bag_ok asz ks ->
  exists h F l, bag_hash ks = Ok h /\
    (forall f, F <= f -> rd_collect f (ana_iter h asz) = Ok l) /\
    map item_char l ≡ₚ ks /\ StronglySorted ge (map item_char l) /\
    map item_depth l = seq 1 (length ks).
Proof. exact (iter_lists asz ks). Qed.
Print Assumptions C06_iter_lists_characters.

Theorem C06_count_and_upper_bound asz ks :
  bag_ok asz ks -> (N.of_nat (length ks) < 65536)%N ->
  exists h, bag_hash ks = Ok h /\
    char_count h asz = Ok (N.of_nat (length ks)) /\
    exists m, alphabet_upper_bound h asz = Ok (m, N.of_nat (length ks)) /\
      (forall k, k ∈ ks -> k <= m) /\ (ks <> [] -> m ∈ ks).
Proof. exact (count_and_bound asz ks). Qed.
Print Assumptions C06_count_and_upper_bound.

(** How often one bag is in another: as often as it can be taken away. *)
Theorem C06_count_matches ks vs : below168 ks -> below168 vs -> vs <> [] ->
  exists h v n rest, bag_hash ks = Ok h /\ bag_hash vs = Ok v /\ ks ≡ₚ concat (replicate n vs) ++ rest /\
    ~ vs ⊆+ rest /\ exists F, forall f, F <= f -> count_matches f h v = Ok n.
Proof.
  intros Hk Hv Hne. exists (prod ks), (prod vs).
  enough (exists n rest, ks ≡ₚ concat (replicate n vs) ++ rest /\ ~ vs ⊆+ rest /\ exists F, forall f, F <= f -> count_matches f (prod ks) (prod vs) = Ok n) as (n & rest & H).
  { exists n, rest. split; [by apply bag_hash_ok|]. split; [by apply bag_hash_ok|]. done. }
  assert (forall len ks, length ks <= len -> below168 ks -> exists n rest, ks ≡ₚ concat (replicate n vs) ++ rest /\ ~ vs ⊆+ rest /\
    exists F, forall f, F <= f -> count_matches f (prod ks) (prod vs) = Ok n) as G; [|by apply (G (length ks) ks)].
  clear ks Hk. intros len. induction len as [len IH] using lt_wf_ind. intros ks Hlen Hk.
  pose proof (ana_contains_spec (prod ks) (prod vs) (prod_pos ks Hk) (prod_pos vs Hv)) as Hc. rewrite (prod_divide ks vs Hk Hv) in Hc.
  destruct (ana_contains (prod ks) (prod vs)) eqn:E.
  - destruct (submseteq_Permutation _ _ (proj1 Hc eq_refl)) as (gone & Hg).
    assert (below168 gone) as Hbg by (rewrite Hg in Hk; by apply Forall_app in Hk as [_ ?]).
    assert (0 < length vs) by (destruct vs; [done|cbn; lia]). assert (length ks = length vs + length gone) as Hl by (by rewrite Hg, app_length).
    destruct (IH (length gone) ltac:(lia) gone (le_n _) Hbg) as (n & rest & P & Hn & F & HF). exists (S n), rest. split; [|split; [done|]].
    + rewrite Hg, P. cbn [replicate concat]. by rewrite <- app_assoc.
    + exists (S F). intros f Hf. destruct f as [|f]; [lia|]. cbn [count_matches]. unfold ana_delete. rewrite E, (prod_perm _ _ Hg), prod_app, N.mul_comm, N.div_mul by (pose proof (prod_pos vs Hv); lia).
      by rewrite HF by lia.
  - exists 0, ks. split; [done|]. split; [intros H; apply Hc in H; done|]. exists 1. intros f Hf. destruct f as [|f]; [lia|]. cbn [count_matches]. unfold ana_delete. by rewrite E.
Qed.
Print Assumptions C06_count_matches.
Example C06_matches_ex : below168 [0; 1; 0; 2; 1; 0] /\ below168 [1; 0] /\ count_matches 9 (2 * 3 * 2 * 5 * 3 * 2) (3 * 2) = Ok 2.
Proof. split; [repeat constructor; lia|]. split; [repeat constructor; lia|by vm_compute]. Qed.

(** the character count of a text's hash is the length of its normal form (C03) *)
Theorem C03_char_count_is_normal_length A t n h :
  alphabet_ok A -> normalize_to_alphabet A t = Ok n -> anahash A t = Ok h ->
  (N.of_nat (length n) < 65536)%N ->
  exists asz, alphabet_size A = Ok asz /\ char_count h asz = Ok (N.of_nat (length n)).
Proof. exact (char_count_norm A t n h). Qed.
Print Assumptions C03_char_count_is_normal_length.

Example C06_ex :
  bag_ok 5 [0; 3; 3; 1] /\ bag_hash [0; 3; 3; 1] = Ok 294%N /\
  rd_collect 20 (ana_iter 294 5) = Ok [((42%N, 3), 1); ((6%N, 3), 2); ((2%N, 1), 3); ((1%N, 0), 4)] /\
  char_count 294 5 = Ok 4%N /\ alphabet_upper_bound 294 5 = Ok (3, 4%N).
Proof. split; [split; [lia|repeat constructor; lia]|]. vm_compute. done. Qed.

Theorem C07_single_deletions asz ks :
  bag_ok asz ks ->
  exists h l, bag_hash ks = Ok h /\ iter_parents h asz = Ok l /\
    StronglySorted gt (map snd l) /\
    forall v i, (v, i) ∈ l <-> exists sub, ks ≡ₚ i :: sub /\ bag_hash sub = Ok v.
Proof. exact (iter_parents_spec asz ks). Qed.
Print Assumptions C07_single_deletions.

Example C07_ex : iter_parents 294 5 = Ok [(42%N, 3); (98%N, 1); (147%N, 0)].
Proof. vm_compute. done. Qed.

Theorem C08_recursive_deletion_exactly_once asz ks p :
  bag_ok asz ks -> sp_allow_duplicates p = false ->
  exists h F l, bag_hash ks = Ok h /\
    (forall f, F <= f -> rd_collect f (iter_recursive h asz p) = Ok l) /\
    NoDup (map item_value l) /\
    (forall x, x ∈ l -> item_ok p ks x) /\
    (forall sub d, deletes ks d sub -> wanted p d sub ->
      exists x, x ∈ l /\ bag_hash sub = Ok (item_value x) /\ item_depth x = d) /\
    (sp_breadthfirst p = true -> StronglySorted le (map item_depth l)).
Proof. exact (recurse_spec asz ks p). Qed.
Print Assumptions C08_recursive_deletion_exactly_once.

Definition exP (bfs : bool) : search_params :=
  {| sp_min_distance := None; sp_max_distance := Some 2; sp_breadthfirst := bfs;
     sp_allow_duplicates := false; sp_allow_empty_leaves := false |}.
Example C08_ex :
  rd_collect 50 (iter_recursive 90 5 (exP true)) =
    Ok [((18%N, 2), 1); ((30%N, 1), 1); ((45%N, 0), 1); ((6%N, 1), 2); ((9%N, 0), 2); ((10%N, 1), 2); ((15%N, 0), 2)] /\
  rmap length (rd_collect 50 (iter_recursive 90 5 (exP false))) = Ok 7.
Proof. vm_compute. done. Qed.

(** sharing the set of visited hashes between searches: later searches only
    leave out what is already in the set, and what they report is added to it *)
Theorem C55_shared_visited_set asz ks p V0 h :
  bag_ok asz ks -> sp_allow_duplicates p = false -> bag_hash ks = Ok h -> h ∉ V0 ->
  exists F l V1,
    (forall f, F <= f -> rd_run f (iter_recursive_external_cache h asz p V0) = Ok (l, V1)) /\
    NoDup (map item_value l) /\
    (forall x, x ∈ l -> item_ok p ks x /\ item_value x ∉ V0) /\
    (forall v, v ∈ V1 <-> v ∈ V0 \/ v ∈ map item_value l) /\
    (sp_breadthfirst p = true -> StronglySorted le (map item_depth l)).
Proof. exact (recurse_cached asz ks p V0 h). Qed.
Print Assumptions C55_shared_visited_set.

Example C55_shared_ex :
  rmap fst (rd_run 50 (iter_recursive_external_cache 90 5 (exP true) [18%N])) =
    Ok [((30%N, 1), 1); ((45%N, 0), 1); ((6%N, 2), 2); ((10%N, 1), 2); ((15%N, 0), 2); ((9%N, 2), 2)].
Proof. vm_compute. done. Qed.
