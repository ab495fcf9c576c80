(** Proofs about the deletion iterators (src/iterators.rs). *)
From Coq Require Import Lia Sorted.
From Verif Require Import M_Base M_Anahash S_Anahash P_Primes M_Iter S_Iter.
From stdpp Require Import sorting.
From stdpp Require Import options.

(** ** Single deletions *)

Fixpoint dels (v : N) (k : nat) : list deletion :=
  match k with
  | O => []
  | S i => if ana_contains v (prime_at i) then ((v / prime_at i)%N, i) :: dels v i else dels v i
  end.

Lemma contains_one i : i < 168 -> ana_contains 1 (prime_at i) = false.
Proof.
  intros Hi. unfold ana_contains. pose proof (prime_at_ge2 i Hi).
  destruct (N.ltb_spec 1 (prime_at i)); [done|lia].
Qed.

Lemma dels_one k : k <= 168 -> dels 1 k = [].
Proof.
  induction k as [|k IH]; intros Hk; cbn; [done|].
  rewrite contains_one by lia. apply IH. lia.
Qed.

Lemma deletions_from_dels v k : k <= 168 -> deletions_from v k = Ok (dels v k).
Proof.
  intros Hk. destruct (N.eq_dec v 1) as [->|Hv].
  { rewrite dels_one by done. destruct k; done. }
  induction k as [|k IH]; cbn; [done|].
  destruct (N.eqb_spec v 1); [done|].
  rewrite character_ok by lia. cbn. unfold ana_delete.
  rewrite IH by lia.
  destruct (ana_contains v (prime_at k)); done.
Qed.

Lemma first_deletion_dels v k : k <= 168 -> first_deletion_from v k = Ok (head (dels v k)).
Proof.
  intros Hk. destruct (N.eq_dec v 1) as [->|Hv].
  { rewrite dels_one by done. destruct k; done. }
  induction k as [|k IH]; cbn; [done|].
  destruct (N.eqb_spec v 1); [done|].
  rewrite character_ok by lia. cbn. unfold ana_delete.
  destruct (ana_contains v (prime_at k)); [done|]. rewrite IH by lia. done.
Qed.

Lemma contains_zero i : i < 168 -> ana_contains 0 (prime_at i) = false.
Proof.
  intros Hi. unfold ana_contains. pose proof (prime_at_ge2 i Hi).
  destruct (N.ltb_spec 0 (prime_at i)); [done|lia].
Qed.

Lemma elem_of_dels v k c i :
  k <= 168 -> (c, i) ∈ dels v k <-> (0 < c)%N /\ i < k /\ v = (c * prime_at i)%N.
Proof.
  intros Hk. induction k as [|k IH]; cbn.
  - rewrite elem_of_nil. split; [done|lia].
  - pose proof (prime_at_ge2 k ltac:(lia)) as P2.
    destruct (ana_contains v (prime_at k)) eqn:E.
    + destruct (N.eq_dec v 0) as [->|Hv]; [rewrite contains_zero in E by lia; done|].
      apply ana_contains_spec in E as [q ->]; [|lia..].
      rewrite elem_of_cons, IH by lia. rewrite N.div_mul by lia. split.
      * intros [[= -> ->]|(H1 & H2 & H3)]; [split_and!; try lia; nia|]. split_and!; try lia; done.
      * intros (H1 & H2 & H3).
        destruct (decide (i = k)) as [->|]; [left|right; split_and!; try done; lia].
        f_equal. nia.
    + rewrite IH by lia. split.
      * intros (H1 & H2 & H3). split_and!; try done; lia.
      * intros (H1 & H2 & H3). destruct (decide (i = k)) as [->|]; [|split_and!; try done; lia].
        exfalso. assert (ana_contains v (prime_at k) = true); [|congruence].
        apply ana_contains_spec; [nia|lia|]. exists c. done.
Qed.

Lemma dels_chars_sorted v k : StronglySorted gt (map snd (dels v k)).
Proof.
  assert (G : forall k, Forall (fun i => i < k) (map snd (dels v k))).
  { induction k0 as [|k0 IH]; cbn; [constructor|].
    assert (Forall (fun i => i < S k0) (map snd (dels v k0))).
    { eapply Forall_impl; [exact IH|]. cbn. lia. }
    destruct (ana_contains v (prime_at k0)); [constructor; [cbn; lia|done]|done]. }
  induction k as [|k IH]; cbn; [constructor|].
  destruct (ana_contains v (prime_at k)); [|done]. cbn. constructor; [done|].
  eapply Forall_impl; [apply G|]. cbn. lia.
Qed.

Lemma bag_below168 asz ks : bag_ok asz ks -> below168 ks.
Proof. intros [H1 H2]. eapply Forall_impl; [exact H2|]. cbn. lia. Qed.

(** [C07] *)
Lemma iter_parents_spec asz ks :
  bag_ok asz ks ->
  exists h l, bag_hash ks = Ok h /\ iter_parents h asz = Ok l /\
    StronglySorted gt (map snd l) /\
    forall v i, (v, i) ∈ l <-> exists sub, ks ≡ₚ i :: sub /\ bag_hash sub = Ok v.
Proof.
  intros Hb. pose proof Hb as [Hasz Hks]. pose proof (bag_below168 _ _ Hb) as H168.
  exists (prod ks), (dels (prod ks) asz). split_and!.
  - by apply bag_hash_ok.
  - apply deletions_from_dels. done.
  - apply dels_chars_sorted.
  - intros v i. rewrite elem_of_dels by done. split.
    + intros (Hv & Hi & E).
      assert (Hin : i ∈ ks).
      { apply prime_divides_prod; [lia|done|]. exists v. done. }
      apply elem_of_Permutation in Hin as [sub Es].
      exists sub. split; [done|].
      rewrite bag_hash_ok.
      * f_equal. rewrite (prod_perm _ _ Es) in E. cbn in E.
        pose proof (prime_at_ge2 i ltac:(lia)). nia.
      * rewrite Es in H168. inversion H168. done.
    + intros (sub & Es & Hh).
      assert (Hs : below168 (i :: sub)) by (rewrite <- Es; done).
      assert (Hi : Forall (fun k => k < asz) (i :: sub)) by (rewrite <- Es; done).
      inversion Hs; subst. inversion Hi; subst.
      rewrite bag_hash_ok in Hh by done. injection Hh as <-.
      split_and!; [by apply prod_pos|done|].
      rewrite (prod_perm _ _ Es). cbn. ring.
Qed.

(** ** Fuel *)

Lemma rd_run_mono f f' it r : rd_run f it = Ok r -> f <= f' -> rd_run f' it = Ok r.
Proof.
  revert f' it r. induction f as [|f IH]; intros f' it r H Hf; [done|].
  destruct f' as [|f']; [lia|]. cbn in *.
  destruct (rd_step it) as [s|p]; [|done]. cbn in *.
  destruct s as [|it'|item it'].
  - done.
  - apply IH; [done|lia].
  - destruct (rd_run f it') as [[l vs]|p] eqn:E; [|done]. cbn in H.
    rewrite (IH f' it' _ E) by lia. done.
Qed.

(** ** The single-beam iterator *)

Definition beam (asz : nat) (q : list (deletion * nat)) : rditer :=
  set_queue (ana_iter 1 asz) q.

(** the items produced below a node at depth [d] whose bag is [ks] (sorted
    descending): the characters are removed one by one *)
Fixpoint beam_items (ks : list nat) (d : nat) : list (deletion * nat) :=
  match ks with
  | [] => []
  | k :: ks' => ((prod ks', k), S d) :: beam_items ks' (S d)
  end.

Lemma dels_head_sorted asz k ks :
  asz <= 168 -> k < asz -> Forall (fun x => x <= k) ks ->
  head (dels (prod (k :: ks)) asz) = Some (prod ks, k).
Proof.
  intros Hasz Hk Hks. cbn [prod].
  assert (H168 : below168 ks) by (eapply Forall_impl; [exact Hks|]; cbn; lia).
  pose proof (prime_at_ge2 k ltac:(lia)) as P2. pose proof (prod_pos ks H168) as Pp.
  induction asz as [|n IH]; [lia|]. cbn.
  destruct (decide (k = n)) as [<-|Hne].
  - assert (ana_contains (prime_at k * prod ks) (prime_at k) = true) as ->.
    { apply ana_contains_spec; [nia|lia|]. exists (prod ks). ring. }
    cbn. rewrite N.mul_comm, N.div_mul by lia. done.
  - assert (ana_contains (prime_at k * prod ks) (prime_at n) = false) as ->.
    { apply not_true_is_false. intros H. apply ana_contains_spec in H; [|nia|].
      - apply (prime_divides_prod n (k :: ks)) in H; [|lia|constructor; [lia|done]].
        apply elem_of_cons in H as [H|H]; [lia|].
        rewrite Forall_forall in Hks. apply Hks in H. lia.
      - pose proof (prime_at_ge2 n ltac:(lia)). lia. }
    apply IH; lia.
Qed.

Lemma beam_step asz v i d :
  asz <= 168 ->
  rd_step (beam asz [((v, i), d)]) =
  Ok (let it' := beam asz (match head (dels v asz) with Some c => [(c, S d)] | None => [] end) in
      if (d <? 1)%nat then RAgain it' else RYield ((v, i), d) it').
Proof.
  intros Hasz. unfold rd_step, beam, ana_iter, rditer_new, set_queue. cbn -[Nat.ltb].
  unfold dfs_step. cbn -[Nat.ltb]. rewrite first_deletion_dels by done. cbn -[Nat.ltb].
  unfold rd_emit. destruct (head (dels v asz)); cbn -[Nat.ltb]; rewrite orb_false_r;
    destruct (d <? 1)%nat; done.
Qed.

Lemma beam_run asz ks i d f :
  asz <= 168 -> Forall (fun k => k < asz) ks -> StronglySorted ge ks -> length ks + 2 <= f ->
  exists vs, rd_run f (beam asz [((prod ks, i), d)]) =
    Ok ((if (d <? 1)%nat then [] else [((prod ks, i), d)]) ++ beam_items ks d, vs).
Proof.
  intros Hasz. revert i d f. induction ks as [|k ks IH]; intros i d f Hks Hs Hf.
  - destruct f as [|[|f]]; [cbn in Hf; lia..|].
    exists []. cbn [rd_run]. rewrite beam_step by done. cbn [prod]. rewrite dels_one by done.
    cbn [head rbind]. destruct (d <? 1)%nat; cbn; done.
  - inversion Hks as [|? ? Hk Hks']; subst. inversion Hs as [|? ? Hs' Hge]; subst.
    destruct f as [|f]; [lia|]. cbn [length] in Hf.
    destruct (IH k (S d) f) as [vs Hvs]; [done|done|lia|].
    exists vs. cbn [rd_run]. rewrite beam_step by done.
    rewrite dels_head_sorted; [|done|done|]; [|eapply Forall_impl; [exact Hge|]; cbn; lia].
    cbn [rbind]. destruct (d <? 1)%nat; rewrite Hvs; done.
Qed.

Lemma beam_items_chars ks d : map item_char (beam_items ks d) = ks.
Proof. revert d. induction ks as [|k ks IH]; intros d; cbn; [done|]. f_equal. apply IH. Qed.

Lemma beam_items_depths ks d : map item_depth (beam_items ks d) = seq (S d) (length ks).
Proof. revert d. induction ks as [|k ks IH]; intros d; cbn; [done|]. f_equal. apply IH. Qed.

(** sorting a bag in descending order *)
Lemma sort_desc (ks : list nat) : exists ks', ks ≡ₚ ks' /\ StronglySorted ge ks'.
Proof.
  assert (Hd : forall x y : nat, Decision (ge x y)) by (intros x y; unfold ge; apply _).
  assert (Ht : Total ge) by (intros x y; unfold ge; lia).
  assert (Hr : Transitive ge) by (intros x y z; unfold ge; lia).
  exists (merge_sort ge ks). split.
  - symmetry. apply merge_sort_Permutation.
  - apply (StronglySorted_merge_sort ge).
Qed.

Lemma iter_run asz ks f :
  bag_ok asz ks -> iter_fuel (prod ks) <= f ->
  exists l, rd_collect f (ana_iter (prod ks) asz) = Ok l /\
    map item_char l ≡ₚ ks /\ StronglySorted ge (map item_char l) /\
    map item_depth l = seq 1 (length ks).
Proof.
  intros Hb Hf. pose proof Hb as [Hasz Hks].
  destruct (sort_desc ks) as (ks' & Ep & Hs).
  assert (Hks' : Forall (fun k => k < asz) ks') by (rewrite <- Ep; done).
  destruct (beam_run asz ks' 0 0 f) as [vs Hvs]; [done..| |].
  { unfold iter_fuel in Hf.
    assert (Hl : (2 ^ N.of_nat (length ks') <= prod ks')%N).
    { apply prod_length_le. eapply Forall_impl; [exact Hks'|]. cbn. lia. }
    rewrite (prod_perm _ _ Ep) in Hf.
    apply N.log2_le_mono in Hl. rewrite N.log2_pow2 in Hl by lia. lia. }
  cbn in Hvs. exists (beam_items ks' 0).
  split_and!.
  - unfold rd_collect, rmap. rewrite (prod_perm _ _ Ep).
    unfold beam, set_queue in Hvs. cbn in Hvs. unfold ana_iter, rditer_new. cbn.
    rewrite Hvs. done.
  - rewrite beam_items_chars. done.
  - rewrite beam_items_chars. done.
  - rewrite beam_items_depths. rewrite (Permutation_length Ep). done.
Qed.

Lemma iter_fuel_enough asz ks f :
  bag_ok asz ks -> iter_fuel (prod ks) <= f ->
  rd_collect f (ana_iter (prod ks) asz) =
  rd_collect (iter_fuel (prod ks)) (ana_iter (prod ks) asz).
Proof.
  intros Hb Hf. destruct (iter_run asz ks (iter_fuel (prod ks)) Hb (le_n _)) as (l & H & _).
  unfold rd_collect, rmap in *.
  destruct (rd_run (iter_fuel (prod ks)) (ana_iter (prod ks) asz)) as [r|p] eqn:E; [|done].
  rewrite (rd_run_mono _ _ _ _ E Hf). done.
Qed.

Lemma char_count_spec asz ks :
  bag_ok asz ks -> (N.of_nat (length ks) < 65536)%N -> char_count (prod ks) asz = Ok (N.of_nat (length ks)).
Proof.
  intros Hb Hl. unfold char_count.
  destruct (iter_run asz ks _ Hb (le_n _)) as (l & -> & Hp & _ & _). cbn.
  f_equal. apply Permutation_length in Hp. rewrite map_length in Hp. rewrite Hp.
  unfold as_u16. apply N.mod_small. lia.
Qed.

Definition max_list (ks : list nat) : nat := foldr Nat.max 0 ks.

Lemma max_list_perm a b : a ≡ₚ b -> max_list a = max_list b.
Proof.
  unfold max_list. induction 1 as [|x l l' _ IH|x y l|l l' l'' _ IH1 _ IH2]; cbn; [done|lia|lia|lia].
Qed.

Lemma upper_bound_spec asz ks :
  bag_ok asz ks -> (N.of_nat (length ks) < 65536)%N ->
  alphabet_upper_bound (prod ks) asz = Ok (max_list ks, N.of_nat (length ks)).
Proof.
  intros Hb Hl. unfold alphabet_upper_bound.
  destruct (iter_run asz ks _ Hb (le_n _)) as (l & -> & Hp & _ & _). cbn [rbind].
  rewrite <- (max_list_perm _ _ Hp). apply Permutation_length in Hp. rewrite map_length in Hp.
  rewrite <- Hp in *. clear Hp.
  assert (G : forall m c, (c + N.of_nat (length l) < 65536)%N ->
    rfoldl (fun acc item =>
      let* count := u16_succ (acc.2) in
      let charindex := (item.1).2 in
      Ok (if (acc.1 <? charindex)%nat then charindex else acc.1, count)) (m, c) l =
    Ok (Nat.max m (max_list (map item_char l)), (c + N.of_nat (length l))%N)).
  { clear Hl. induction l as [|x l IH]; intros m c Hc; cbn [rfoldl map length].
    - cbn. f_equal. f_equal; lia.
    - cbn [length] in Hc. unfold u16_succ at 1. cbn [snd fst].
      destruct (N.ltb_spec c 65535); [|lia]. cbn [rbind].
      rewrite IH by lia. f_equal. f_equal; [|lia].
      cbn [max_list foldr]. unfold item_char at 2. fold (max_list (map item_char l)).
      destruct (Nat.ltb_spec m (x.1.2)); lia. }
  rewrite G by lia. f_equal.
Qed.
