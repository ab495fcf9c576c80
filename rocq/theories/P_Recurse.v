(** Proofs about recursive deletion without duplicates
    (RecurseDeletionIterator with [unique], both traversal orders). *)
From Coq Require Import Lia Sorted.
From Verif Require Import M_Base M_Anahash S_Anahash P_Primes P_Anahash M_Iter S_Iter P_Iter.
From stdpp Require Import options.

#[local] Set Default Proof Using "All".
Section recurse.
  Context (asz : nat) (Hasz : asz <= 168).
  Context (root : N) (Hroot : (0 < root)%N).
  Context (bfs : bool) (mind : nat) (maxd : option nat) (el : bool).
  Context (V0 : list N).

  Definition mk (q : list (deletion * nat)) (vs : list N) : rditer :=
    {| rd_queue := q; rd_alphabet_size := asz; rd_singlebeam := false;
       rd_breadthfirst := bfs; rd_mindepth := mind; rd_maxdepth := maxd;
       rd_empty_leaves := el; rd_unique := true; rd_visited := vs |}.

  Definition expandb (d : nat) : bool :=
    match maxd with None => true | Some m => (d <? m)%nat end.

  Definition kids (vs : list N) (v : N) (d : nat) : list (deletion * nat) :=
    map (fun c => (c, S d)) (List.filter (fun c => negb (visited_contains vs c.1)) (dels v asz)).

  Definition emit (q : list (deletion * nat)) (vs : list N) (node : deletion) (d : nat) : rdstep :=
    if (d <? mind)%nat || (negb el && ana_is_empty (node.1))
    then RAgain (mk q vs)
    else RYield (node, d) (mk q (visited_insert vs (node.1))).

  Lemma rd_emit_mk q vs node d : rd_emit (mk q vs) node d = emit q vs node d.
  Proof. done. Qed.

  Lemma step_nil vs : rd_step (mk [] vs) = Ok RDone.
  Proof. unfold rd_step, mk. cbn. destruct bfs; done. Qed.

  Lemma step_cons node d q vs :
    rd_step (mk ((node, d) :: q) vs) =
    Ok (if expandb d then
          if visited_contains vs (node.1) then RAgain (mk q vs)
          else emit (if bfs then q ++ kids vs (node.1) d else kids vs (node.1) d ++ q) vs node d
        else if bfs && visited_contains vs (node.1) then RAgain (mk q vs)
        else emit q vs node d).
  Proof.
    unfold rd_step. cbn [rd_breadthfirst mk]. unfold expandb. destruct bfs eqn:Eb.
    - unfold bfs_step. cbn [rd_queue mk].
      change (may_expand (set_queue (mk ((node, d) :: q) vs) q) d)
        with (match maxd with None => true | Some m => (d <? m)%nat end).
      cbn [rd_unique set_queue mk rd_visited andb].
      destruct (visited_contains vs node.1).
      + destruct (match maxd with None => true | Some m => (d <? m)%nat end);
          unfold set_queue, mk; cbn; rewrite Eb; done.
      + destruct (match maxd with None => true | Some m => (d <? m)%nat end).
        * cbn [rd_alphabet_size set_queue mk].
          rewrite deletions_from_dels by done. cbn [rbind].
          unfold rd_emit, emit, rd_children, kids, set_queue, set_visited, mk. cbn -[Nat.ltb].
          rewrite Eb. done.
        * cbn [rbind]. unfold rd_emit, emit, rd_children, kids, set_queue, set_visited, mk. cbn -[Nat.ltb].
          rewrite Eb. done.
    - unfold dfs_step. cbn [rd_queue mk].
      change (may_expand (set_queue (mk ((node, d) :: q) vs) q) d)
        with (match maxd with None => true | Some m => (d <? m)%nat end).
      cbn [rd_unique set_queue mk rd_visited andb rd_singlebeam].
      destruct (match maxd with None => true | Some m => (d <? m)%nat end).
      + destruct (visited_contains vs node.1).
        * unfold set_queue, mk; cbn; rewrite Eb; done.
        * cbn [rd_alphabet_size set_queue mk].
          rewrite deletions_from_dels by done. cbn [rbind].
          unfold rd_emit, emit, rd_children, kids, set_queue, set_visited, mk. cbn -[Nat.ltb].
          rewrite Eb. done.
      + unfold rd_emit, emit, rd_children, kids, set_queue, set_visited, mk. cbn -[Nat.ltb].
        rewrite Eb. done.
  Qed.

  Lemma visited_contains_spec vs v : visited_contains vs v = true <-> v ∈ vs.
  Proof.
    unfold visited_contains. rewrite existsb_exists, elem_of_list_In. split.
    - intros (x & Hx & E). apply N.eqb_eq in E. congruence.
    - intros H. exists v. split; [done|apply N.eqb_refl].
  Qed.
  Lemma visited_contains_false vs v : visited_contains vs v = false <-> v ∉ vs.
  Proof. rewrite <- not_true_iff_false, visited_contains_spec. done. Qed.

  Lemma elem_of_visited_insert vs v w : w ∈ visited_insert vs v <-> w = v \/ w ∈ vs.
  Proof.
    unfold visited_insert. destruct (visited_contains vs v) eqn:E.
    - apply visited_contains_spec in E. split; [auto|]. intros [->|]; done.
    - rewrite elem_of_cons. done.
  Qed.

  Definition vals (q : list (deletion * nat)) : list N := map item_value q.

  Lemma elem_of_kids vs v d x :
    x ∈ kids vs v d <-> x.2 = S d /\ x.1 ∈ dels v asz /\ x.1.1 ∉ vs.
  Proof.
    unfold kids. rewrite elem_of_list_In, in_map_iff. split.
    - intros (c & <- & H). apply filter_In in H as [H1 H2]. cbn.
      rewrite negb_true_iff, visited_contains_false in H2. rewrite elem_of_list_In. done.
    - intros (H1 & H2 & H3). exists (x.1). split; [destruct x; cbn in *; congruence|].
      apply filter_In. rewrite <- elem_of_list_In. split; [done|].
      rewrite negb_true_iff, visited_contains_false. done.
  Qed.

  (** ** Which values lie at which depth *)
  Definition sub_at (d : nat) (v : N) : Prop :=
    exists js, length js = d /\ Forall (fun j => j < asz) js /\ root = (v * prod js)%N.

  Lemma sub_at_root : sub_at 0 root.
  Proof. exists []. split_and!; [done|constructor|cbn; lia]. Qed.

  Lemma js168 js : Forall (fun j => j < asz) js -> below168 js.
  Proof. intros H. eapply Forall_impl; [exact H|]. cbn. lia. Qed.

  Lemma sub_at_pos d v : sub_at d v -> (0 < v)%N.
  Proof. intros (js & _ & _ & E). nia. Qed.

  Lemma sub_at_child d v c i : sub_at d v -> (c, i) ∈ dels v asz -> sub_at (S d) c.
  Proof.
    intros (js & <- & Hjs & E) H. apply elem_of_dels in H as (Hc & Hi & ->); [|done].
    exists (i :: js). split_and!; [done|constructor; done|]. cbn. rewrite E. ring.
  Qed.

  Lemma sub_at_S d c : sub_at (S d) c -> exists v i, sub_at d v /\ (c, i) ∈ dels v asz.
  Proof.
    intros H. pose proof (sub_at_pos _ _ H) as Hc. destruct H as (js & Hl & Hjs & E).
    destruct js as [|i js]; [done|]. apply Forall_cons in Hjs as [Hi Hjs].
    exists (c * prime_at i)%N, i. split.
    - exists js. split_and!; [cbn in Hl; lia|done|]. rewrite E. cbn. ring.
    - apply elem_of_dels; done.
  Qed.

  Lemma sub_at_inj d d' v : sub_at d v -> sub_at d' v -> d = d'.
  Proof.
    intros H H'. pose proof (sub_at_pos _ _ H) as Hv.
    destruct H as (js & <- & Hj & E). destruct H' as (js' & <- & Hj' & E').
    apply Permutation_length, prod_inj; [by apply js168..|]. nia.
  Qed.

  Lemma dels_values_NoDup v k : k <= asz -> NoDup (map fst (dels v k)).
  Proof.
    induction k as [|k IH]; intros Hk; cbn; [constructor|].
    destruct (ana_contains v (prime_at k)) eqn:E; [|apply IH; lia].
    cbn. constructor; [|apply IH; lia].
    intros H. apply elem_of_list_In, in_map_iff in H as ([c i] & Ec & Hin).
    cbn in Ec. subst. apply elem_of_list_In, elem_of_dels in Hin as (Hc & Hi & Ev); [|lia].
    assert (Hk168 : k < 168) by lia. pose proof (prime_at_ge2 k Hk168) as P2.
    apply ana_contains_spec in E; [|subst; pose proof (prime_at_ge2 i ltac:(lia)); nia|lia].
    destruct E as [w Ew]. rewrite Ew, N.div_mul in Ev by lia.
    rewrite Ew, N.div_mul in Hc by lia.
    assert (prime_at k = prime_at i) by nia.
    apply prime_at_inj in H; lia.
  Qed.

  Lemma vals_kids vs v d :
    vals (kids vs v d) = map fst (List.filter (fun c => negb (visited_contains vs c.1)) (dels v asz)).
  Proof. unfold vals, kids. rewrite map_map. done. Qed.

  Lemma NoDup_map_filter {A B} (f : A -> B) (g : A -> bool) (l : list A) :
    NoDup (map f l) -> NoDup (map f (List.filter g l)).
  Proof.
    induction l as [|x l IH]; cbn; [done|]. intros H. inversion H as [|? ? Hn Hd]; subst.
    destruct (g x); [|auto]. cbn. constructor; [|auto].
    intros Hin. apply Hn. apply elem_of_list_In, in_map_iff in Hin as (y & E & Hy).
    apply filter_In in Hy as [Hy _]. apply elem_of_list_In, in_map_iff. eauto.
  Qed.

  (** ** Termination *)
  Definition weight (v : N) : nat := (S asz) ^ N.to_nat (N.log2 v).
  Definition total_weight (q : list (deletion * nat)) : nat :=
    foldr (fun x n => weight (x.1.1) + n) 0 q.

  Lemma total_weight_app q q' : total_weight (q ++ q') = total_weight q + total_weight q'.
  Proof. induction q as [|x q IH]; cbn; [done|]. unfold total_weight in *. lia. Qed.

  Lemma dels_length v k : length (dels v k) <= k.
  Proof.
    induction k as [|k IH]; cbn; [lia|]. destruct (ana_contains v (prime_at k)); cbn; lia.
  Qed.

  Lemma kids_weight vs v d : total_weight (kids vs v d) < weight v.
  Proof.
    assert (Hlen : length (kids vs v d) <= asz).
    { unfold kids. rewrite map_length. etrans; [|apply (dels_length v asz)].
      induction (dels v asz) as [|x l IH]; cbn; [lia|].
      destruct (negb (visited_contains vs x.1)); cbn; lia. }
    destruct (N.log2 v) as [|pL] eqn:EL.
    - assert (Hv : (v < 2)%N).
      { destruct (N.eq_dec v 0) as [->|]; [lia|]. pose proof (N.log2_spec v). rewrite EL in H. cbn in H. lia. }
      assert (kids vs v d = []) as ->; [|unfold weight; rewrite EL; cbn; lia].
      destruct (kids vs v d) as [|x l] eqn:E; [done|]. exfalso.
      assert (Hx : x ∈ kids vs v d) by (rewrite E; left).
      apply elem_of_kids in Hx as (_ & Hx & _). destruct x as [[c i] e]. cbn in Hx.
      apply elem_of_dels in Hx as (Hc & Hi & Ev); [|done].
      pose proof (prime_at_ge2 i ltac:(lia)). nia.
    - assert (Hw : forall x, x ∈ kids vs v d -> weight (x.1.1) <= (S asz) ^ (N.to_nat (N.log2 v) - 1)).
      { intros [[c i] e] Hx. apply elem_of_kids in Hx as (_ & Hx & _). cbn in *.
        apply elem_of_dels in Hx as (Hc & Hi & Ev); [|done].
        pose proof (prime_at_ge2 i ltac:(lia)) as P2.
        unfold weight. apply Nat.pow_le_mono_r; [lia|].
        assert (Hl : (N.log2 (2 * c) <= N.log2 v)%N) by (apply N.log2_le_mono; nia).
        rewrite N.log2_double in Hl by lia. lia. }
      assert (Hsum : total_weight (kids vs v d) <= length (kids vs v d) * (S asz) ^ (N.to_nat (N.log2 v) - 1)).
      { clear Hlen. induction (kids vs v d) as [|x l IH]; [cbn; lia|].
        cbn [total_weight foldr length]. fold (total_weight l).
        pose proof (Hw x ltac:(left)). assert (IH' := IH (fun y Hy => Hw y ltac:(right; done))). lia. }
      assert (Hp : weight v = S asz * (S asz) ^ (N.to_nat (N.log2 v) - 1)).
      { unfold weight. rewrite <- Nat.pow_succ_r'. f_equal. lia. }
      assert (1 <= (S asz) ^ (N.to_nat (N.log2 v) - 1)).
      { change 1 with ((S asz) ^ 0). apply Nat.pow_le_mono_r; lia. }
      rewrite Hp. nia.
  Qed.

  Lemma weight_pos v : 0 < weight v.
  Proof. unfold weight. apply Nat.neq_0_lt_0, Nat.pow_nonzero. lia. Qed.

  Lemma run_total q vs : exists f r, rd_run f (mk q vs) = Ok r.
  Proof.
    remember (total_weight q) as n eqn:En. revert q vs En.
    induction (lt_wf n) as [n _ IH]. intros q vs ->.
    destruct q as [|[node d] q].
    - exists 1. eexists. cbn [rd_run]. rewrite step_nil. cbn. reflexivity.
    - pose proof (step_cons node d q vs) as Hs.
      assert (Hnext : exists q' vs', total_weight q' < total_weight ((node, d) :: q) /\
        (rd_step (mk ((node, d) :: q) vs) = Ok (RAgain (mk q' vs')) \/
         rd_step (mk ((node, d) :: q) vs) = Ok (RYield (node, d) (mk q' vs')))).
      { cbn [total_weight foldr fst]. fold (total_weight q).
        pose proof (weight_pos node.1) as Hw.
        destruct (expandb d).
        - destruct (visited_contains vs node.1).
          + exists q, vs. split; [lia|]. left. done.
          + pose proof (kids_weight vs node.1 d) as Hk.
            set (q' := if bfs then q ++ kids vs node.1 d else kids vs node.1 d ++ q) in *.
            assert (total_weight q' < weight node.1 + total_weight q).
            { unfold q'. destruct bfs; rewrite total_weight_app; lia. }
            unfold emit in Hs. destruct ((d <? mind)%nat || negb el && ana_is_empty node.1).
            * exists q', vs. split; [done|]. left. done.
            * exists q', (visited_insert vs node.1). split; [done|]. right. done.
        - destruct (bfs && visited_contains vs node.1).
          + exists q, vs. split; [lia|]. left. done.
          + unfold emit in Hs. destruct ((d <? mind)%nat || negb el && ana_is_empty node.1).
            * exists q, vs. split; [lia|]. left. done.
            * exists q, (visited_insert vs node.1). split; [lia|]. right. done. }
      destruct Hnext as (q' & vs' & Hlt & Hst).
      destruct (IH _ Hlt q' vs' eq_refl) as (f & r & Hr).
      exists (S f). destruct Hst as [Hst|Hst]; eexists; cbn [rd_run]; rewrite Hst; cbn [rbind];
        rewrite Hr; cbn; reflexivity.
  Qed.

  (** ** The invariant *)
  Definition within (d : nat) : Prop := match maxd with None => True | Some m => d <= m end.
  Definition yieldable (d : nat) (v : N) : Prop :=
    mind <= d /\ within d /\ (el = true \/ v <> 1%N).

  (** the reported character is one of the deleted ones *)
  Definition char_ok (x : deletion * nat) : Prop :=
    match item_depth x with
    | O => True
    | S d' => item_char x < asz /\ sub_at d' (item_value x * prime_at (item_char x))
    end.

  Definition qitem_ok (x : deletion * nat) : Prop :=
    sub_at (item_depth x) (item_value x) /\ within (item_depth x) /\ char_ok x.

  Definition out_ok (x : deletion * nat) : Prop :=
    sub_at (item_depth x) (item_value x) /\ yieldable (item_depth x) (item_value x) /\ char_ok x.

  Definition leafshape (q : list (deletion * nat)) (vs : list N) : Prop :=
    match maxd with
    | None => True
    | Some m => exists q1 q2, q = q1 ++ q2 /\
        (forall x, x ∈ q1 -> item_depth x = m) /\ (forall x, x ∈ q2 -> item_depth x < m) /\
        NoDup (vals q1) /\ (forall v, v ∈ vals q1 -> v ∉ vs)
    end.

  Record Inv (P : list N) (out q : list (deletion * nat)) (vs : list N) : Prop := {
    inv_q : forall x, x ∈ q -> qitem_ok x;
    inv_vs : forall v, v ∈ vs <-> v ∈ V0 \/ v ∈ vals out;
    inv_nodup : NoDup (vals out);
    inv_v0 : forall v, v ∈ vals out -> v ∉ V0;
    inv_out : forall x, x ∈ out -> out_ok x;
    inv_P : forall v, v ∈ P -> exists d, sub_at d v /\
        (within d -> yieldable d v -> v ∈ vs) /\
        (expandb d = true -> forall c i, (c, i) ∈ dels v asz -> c ∈ P \/ c ∈ vals q \/ c ∈ V0);
    inv_root : root ∈ P \/ root ∈ vals q \/ root ∈ V0;
    inv_vsP : forall v, v ∈ vs -> v ∈ P \/ v ∈ V0;
    inv_leaf : bfs = false -> leafshape q vs;
  }.

  Lemma elem_of_vals x q : x ∈ q -> item_value x ∈ vals q.
  Proof. intros H. apply elem_of_list_In, in_map, elem_of_list_In. done. Qed.

  Lemma expandb_within d : expandb d = true -> within (S d).
  Proof. unfold expandb, within. destruct maxd as [m|]; [|done]. rewrite Nat.ltb_lt. lia. Qed.

  (** popping an already visited node *)
  Lemma inv_skip P out node d q vs :
    Inv P out ((node, d) :: q) vs -> node.1 ∈ vs ->
    (bfs = false -> expandb d = true) ->
    Inv P out q vs.
  Proof.
    intros [Iq Ivs Ind Iv0 Iout IP Ir IvP Il] Hv Hexp. constructor; try done.
    - intros x Hx. apply Iq. right. done.
    - intros v Hvp. destruct (IP v Hvp) as (d' & H1 & H2 & H3). exists d'. split_and!; [done..|].
      intros He c i Hc. destruct (H3 He c i Hc) as [H|[H|H]]; [auto| |auto].
      cbn in H. apply elem_of_cons in H as [H|H]; [|auto].
      unfold item_value in H. cbn in H. subst. destruct (IvP _ Hv); auto.
    - destruct Ir as [H|[H|H]]; [auto| |auto]. cbn in H. apply elem_of_cons in H as [H|H]; [|auto].
      unfold item_value in H. cbn in H. rewrite H. destruct (IvP _ Hv); auto.
    - intros Hb. specialize (Il Hb). specialize (Hexp Hb). unfold leafshape, expandb in *.
      destruct maxd as [m|]; [|done]. destruct Il as (q1 & q2 & Eq & H1 & H2 & H3 & H4).
      destruct q1 as [|x q1].
      + cbn in Eq. destruct q2 as [|y q2]; [done|]. injection Eq as <- ->.
        exists [], q2. split_and!; try done.
        * intros x Hx. apply H2. right. done.
      + exfalso. injection Eq as <- _. specialize (H1 (node, d) ltac:(left)). cbn in H1.
        apply Nat.ltb_lt in Hexp. lia.
  Qed.

  Lemma leaf_fresh P out node d q vs :
    Inv P out ((node, d) :: q) vs -> bfs = false -> expandb d = false -> node.1 ∉ vs.
  Proof.
    intros I Hb He. pose proof (inv_leaf _ _ _ _ I Hb) as Il.
    pose proof (inv_q _ _ _ _ I (node, d) ltac:(left)) as (_ & Hw & _).
    unfold leafshape, expandb, within in *. destruct maxd as [m|]; [|done].
    apply Nat.ltb_ge in He. cbn in Hw.
    destruct Il as (q1 & q2 & Eq & H1 & H2 & H3 & H4). destruct q1 as [|x q1].
    - cbn in Eq. destruct q2 as [|y q2]; [done|]. injection Eq as <- ->.
      specialize (H2 (node, d) ltac:(left)). cbn in H2. lia.
    - injection Eq as <- ->. apply (H4 (node.1)). left.
  Qed.

  Lemma vals_app q q' : vals (q ++ q') = vals q ++ vals q'.
  Proof. apply map_app. Qed.

  Lemma vals_perm q q' v : q ≡ₚ q' -> v ∈ vals q <-> v ∈ vals q'.
  Proof. intros H. unfold vals. rewrite H. done. Qed.

  Lemma emit_leafshape node d q vs q' w :
    (forall x, x ∈ (node, d) :: q -> qitem_ok x) ->
    leafshape ((node, d) :: q) vs ->
    q' = (if expandb d then kids vs (node.1) d ++ q else q) ->
    (forall v, v ∈ w -> v ∈ vs \/ v = node.1) ->
    leafshape q' w.
  Proof.
    intros Hq. unfold leafshape, expandb. destruct maxd as [m|] eqn:Em; [|done].
    intros (q1 & q2 & Eq & H1 & H2 & H3 & H4) -> Hw.
    pose proof (Hq (node, d) ltac:(left)) as (Hsub & Hwi & _). cbn in Hsub, Hwi.
    unfold within in Hwi. rewrite Em in Hwi.
    destruct (Nat.ltb_spec d m) as [Hd|Hd].
    - destruct q1 as [|x q1]; [|injection Eq as <- _; specialize (H1 (node, d) ltac:(left)); cbn in H1; lia].
      cbn in Eq. subst q2.
      destruct (Nat.eq_dec (S d) m) as [Hm|Hm].
      + exists (kids vs (node.1) d), q. split_and!; [done| | | |].
        * intros x Hx. apply elem_of_kids in Hx as (Hx & _). unfold item_depth. lia.
        * intros x Hx. apply H2. right. done.
        * rewrite vals_kids. apply NoDup_map_filter, dels_values_NoDup. done.
        * intros v Hv. apply elem_of_list_In, in_map_iff in Hv as ([[c i] e] & <- & Hv).
          apply elem_of_list_In, elem_of_kids in Hv as (_ & Hv & Hnv). cbn in *.
          intros Hin. apply Hw in Hin as [?|Hin]; [done|].
          assert (Hc : sub_at (S d) c) by (eapply sub_at_child; done).
          unfold item_value in Hin. cbn in Hin. subst c.
          pose proof (sub_at_inj _ _ _ Hsub Hc). lia.
      + exists [], (kids vs (node.1) d ++ q). split_and!; [done|by intros ? ?%elem_of_nil| |constructor|by intros ? ?%elem_of_nil].
        intros x Hx. apply elem_of_app in Hx as [Hx|Hx]; [|apply H2; right; done].
        apply elem_of_kids in Hx as (Hx & _). unfold item_depth. lia.
    - destruct q1 as [|x q1].
      { cbn in Eq. subst q2. specialize (H2 (node, d) ltac:(left)). cbn in H2. lia. }
      injection Eq as <- ->. exists q1, q2. cbn in H3. apply NoDup_cons in H3 as [H3 H3'].
      split_and!; [done| |done|done|].
      + intros x Hx. apply H1. right. done.
      + intros v Hv Hin. apply Hw in Hin as [Hin|Hin].
        * apply (H4 v); [right; done|done].
        * subst. done.
  Qed.

  Lemma inv_emit P out node d q vs q' :
    Inv P out ((node, d) :: q) vs -> node.1 ∉ vs ->
    q' ≡ₚ (if expandb d then kids vs (node.1) d else []) ++ q ->
    (bfs = false -> q' = (if expandb d then kids vs (node.1) d ++ q else q)) ->
    match emit q' vs node d with
    | RDone => False
    | RAgain it => it = mk q' vs /\ Inv (node.1 :: P) out q' vs
    | RYield x it => exists vs', it = mk q' vs' /\ x = (node, d) /\ Inv (node.1 :: P) (out ++ [x]) q' vs'
    end.
  Proof.
    intros I Hn Hq' Hdfs. destruct I as [Iq Ivs Ind Iv0 Iout IP Ir IvP Il].
    pose proof (Iq (node, d) ltac:(left)) as (Hsub & Hwi & Hch). cbn in Hsub, Hwi.
    assert (Hqok : forall x, x ∈ q' -> qitem_ok x).
    { intros x Hx. rewrite Hq' in Hx. apply elem_of_app in Hx as [Hx|Hx]; [|apply Iq; right; done].
      destruct (expandb d) eqn:He; [|by apply elem_of_nil in Hx].
      apply elem_of_kids in Hx as (Hx1 & Hx2 & Hx3). destruct x as [[c i] e]. cbn in *. subst e.
      unfold qitem_ok, char_ok, item_depth, item_value, item_char. cbn. split_and!.
      - eapply sub_at_child; done.
      - apply expandb_within. done.
      - apply elem_of_dels in Hx2; [|done]. tauto.
      - apply elem_of_dels in Hx2 as (_ & _ & <-); done. }
    assert (Hold : forall v, v ∈ vals q -> v ∈ vals q').
    { intros v Hv. rewrite (vals_perm _ _ _ Hq'), vals_app, elem_of_app. auto. }
    assert (Hkid : expandb d = true -> forall c i, (c, i) ∈ dels (node.1) asz -> c ∈ node.1 :: P \/ c ∈ vals q' \/ c ∈ V0).
    { intros He c i Hc. destruct (decide (c ∈ vs)) as [Hv|Hv].
      - destruct (IvP c Hv); [left; right; done|auto].
      - right. left. rewrite (vals_perm _ _ _ Hq'), vals_app, elem_of_app. left. rewrite He.
        change c with (item_value ((c, i), S d)). apply elem_of_vals, elem_of_kids. done. }
    assert (Hroot' : root ∈ node.1 :: P \/ root ∈ vals q' \/ root ∈ V0).
    { destruct Ir as [H|[H|H]]; [left; right; done| |auto].
      cbn in H. apply elem_of_cons in H as [H|H]; [left; rewrite H; left|]. auto. }
    assert (HPold : forall vs' : list N, (forall v : N, v ∈ vs -> v ∈ vs') -> forall v, v ∈ P -> exists d, sub_at d v /\
        (within d -> yieldable d v -> v ∈ vs') /\
        (expandb d = true -> forall c i, (c, i) ∈ dels v asz -> c ∈ node.1 :: P \/ c ∈ vals q' \/ c ∈ V0)).
    { intros vs' Hvs' v Hv. destruct (IP v Hv) as (e & H1 & H2 & H3). exists e.
      split_and!; [done|auto|]. intros He c i Hc. destruct (H3 He c i Hc) as [H|[H|H]]; [left; right; done| |auto].
      cbn in H. apply elem_of_cons in H as [H|H]; [left; rewrite H; left|]. auto. }
    unfold emit.
    destruct ((d <? mind)%nat || negb el && ana_is_empty node.1) eqn:Ey.
    - split; [done|]. constructor; try done.
      + intros v Hv. apply elem_of_cons in Hv as [->|Hv]; [|eapply HPold; [|done]; done].
        exists d. split_and!; [done| |done]. intros _ (Hm & _ & Hel). exfalso.
        apply orb_true_iff in Ey as [Ey|Ey]; [apply Nat.ltb_lt in Ey; lia|].
        apply andb_true_iff in Ey as [Ee Ey]. apply negb_true_iff in Ee.
        destruct Hel as [Hel|Hel]; [congruence|].
        pose proof (sub_at_pos _ _ Hsub). unfold ana_is_empty in Ey.
        apply orb_true_iff in Ey as [Ey|Ey]; apply N.eqb_eq in Ey; unfold item_value in *; cbn in *; lia.
      + intros v Hv. destruct (IvP v Hv); [left; right; done|auto].
      + intros Hb. eapply emit_leafshape; [exact Iq|apply Il; done|auto|auto].
    - exists (visited_insert vs node.1). split_and!; [done..|].
      assert (Hy : yieldable d (node.1)).
      { apply orb_false_iff in Ey as [Ey1 Ey2]. apply Nat.ltb_ge in Ey1. split_and!; [done|done|].
        apply andb_false_iff in Ey2 as [E|E]; [left; apply negb_false_iff in E; done|right].
        unfold ana_is_empty in E. apply orb_false_iff in E as [E1 E2].
        intros E. rewrite E in *. done. }
      constructor.
      + done.
      + intros v. rewrite elem_of_visited_insert, Ivs, vals_app, elem_of_app. cbn.
        rewrite elem_of_list_singleton. unfold item_value. cbn. tauto.
      + rewrite vals_app. apply NoDup_app. split_and!; [done| |apply NoDup_singleton].
        intros v Hv. cbn. rewrite elem_of_list_singleton. intros ->. apply Hn, Ivs. auto.
      + intros v. rewrite vals_app, elem_of_app. cbn. rewrite elem_of_list_singleton.
        intros [Hv| ->]; [auto|]. intros H. apply Hn, Ivs. auto.
      + intros x. rewrite elem_of_app, elem_of_list_singleton. intros [Hx| ->]; [auto|].
        split_and!; done.
      + intros v Hv. apply elem_of_cons in Hv as [->|Hv].
        * exists d. split_and!; [done| |done]. intros _ _. apply elem_of_visited_insert. auto.
        * eapply HPold; [|done]. intros w Hw. apply elem_of_visited_insert. auto.
      + done.
      + intros v Hv. apply elem_of_visited_insert in Hv as [->|Hv]; [left; left|].
        destruct (IvP v Hv); [left; right; done|auto].
      + intros Hb. eapply emit_leafshape; [exact Iq|apply Il; done|auto|].
        intros v Hv. apply elem_of_visited_insert in Hv. tauto.
  Qed.

  Lemma run_inv f : forall P out q vs l vs',
    rd_run f (mk q vs) = Ok (l, vs') -> Inv P out q vs ->
    exists P', Inv P' (out ++ l) [] vs'.
  Proof.
    induction f as [|f IH]; intros P out q vs l vs' Hr I; [done|]. cbn [rd_run] in Hr.
    destruct q as [|[node d] q].
    { rewrite step_nil in Hr. cbn in Hr. injection Hr as <- <-. rewrite app_nil_r. eauto. }
    rewrite step_cons in Hr.
    destruct (decide (node.1 ∈ vs)) as [Hv|Hv].
    - assert (Hc : visited_contains vs node.1 = true) by (by apply visited_contains_spec).
      rewrite Hc in Hr. destruct (expandb d) eqn:He.
      + cbn in Hr. eapply IH; [exact Hr|]. eapply inv_skip; [exact I|done..].
      + destruct bfs eqn:Eb.
        * cbn in Hr. eapply IH; [exact Hr|]. eapply inv_skip; [exact I|done|]. congruence.
        * exfalso. eapply leaf_fresh; [exact I|done..].
    - assert (Hc : visited_contains vs node.1 = false) by (by apply visited_contains_false).
      rewrite Hc in Hr. rewrite andb_false_r in Hr.
      set (q' := if expandb d then if bfs then q ++ kids vs node.1 d else kids vs node.1 d ++ q else q).
      assert (Hr' : (let* s := Ok (emit q' vs node d) in
        match s with
        | RDone => Ok ([], rd_visited (mk ((node, d) :: q) vs))
        | RAgain it' => rd_run f it'
        | RYield item it' => let* r := rd_run f it' in Ok (item :: r.1, r.2)
        end) = Ok (l, vs')).
      { unfold q'. destruct (expandb d); exact Hr. }
      clear Hr. cbn [rbind] in Hr'.
      assert (Hie := inv_emit P out node d q vs q' I Hv).
      assert (H1 : q' ≡ₚ (if expandb d then kids vs node.1 d else []) ++ q).
      { unfold q'. destruct (expandb d); [|done]. destruct bfs; [|done]. by rewrite Permutation_app_comm. }
      assert (H2 : bfs = false -> q' = (if expandb d then kids vs node.1 d ++ q else q)).
      { intros Eb. unfold q'. rewrite Eb. done. }
      specialize (Hie H1 H2). destruct (emit q' vs node d) as [|it|x it]; [done| |].
      + destruct Hie as [-> I']. eapply IH; done.
      + destruct Hie as (vs1 & -> & -> & I').
        destruct (rd_run f (mk q' vs1)) as [[l1 vs2]|e] eqn:Er; [|done].
        cbn in Hr'. injection Hr' as <- <-.
        destruct (IH _ _ _ _ _ _ Er I') as [P' HP]. exists P'. rewrite <- app_assoc in HP. exact HP.
  Qed.

  Lemma inv_start : root ∉ V0 -> Inv [] [] [((root, 0), 0)] V0.
  Proof.
    intros Hr. constructor; cbn.
    - intros x Hx. apply elem_of_list_singleton in Hx as ->. unfold qitem_ok, char_ok. cbn.
      split_and!; [apply sub_at_root| |done]. unfold within. destruct maxd; [lia|done].
    - intros v. rewrite elem_of_nil. tauto.
    - constructor.
    - intros v Hv. by apply elem_of_nil in Hv.
    - intros v Hv. by apply elem_of_nil in Hv.
    - intros v Hv. by apply elem_of_nil in Hv.
    - right. left. left.
    - auto.
    - intros _. unfold leafshape. destruct maxd as [m|]; [|done].
      destruct m as [|m].
      + exists [((root, 0), 0)], []. split_and!; [done| |by intros ? ?%elem_of_nil|apply NoDup_singleton|].
        * intros x Hx. apply elem_of_list_singleton in Hx as ->. done.
        * intros v Hv. apply elem_of_list_singleton in Hv as ->. done.
      + exists [], [((root, 0), 0)]. split_and!; [done|by intros ? ?%elem_of_nil| |constructor|by intros ? ?%elem_of_nil].
        intros x Hx. apply elem_of_list_singleton in Hx as ->. cbn. lia.
  Qed.

  Lemma run_sound f l vs' :
    root ∉ V0 -> rd_run f (mk [((root, 0), 0)] V0) = Ok (l, vs') ->
    NoDup (vals l) /\ (forall v, v ∈ vals l -> v ∉ V0) /\
    (forall x, x ∈ l -> out_ok x) /\ (forall v, v ∈ vs' <-> v ∈ V0 \/ v ∈ vals l).
  Proof.
    intros Hr H. destruct (run_inv _ _ _ _ _ _ _ H (inv_start Hr)) as [P []]. done.
  Qed.

  Lemma run_complete f l vs' d v :
    V0 = [] -> rd_run f (mk [((root, 0), 0)] V0) = Ok (l, vs') ->
    sub_at d v -> yieldable d v -> v ∈ vals l.
  Proof.
    intros E0 H Hs Hy.
    assert (Hr : root ∉ V0) by (rewrite E0; apply not_elem_of_nil).
    destruct (run_inv _ _ _ _ _ _ _ H (inv_start Hr)) as [P I].
    assert (HP : forall e w, within e -> sub_at e w -> w ∈ P).
    { induction e as [|e IH]; intros w Hw Hsw.
      - destruct Hsw as ([|? ?] & Hl & _ & Er); [|done]. cbn in Er.
        assert (w = root) as -> by lia.
        destruct (inv_root _ _ _ _ I) as [?|[Hn|Hn]]; [done|by apply elem_of_nil in Hn|].
        rewrite E0 in Hn. by apply elem_of_nil in Hn.
      - apply sub_at_S in Hsw as (u & i & Hu & Hi).
        assert (Hwe : within e) by (unfold within in *; destruct maxd; [lia|done]).
        pose proof (IH u Hwe Hu) as HuP.
        destruct (inv_P _ _ _ _ I u HuP) as (e' & He' & _ & Hch).
        assert (e' = e) as -> by (eapply sub_at_inj; done).
        assert (Hex : expandb e = true).
        { unfold expandb, within in *. destruct maxd; [apply Nat.ltb_lt; lia|done]. }
        destruct (Hch Hex w i Hi) as [?|[Hn|Hn]]; [done|by apply elem_of_nil in Hn|].
        rewrite E0 in Hn. by apply elem_of_nil in Hn. }
    assert (Hwd : within d) by apply Hy.
    destruct (inv_P _ _ _ _ I v (HP d v Hwd Hs)) as (e & He & Hin & _).
    assert (e = d) as -> by (eapply sub_at_inj; done).
    specialize (Hin Hwd Hy). apply (inv_vs _ _ _ _ I) in Hin as [Hin|Hin]; [|done].
    rewrite E0 in Hin. by apply elem_of_nil in Hin.
  Qed.

  (** ** Breadth-first order: depths never decrease *)
  Definition levels (d : nat) (q : list (deletion * nat)) : Prop :=
    exists q1 q2, q = q1 ++ q2 /\ (forall x, x ∈ q1 -> x.2 = d) /\ (forall x, x ∈ q2 -> x.2 = S d).

  Lemma bfs_levels f : forall d q vs l vs',
    bfs = true -> levels d q -> rd_run f (mk q vs) = Ok (l, vs') ->
    StronglySorted le (map item_depth l) /\ Forall (fun x => d <= item_depth x) l.
  Proof.
    induction f as [|f IH]; intros d q vs l vs' Hb Hl Hr; [done|]. cbn [rd_run] in Hr.
    destruct q as [|[node e] q].
    { rewrite step_nil in Hr. cbn in Hr. injection Hr as <- <-. split; constructor. }
    assert (Hl' : d <= e /\ levels e ((node, e) :: q)).
    { destruct Hl as (q1 & q2 & Eq & H1 & H2). destruct q1 as [|y q1].
      - cbn in Eq. subst q2. pose proof (H2 (node, e) ltac:(left)) as He. cbn in He. subst e.
        split; [lia|]. exists ((node, S d) :: q), []. rewrite app_nil_r. split_and!; [done|done|by intros ? ?%elem_of_nil].
      - injection Eq as <- ->. pose proof (H1 (node, e) ltac:(left)) as He. cbn in He. subst e.
        split; [lia|]. exists ((node, d) :: q1), q2. done. }
    clear Hl. destruct Hl' as [Hde Hl].
    assert (Hgoal : forall q' l1 vs1 vs2, levels e q' -> rd_run f (mk q' vs1) = Ok (l1, vs2) ->
       StronglySorted le (map item_depth l1) /\ Forall (fun x => e <= item_depth x) l1).
    { intros q' l1 vs1 vs2 Hq' H. eapply (IH e q' vs1); done. }
    assert (Hq1 : levels e q).
    { destruct Hl as (q1 & q2 & Eq & H1 & H2). destruct q1 as [|y q1].
      - cbn in Eq. subst q2. exists [], q. split_and!; [done|by intros ? ?%elem_of_nil|]. intros x Hx. apply H2. right. done.
      - injection Eq as <- ->. exists q1, q2. split_and!; [done| |done]. intros x Hx. apply H1. right. done. }
    assert (Hq2 : levels e (q ++ kids vs node.1 e)).
    { destruct Hq1 as (q1 & q2 & -> & H1 & H2). exists q1, (q2 ++ kids vs node.1 e).
      rewrite app_assoc. split_and!; [done|done|]. intros x Hx. apply elem_of_app in Hx as [Hx|Hx]; [auto|].
      apply elem_of_kids in Hx. tauto. }
    assert (Hweak : forall l1 : list (deletion * nat), Forall (fun x => e <= item_depth x) l1 -> Forall (fun x => d <= item_depth x) l1).
    { intros l1 H. eapply Forall_impl; [exact H|]. cbn. lia. }
    assert (Hemit : forall q', levels e q' ->
       (match emit q' vs node e with
        | RDone => Ok ([], rd_visited (mk ((node, e) :: q) vs))
        | RAgain it' => rd_run f it'
        | RYield item it' => let* r := rd_run f it' in Ok (item :: r.1, r.2)
        end) = Ok (l, vs') ->
       StronglySorted le (map item_depth l) /\ Forall (fun x => d <= item_depth x) l).
    { intros q' Hq' H. unfold emit in H. destruct ((e <? mind)%nat || negb el && ana_is_empty node.1).
      - destruct (Hgoal _ _ _ _ Hq' H). auto.
      - destruct (rd_run f (mk q' (visited_insert vs node.1))) as [[l1 vs2]|] eqn:E; [|done].
        cbn in H. injection H as <- <-. destruct (Hgoal _ _ _ _ Hq' E) as [Hs Hf]. cbn. split.
        + constructor; [done|]. rewrite List.Forall_map. exact Hf.
        + constructor; [done|]. auto. }
    rewrite step_cons, Hb in Hr. cbn [rbind andb] in Hr.
    destruct (expandb e).
    - destruct (visited_contains vs node.1); [destruct (Hgoal _ _ _ _ Hq1 Hr); auto|].
      apply (Hemit _ Hq2 Hr).
    - destruct (visited_contains vs node.1); [destruct (Hgoal _ _ _ _ Hq1 Hr); auto|].
      apply (Hemit _ Hq1 Hr).
  Qed.
End recurse.

(** ** Back to bags *)
Lemma sub_at_bag asz ks d v :
  bag_ok asz ks ->
  sub_at asz (prod ks) d v <->
  exists sub gone, ks ≡ₚ sub ++ gone /\ length gone = d /\ v = prod sub.
Proof.
  intros Hb. pose proof (bag_below168 _ _ Hb) as Hk. destruct Hb as [Ha Hf]. split.
  - intros (js & Hl & Hj & E).
    assert (Hj168 : below168 js) by (eapply Forall_impl; [exact Hj|]; cbn; lia).
    assert (Hs : js ⊆+ ks). { apply prod_divide; [done..|]. exists v. rewrite E. done. }
    apply submseteq_Permutation in Hs as [sub Hs]. exists sub, js.
    split_and!; [rewrite Hs; by rewrite Permutation_app_comm|done|].
    pose proof (prod_perm _ _ Hs) as Hp. rewrite prod_app in Hp. pose proof (prod_pos _ Hj168). nia.
  - intros (sub & gone & Hp & Hl & ->). exists gone. split_and!; [done| |].
    + rewrite Hp in Hf. apply Forall_app in Hf. tauto.
    + rewrite (prod_perm _ _ Hp), prod_app. done.
Qed.

Lemma sub_below168 ks sub gone : below168 ks -> ks ≡ₚ sub ++ gone -> below168 sub.
Proof. intros H E. rewrite E in H. apply Forall_app in H. tauto. Qed.

Lemma prod_one ks : below168 ks -> prod ks = 1%N -> ks = [].
Proof.
  intros Hk E. destruct ks as [|k ks]; [done|]. exfalso. cbn in E. inversion Hk as [|? ? H1 H2]; subst.
  pose proof (prime_at_ge2 k H1). pose proof (prod_pos ks H2). nia.
Qed.

Lemma out_ok_item asz ks p x :
  bag_ok asz ks ->
  out_ok asz (prod ks) (default 1 (sp_min_distance p)) (sp_max_distance p) (sp_allow_empty_leaves p) x ->
  item_ok p ks x.
Proof.
  intros Hb (Hs & Hy & Hc). pose proof (bag_below168 _ _ Hb) as Hk.
  pose proof (sub_at_pos asz (proj1 Hb) (prod ks) (prod_pos _ Hk) true 0 None true [] _ _ Hs) as Hpos.
  unfold char_ok in Hc. destruct (item_depth x) as [|d'] eqn:Ed.
  - apply sub_at_bag in Hs as (sub & gone & Hp & Hl & Ev); [|done].
    destruct gone; [|done]. exists sub, []. rewrite Ed. split_and!; [done|done| | |done].
    + rewrite Ev. apply bag_hash_ok. eapply sub_below168; done.
    + destruct Hy as (H1 & H2 & H3). split_and!; [done|done|]. destruct H3 as [H3|H3]; [auto|right].
      intros ->. done.
  - destruct Hc as [Hi Hs']. apply sub_at_bag in Hs' as (sub' & gone & Hp & Hl & Ev); [|done].
    pose proof (sub_below168 _ _ _ Hk Hp) as Hb'.
    assert (Hi168 : item_char x < 168) by (destruct Hb; lia).
    assert (Hin : item_char x ∈ sub').
    { apply prime_divides_prod; [done|done|]. rewrite <- Ev. exists (item_value x). done. }
    apply elem_of_Permutation in Hin as [sub Hsub].
    assert (Hv : item_value x = prod sub).
    { pose proof (prod_perm _ _ Hsub) as E. cbn in E. pose proof (prime_at_ge2 _ Hi168). nia. }
    exists sub, (item_char x :: gone). rewrite Ed. split_and!.
    + rewrite Hp, Hsub. cbn. by rewrite Permutation_middle.
    + cbn. lia.
    + rewrite Hv. apply bag_hash_ok. rewrite Hsub in Hb'. inversion Hb'; done.
    + destruct Hy as (H1 & H2 & H3). split_and!; [done|done|]. destruct H3 as [H3|H3]; [auto|right].
      intros ->. rewrite Hv in H3. done.
    + intros _. left.
Qed.

Lemma iter_rec_mk asz ks p V0 :
  sp_allow_duplicates p = false ->
  iter_recursive_external_cache (prod ks) asz p V0 =
  mk asz (sp_breadthfirst p) (default 1 (sp_min_distance p)) (sp_max_distance p)
    (sp_allow_empty_leaves p) [((prod ks, 0), 0)] V0.
Proof. intros E. unfold iter_recursive_external_cache, rditer_new, mk. rewrite E. done. Qed.

(** [C55]: sharing a cache *)
Lemma recurse_cached_spec asz ks p V0 :
  bag_ok asz ks -> sp_allow_duplicates p = false -> prod ks ∉ V0 ->
  exists h F l V1, bag_hash ks = Ok h /\
    (forall f, F <= f -> rd_run f (iter_recursive_external_cache h asz p V0) = Ok (l, V1)) /\
    NoDup (map item_value l) /\
    (forall x, x ∈ l -> item_ok p ks x /\ item_value x ∉ V0) /\
    (forall v, v ∈ V1 <-> v ∈ V0 \/ v ∈ map item_value l) /\
    (V0 = [] -> forall sub d, deletes ks d sub -> wanted p d sub ->
      exists x, x ∈ l /\ bag_hash sub = Ok (item_value x) /\ item_depth x = d) /\
    (sp_breadthfirst p = true -> StronglySorted le (map item_depth l)).
Proof.
  intros Hb Hu Hr. pose proof (bag_below168 _ _ Hb) as Hk. pose proof (prod_pos _ Hk) as Hpos.
  pose proof (proj1 Hb) as Ha.
  exists (prod ks). rewrite (iter_rec_mk asz ks p V0 Hu).
  destruct (run_total asz Ha (prod ks) Hpos (sp_breadthfirst p) (default 1 (sp_min_distance p))
    (sp_max_distance p) (sp_allow_empty_leaves p) V0 [((prod ks, 0), 0)] V0) as (F & [l V1] & HF).
  exists F, l, V1.
  destruct (run_sound asz Ha (prod ks) Hpos _ _ _ _ V0 _ _ _ Hr HF) as (H1 & H2 & H3 & H4).
  split_and!.
  - apply bag_hash_ok. done.
  - intros f Hf. eapply rd_run_mono; done.
  - exact H1.
  - intros x Hx. split.
    + eapply out_ok_item; [done|]. apply H3. done.
    + apply H2. apply elem_of_list_In, in_map, elem_of_list_In. done.
  - exact H4.
  - intros E0 sub d (gone & Hl & Hp) (W1 & W2 & W3).
    pose proof (sub_below168 _ _ _ Hk Hp) as Hsub.
    assert (Hs : sub_at asz (prod ks) d (prod sub)).
    { apply sub_at_bag; [done|]. exists sub, gone. done. }
    assert (Hin : prod sub ∈ map item_value l).
    { eapply (run_complete asz Ha (prod ks) Hpos _ _ _ _ V0); [exact E0|exact HF|exact Hs|].
      split_and!; [done|done|]. destruct W3 as [W3|W3]; [auto|right]. intros E. apply W3, prod_one; done. }
    apply elem_of_list_In, in_map_iff in Hin as (x & Ex & Hx). apply elem_of_list_In in Hx.
    exists x. split_and!; [done|rewrite Ex; apply bag_hash_ok; done|].
    eapply (sub_at_inj asz Ha (prod ks) Hpos true 0 None true []); [apply H3; done|]. rewrite Ex. exact Hs.
  - intros Ebf. rewrite Ebf in HF.
    eapply (bfs_levels asz Ha (prod ks) Hpos true _ _ _ V0 F 0); [done| |exact HF].
    exists [((prod ks, 0), 0)], []. split_and!; [done| |by intros ? ?%elem_of_nil].
    intros x Hx. apply elem_of_list_singleton in Hx as ->. done.
Qed.

(** [C08] *)
Lemma recurse_spec asz ks p :
  bag_ok asz ks -> sp_allow_duplicates p = false ->
  exists h F l, bag_hash ks = Ok h /\
    (forall f, F <= f -> rd_collect f (iter_recursive h asz p) = Ok l) /\
    NoDup (map item_value l) /\
    (forall x, x ∈ l -> item_ok p ks x) /\
    (forall sub d, deletes ks d sub -> wanted p d sub ->
      exists x, x ∈ l /\ bag_hash sub = Ok (item_value x) /\ item_depth x = d) /\
    (sp_breadthfirst p = true -> StronglySorted le (map item_depth l)).
Proof.
  intros Hb Hu.
  destruct (recurse_cached_spec asz ks p [] Hb Hu (not_elem_of_nil _)) as
    (h & F & l & V1 & H1 & H2 & H3 & H4 & H5 & H6 & H7).
  exists h, F, l. split_and!; [done| |done| |auto|done].
  - intros f Hf. unfold rd_collect.
    change (iter_recursive h asz p) with (iter_recursive_external_cache h asz p []).
    rewrite H2 by done. done.
  - intros x Hx. apply H4. done.
Qed.

Lemma recurse_cached asz ks p V0 h :
  bag_ok asz ks -> sp_allow_duplicates p = false -> bag_hash ks = Ok h -> h ∉ V0 ->
  exists F l V1,
    (forall f, F <= f -> rd_run f (iter_recursive_external_cache h asz p V0) = Ok (l, V1)) /\
    NoDup (map item_value l) /\
    (forall x, x ∈ l -> item_ok p ks x /\ item_value x ∉ V0) /\
    (forall v, v ∈ V1 <-> v ∈ V0 \/ v ∈ map item_value l) /\
    (sp_breadthfirst p = true -> StronglySorted le (map item_depth l)).
Proof.
  intros Hb Hu Hh Hn. pose proof (bag_below168 _ _ Hb) as Hk.
  rewrite bag_hash_ok in Hh by done. injection Hh as <-.
  destruct (recurse_cached_spec asz ks p V0 Hb Hu Hn) as
    (h & F & l & V1 & H1 & H2 & H3 & H4 & H5 & H6 & H7).
  rewrite bag_hash_ok in H1 by done. injection H1 as <-. exists F, l, V1. done.
Qed.

Lemma iter_lists asz ks :
  bag_ok asz ks ->
  exists h F l, bag_hash ks = Ok h /\
    (forall f, F <= f -> rd_collect f (ana_iter h asz) = Ok l) /\
    map item_char l ≡ₚ ks /\ StronglySorted ge (map item_char l) /\
    map item_depth l = seq 1 (length ks).
Proof.
  intros Hb. pose proof (bag_below168 _ _ Hb) as Hk.
  destruct (iter_run asz ks (iter_fuel (prod ks)) Hb ltac:(lia)) as (l & H1 & H2 & H3 & H4).
  exists (prod ks), (iter_fuel (prod ks)), l. split_and!; [by apply bag_hash_ok| |done..].
  intros f Hf. rewrite (iter_fuel_enough asz ks f) by done. done.
Qed.

Lemma max_list_ge ks k : k ∈ ks -> k <= max_list ks.
Proof.
  unfold max_list. induction 1 as [x l|x y l _ IH]; cbn; lia.
Qed.
Lemma max_list_in ks : ks <> [] -> max_list ks ∈ ks.
Proof.
  unfold max_list. induction ks as [|k ks IH]; [done|]. intros _. cbn.
  destruct ks as [|k' ks]; [cbn; rewrite Nat.max_0_r; left|].
  specialize (IH ltac:(done)).
  destruct (Nat.max_spec k (foldr Nat.max 0 (k' :: ks))) as [[_ E]|[_ E]].
  - rewrite E. right. done.
  - rewrite E. left.
Qed.

Lemma count_and_bound asz ks :
  bag_ok asz ks -> (N.of_nat (length ks) < 65536)%N ->
  exists h, bag_hash ks = Ok h /\
    char_count h asz = Ok (N.of_nat (length ks)) /\
    exists m, alphabet_upper_bound h asz = Ok (m, N.of_nat (length ks)) /\
      (forall k, k ∈ ks -> k <= m) /\ (ks <> [] -> m ∈ ks).
Proof.
  intros Hb Hl. exists (prod ks). split_and!.
  - apply bag_hash_ok. by eapply bag_below168.
  - by apply char_count_spec.
  - exists (max_list ks). split_and!; [by apply upper_bound_spec|apply max_list_ge|apply max_list_in].
Qed.

Lemma alphabet_size_ok A : alphabet_ok A -> alphabet_size A = Ok (S (length A)).
Proof.
  intros [H _]. unfold alphabet_size, u8_succ, as_u8.
  rewrite Nat.mod_small by lia. destruct (Nat.ltb_spec (length A) 255); [done|lia].
Qed.

Lemma char_count_norm A t n h :
  alphabet_ok A -> normalize_to_alphabet A t = Ok n -> anahash A t = Ok h ->
  (N.of_nat (length n) < 65536)%N ->
  exists asz, alphabet_size A = Ok asz /\ char_count h asz = Ok (N.of_nat (length n)).
Proof.
  intros HA Hn Hh Hl. exists (S (length A)). split; [by apply alphabet_size_ok|].
  destruct (reads_total A t HA) as [ks Hr].
  rewrite (anahash_reads A t ks HA Hr) in Hh. injection Hh as <-.
  rewrite (normalize_reads A t ks HA Hr) in Hn. injection Hn as <-.
  rewrite map_length in *. apply char_count_spec; [|done]. split; [destruct HA; lia|].
  apply reads_bound in Hr. eapply Forall_impl; [exact Hr|]. cbn. lia.
Qed.
