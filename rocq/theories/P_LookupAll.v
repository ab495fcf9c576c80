(** Proof that a lookup is exactly what [looked_up] says. *)
From Coq Require Import Lia Sorted.
From Verif Require Import M_Base M_Anahash M_Iter M_Distance M_Float M_Types M_Model M_Confusable M_Search.
From Verif Require Import S_Anahash S_Iter S_Distance S_Model S_Search S_Confusable S_Lookup.
From Verif Require Import P_Base P_Primes P_Anahash P_Iter P_Recurse P_Model P_Vocab P_Index P_Nearest P_Gather P_Float P_Score P_Rank P_Find P_Lookup P_Results P_Confusable P_Extra.
From stdpp Require Import options.

(** ** Lists *)
Lemma ssorted_unique {X} (Rel : X -> X -> Prop) l1 l2 : (forall x y, Rel x y -> Rel y x -> False) ->
  StronglySorted Rel l1 -> StronglySorted Rel l2 -> (forall x, x ∈ l1 <-> x ∈ l2) -> l1 = l2.
Proof.
  intros As S1. revert l2. induction S1 as [|x l1 S1 IH Hx]; intros l2 S2 E.
  - destruct l2 as [|y l2]; [done|]. exfalso. assert (y ∈ []) as H by (apply E; left). by apply elem_of_nil in H.
  - destruct S2 as [|y l2 S2 Hy]; [exfalso; assert (x ∈ []) as H by (apply E; left); by apply elem_of_nil in H|].
    rewrite Forall_forall in Hx, Hy.
    assert (x = y) as ->.
    { assert (x ∈ y :: l2) as H1 by (apply E; left). assert (y ∈ x :: l1) as H2 by (apply E; left).
      apply elem_of_cons in H1 as [?|H1]; [done|]. apply elem_of_cons in H2 as [?|H2]; [done|].
      exfalso. by apply (As x y); auto. }
    f_equal. apply IH; [done|]. intros z. split; intros Hz.
    + assert (z ∈ y :: l2) as H by (apply E; by right). apply elem_of_cons in H as [->|H]; [|done]. exfalso. by apply (As y y); auto.
    + assert (z ∈ y :: l1) as H by (apply E; by right). apply elem_of_cons in H as [->|H]; [|done]. exfalso. by apply (As y y); auto.
Qed.

Lemma first_at_unique {A} (P : nat -> A -> Prop) l n n' : first_at P l n -> first_at P l n' -> n = n'.
Proof.
  assert (forall a b, first_at P l a -> first_at P l b -> a < b -> False) as W.
  { intros a b (L1 & N1 & H1) (L2 & N2 & H2) Lt. destruct (lookup_lt_is_Some_2 l a) as [x Hx]; [lia|]. by apply (N2 a x Lt Hx), H1. }
  intros H H'. destruct (Nat.lt_total n n') as [?|[?|?]]; [exfalso; eauto|done|exfalso; eauto].
Qed.
Lemma first_at_cons {A} (P : nat -> A -> Prop) x l n : ~ P 0 x -> first_at (fun i r => P (S i) r) l n -> first_at P (x :: l) (S n).
Proof.
  intros Hx (L & N & H). split; [cbn; lia|]. split.
  - intros [|i] r Hi Hr; [by injection Hr as <-|]. apply (N i r); [lia|done].
  - intros r Hr. by apply H.
Qed.
Lemma first_at_0 {A} (P : nat -> A -> Prop) x l : P 0 x -> first_at P (x :: l) 0.
Proof. intros Hx. split; [cbn; lia|]. split; [intros; lia|]. by intros r [= <-]. Qed.
Lemma first_at_nil {A} (P : nat -> A -> Prop) : first_at P [] 0.
Proof. split; [cbn; lia|]. split; [intros; lia|]. done. Qed.
Lemma first_at_iff {A} (P P' : nat -> A -> Prop) l n : (forall i r, l !! i = Some r -> P i r <-> P' i r) -> first_at P l n -> first_at P' l n.
Proof.
  intros E (L & N & H). split; [done|]. split.
  - intros i r Hi Hr HP. apply (N i r Hi Hr). by apply (E i r Hr).
  - intros r Hr. by apply (E n r Hr), H.
Qed.
Lemma first_at_exists {A} (P : nat -> A -> bool) l : exists n, first_at (fun i r => P i r = true) l n.
Proof.
  revert P. induction l as [|x l IH]; intros P; [exists 0; apply first_at_nil|].
  destruct (P 0 x) eqn:E; [exists 0; by apply first_at_0|]. destruct (IH (fun i => P (S i))) as [n Hn].
  exists (S n). apply first_at_cons; [by rewrite E|done].
Qed.

Lemma when_iff {A} (P : Prop) (b : bool) (R : A -> A -> Prop) l l' x : (b = true <-> P) ->
  (P -> R l l' <-> l' = x) -> when P R l l' <-> l' = if b then x else l.
Proof.
  intros E H. unfold when. destruct b.
  - assert P as HP by (by apply E). rewrite <- (H HP). tauto.
  - assert (~ P) as HP by (intros X; by apply E in X). tauto.
Qed.

(** ** Sightings *)
Definition good (m : model) (c : sighting) : Prop :=
  m_decoder m !! si_id c = Some (si_value c) /\ anahash (m_alphabet m) (vv_text (si_value c)) = Ok (si_hash c).
Definition seen (c : sighting) : vocab_id * distance := (si_id c, si_distance c).

Lemma id_before_asym m x y : id_before m x y -> id_before m y x -> False.
Proof.
  intros (v & v' & h & h' & D & D' & H & H' & O) (w & w' & g & g' & E & E' & G & G' & O').
  assert (w = v') as -> by congruence. assert (w' = v) as -> by congruence.
  assert (g = h') as -> by congruence. assert (g' = h) as -> by congruence. lia.
Qed.

Section sightings.
  Context (lc : N -> bool) (m : model) (q : str) (ks : list nat) (p : search_parameters).
  Context (HA : alphabet_ok (m_alphabet m)) (Hsize : length (m_alphabet m) <= 166).
  Context (inst : list (vocab_id * distance)).
  Context (Hin : forall id d, (id, d) ∈ inst <-> exists v, candidate lc m q ks p id v d).
  Context (Hso : StronglySorted (id_before m) (map fst inst)).
  #[local] Set Default Proof Using "All".

  Lemma hash_iff t h : (exists ks', reads (m_alphabet m) t ks' /\ bag_hash ks' = Ok h) <-> anahash (m_alphabet m) t = Ok h.
  Proof.
    split.
    - intros (ks' & Hr & Hb). rewrite (anahash_reads _ _ _ HA Hr). rewrite <- Hb. symmetry. apply bag_hash_ok.
      by eapply reads_below168.
    - intros H. destruct (reads_total _ t HA) as [ks' Hr]. exists ks'. split; [done|]. rewrite (anahash_reads _ _ _ HA Hr) in H.
      rewrite <- H. apply bag_hash_ok. by eapply reads_below168.
  Qed.
  Lemma candidate_value id v d : candidate lc m q ks p id v d -> m_decoder m !! id = Some v.
  Proof. intros (ks' & [[H _] _] & _). done. Qed.

  Lemma good_before a b : good m a -> good m b -> sighted_before a b <-> id_before m (si_id a) (si_id b).
  Proof.
    intros [D H] [D' H']. split.
    - intros O. exists (si_value a), (si_value b), (si_hash a), (si_hash b). done.
    - intros (v & v' & h & h' & E & E' & G & G' & O). assert (v = si_value a) as -> by congruence. assert (v' = si_value b) as -> by congruence.
      assert (h = si_hash a) as -> by congruence. assert (h' = si_hash b) as -> by congruence. done.
  Qed.
  Lemma good_sorted cs : Forall (good m) cs -> StronglySorted sighted_before cs <-> StronglySorted (id_before m) (map fst (map seen cs)).
  Proof.
    induction cs as [|c cs IH]; intros G; [split; constructor|]. apply Forall_cons in G as [Gc G]. cbn. split; intros H.
    - apply StronglySorted_inv in H as [H1 H2]. constructor; [by apply IH|]. rewrite Forall_forall in G; rewrite Forall_forall in H2; rewrite Forall_forall. intros x Hx.
      apply elem_of_list_fmap in Hx as (y & -> & Hy). apply elem_of_list_fmap in Hy as (z & -> & Hz). cbn.
      apply good_before; [done|by apply G|by apply H2].
    - apply StronglySorted_inv in H as [H1 H2]. constructor; [by apply IH|]. rewrite Forall_forall in G; rewrite Forall_forall in H2; rewrite Forall_forall. intros x Hx.
      apply good_before; [done|by apply G|]. apply H2. apply elem_of_list_fmap. exists (seen x). split; [done|]. by apply elem_of_list_fmap_1.
  Qed.

  Lemma sighted_iff cs : sighted lc m q ks p cs <-> map seen cs = inst /\ Forall (good m) cs.
  Proof.
    split.
    - intros [So E].
      assert (Forall (good m) cs) as G.
      { rewrite Forall_forall. intros c Hc. apply E in Hc as [Hc Hh]. split; [by eapply candidate_value|]. by apply hash_iff. }
      split; [|done]. apply good_sorted in So; [|done].
      apply (ssorted_unique (fun x y => id_before m x.1 y.1)).
      + intros x y. apply id_before_asym.
      + clear -So. revert So. generalize (map seen cs) as l. intros l. induction l as [|x l IH]; intros H; [constructor|].
        cbn in H. apply StronglySorted_inv in H as [H1 H2]. constructor; [by apply IH|]. rewrite Forall_forall in H2; rewrite Forall_forall.
        intros y Hy. apply H2. by apply elem_of_list_fmap_1.
      + clear -Hso. revert Hso. generalize inst as l. intros l. induction l as [|x l IH]; intros H; [constructor|].
        cbn in H. apply StronglySorted_inv in H as [H1 H2]. constructor; [by apply IH|]. rewrite Forall_forall in H2; rewrite Forall_forall.
        intros y Hy. apply H2. by apply elem_of_list_fmap_1.
      + intros [id d]. rewrite Hin. split.
        * intros Hx. apply elem_of_list_fmap in Hx as (c & Ec & Hc). injection Ec as -> ->. apply E in Hc as [Hc _]. eauto.
        * intros (v & Hv). destruct (reads_total _ (vv_text v) HA) as [ks' Hr].
          apply elem_of_list_fmap. exists (Sighting (prod ks') id v d). split; [done|]. apply E. cbn. split; [done|].
          exists ks'. split; [done|]. apply bag_hash_ok. by eapply reads_below168.
    - intros [E G]. split; [apply good_sorted; [done|]; by rewrite E|]. rewrite Forall_forall in G. intros c. split.
      + intros Hc. destruct (G c Hc) as [D H]. assert ((si_id c, si_distance c) ∈ inst) as Hi by (rewrite <- E; by apply (elem_of_list_fmap_1 seen)).
        apply Hin in Hi as (v & Hv). pose proof (candidate_value _ _ _ Hv) as D'. assert (v = si_value c) as -> by congruence.
        split; [done|]. by apply hash_iff.
      + intros [Hc Hh]. apply hash_iff in Hh.
        assert (seen c ∈ inst) as Hi by (apply Hin; by exists (si_value c)). rewrite <- E in Hi. apply elem_of_list_fmap in Hi as (c' & Ec & Hc').
        destruct (G c' Hc') as [D' H']. pose proof (candidate_value _ _ _ Hc) as D.
        destruct c as [h i v d], c' as [h' i' v' d']. cbn [si_hash si_id si_value si_distance] in *. injection Ec as <- <-.
        assert (v' = v) as -> by congruence. assert (h' = h) as -> by congruence. done.
  Qed.
  Lemma sighted_exists : exists cs, map seen cs = inst /\ Forall (good m) cs.
  Proof.
    assert (forall l, (forall id d, (id, d) ∈ l -> exists v, m_decoder m !! id = Some v) -> exists cs, map seen cs = l /\ Forall (good m) cs) as W.
    { induction l as [|[id d] l IH]; intros H; [by exists []|]. destruct IH as (cs & E & G); [intros i e Hx; eapply H; by right|].
      destruct (H id d ltac:(left)) as (v & Hv). destruct (reads_total _ (vv_text v) HA) as [ks' Hr].
      exists (Sighting (prod ks') id v d :: cs). split; [by rewrite <- E|]. constructor; [|done]. split; [done|]. by apply anahash_reads. }
    apply W. intros id d Hx. apply Hin in Hx as (v & Hv). exists v. by eapply candidate_value.
  Qed.
End sightings.

(** the greatest *)
Lemma feq_same x y : fle x y = true -> fle y x = true -> flt f0 x = true -> x = y.
Proof.
  unfold fle, flt, SFleb, SFltb. destruct x as [sx|sx| |sx mx ex], y as [sy|sy| |sy my ey]; cbn; try done;
    repeat match goal with b : bool |- _ => destruct b end; cbn; try done.
  intros H1 H2 _. destruct (Z.compare_spec ex ey) as [->|L|L].
  - rewrite Z.compare_refl in H2. rewrite ?Pos.compare_cont_spec in *. change (Pos.compare_cont Eq mx my) with (mx ?= my)%positive in H1.
    change (Pos.compare_cont Eq my mx) with (my ?= mx)%positive in H2.
    destruct (Pos.compare_spec mx my) as [->|L|L]; [done| |done]. exfalso. destruct (Pos.compare_spec my mx); [lia|lia|done].
  - exfalso. destruct (Z.compare_spec ey ex); [lia|lia|done].
  - done.
Qed.
Lemma greatest_unique fs a b : greatest fs a -> greatest fs b -> flt f0 a = true -> flt f0 b = true -> a = b.
Proof.
  intros [Ha Fa] [Hb Fb] Pa Pb. rewrite Forall_forall in Fa, Fb.
  apply elem_of_cons in Ha as [->|Ha]; [done|]. apply elem_of_cons in Hb as [->|Hb]; [done|].
  apply feq_same; auto.
Qed.
Lemma greatest_pos fs a b : greatest fs a -> greatest fs b -> flt f0 a = true -> flt f0 b = true.
Proof.
  intros [Ha Fa] [Hb Fb] Pa. rewrite Forall_forall in Fa, Fb.
  apply elem_of_cons in Ha as [->|Ha]; [done|]. specialize (Fb a Ha). clear -Pa Fb.
  revert Pa Fb. unfold fle, flt, SFleb, SFltb. destruct a as [sx|sx| |sx mx ex], b as [sy|sy| |sy my ey]; cbn; try done;
    repeat match goal with b : bool |- _ => destruct b end; cbn; done.
Qed.

(** ** The stages *)
Section stages.
  Context (ses : str -> str -> list edit_instruction).
  Context (m : model) (q : str) (ks : list nat).
  #[local] Set Default Proof Using "Type*".

  Lemma absolute_counted v : absolute_freq m v = f64_of_N (counted_freq m v).
  Proof. unfold absolute_freq, counted_freq. by destruct (m_have_freq m). Qed.

  Lemma first_results_iff p cs l : Forall (good m) cs ->
    first_results m ks p cs l <-> l = listA m (map seen cs) (length ks) (p_score_threshold p).
  Proof.
    intros G. assert (selects (fun c => fle (p_score_threshold p) (first_score m ks c) = true) cs
      (List.filter (fun c => fle (p_score_threshold p) (first_score m ks c)) cs)) as Hs by apply selects_filter.
    assert (map (first_result m ks) (List.filter (fun c => fle (p_score_threshold p) (first_score m ks c)) cs) =
      listA m (map seen cs) (length ks) (p_score_threshold p)) as E.
    { clear Hs. induction cs as [|c cs IH]; [done|]. apply Forall_cons in G as [[D _] G]. specialize (IH G).
      unfold listA in *. cbn [map List.filter omap list_omap]. unfold scored at 1. unfold seen at 1 2 3. cbn [fst snd]. rewrite D. cbv zeta.
      change (fge (distance_score (m_weights m) (length ks) (si_distance c)) (p_score_threshold p))
        with (fle (p_score_threshold p) (first_score m ks c)).
      destruct (fle _ _); [|done]. cbn [map]. rewrite IH. f_equal. unfold first_result. by rewrite absolute_counted. }
    split.
    - intros (cs' & Hs' & ->). rewrite (selects_fun _ _ _ _ Hs' Hs). done.
    - intros ->. rewrite <- E. eexists. split; [exact Hs|done].
  Qed.

  Lemma product_of_unique ws : forall x y, product_of ws x -> product_of ws y -> x = y.
  Proof.
    intros x y H. revert y. induction H as [|ws x w H IH]; intros y Hy.
    - inversion Hy as [|ws' x' w' Hx E]; [done|]. by destruct ws'.
    - inversion Hy as [E|ws' x' w' Hx E]; [by destruct ws|]. apply app_inj_tail in E as [-> ->]. f_equal. by apply IH.
  Qed.
  Lemma reweighed_iff l l' : Forall (fun r => vr_id r < length (m_decoder m)) l ->
    Forall2 (reweighed ses m q) l l' <-> l' = rescore_confusables ses m l q.
  Proof.
    intros Hl. assert (forall r r', vr_id r < length (m_decoder m) -> reweighed ses m q r r' <->
      r' = VariantResult (vr_id r) (fmul (vr_dist r) (confusable_weight ses m q (vr_id r))) (vr_freq r) (vr_via r)) as E.
    { intros r r' Hr. destruct (lookup_lt_is_Some_2 (m_decoder m) (vr_id r) Hr) as [v Hv]. split.
      - intros (v' & cs & w & Hv' & Hs & Hp & ->). assert (v' = v) as -> by congruence.
        rewrite (product_of_unique _ _ _ Hp (weight_product _ _ _ _ _ _ Hv Hs)). done.
      - intros ->. exists v, (List.filter (fun c => found_in c (ses q (vv_text v))) (m_confusables m)), (confusable_weight ses m q (vr_id r)).
        assert (selects (fun c => found_in c (ses q (vv_text v)) = true) (m_confusables m)
          (List.filter (fun c => found_in c (ses q (vv_text v))) (m_confusables m))) as Hs by apply selects_filter.
        split; [done|]. split; [done|]. split; [|done]. by eapply weight_product. }
    unfold rescore_confusables. revert l'. induction l as [|r l IH]; intros l'; cbn.
    - split; [by inversion 1|]. by intros ->.
    - apply Forall_cons in Hl as [Hr Hl]. split.
      + intros H. apply Forall2_cons_inv_l in H as (r' & k & H1 & H2 & ->). apply E in H1 as ->; [|done]. f_equal. by apply IH.
      + intros ->. constructor; [by apply E|]. by apply IH.
  Qed.

  Lemma linked_iff cs : Forall (good m) cs -> expandable m (map seen cs) = true <-> linked_sighting cs.
  Proof.
    intros G. unfold expandable, linked_sighting. rewrite existsb_exists. rewrite Forall_forall in G. split.
    - intros (x & Hx & L). apply elem_of_list_In in Hx. apply elem_of_list_fmap in Hx as (c & -> & Hc). exists c. split; [done|].
      destruct (G c Hc) as [D _]. unfold linked, seen in L. cbn [fst] in L. rewrite D in L. by destruct (vv_variants _).
    - intros (c & Hc & L). exists (seen c). split; [apply elem_of_list_In; by apply elem_of_list_fmap_1|].
      destruct (G c Hc) as [D _]. unfold linked, seen. cbn [fst]. rewrite D. by destruct (vv_variants _).
  Qed.

  Lemma expands_iff l l' : links_inside m -> Forall (fun r => vr_id r < length (m_decoder m)) l ->
    expands m l l' <-> l' = mjoin (map (expansions m) l).
  Proof.
    intros HL Hl. rewrite <- expand_iff. rewrite (expand_variants_ok m l HL Hl). split; [by intros [= <-]|by intros ->].
  Qed.

  Lemma shared_iff cs l l' t fs : greatest (map (fun c => f64_of_N (counted_freq m (si_value c))) cs ++ fs) t ->
    when (linked_sighting cs) (fun _ fs => fs = map vr_freq l) [] fs ->
    shared m cs l l' <-> l' = normalize_freq t l.
  Proof.
    intros Ht Hfs. unfold normalize_freq. change (fgt t f0) with (flt f0 t). split.
    - intros (t' & fs' & Ht' & Hfs' & Hl). assert (fs' = fs) as -> by (destruct Hfs as [[L ->]|[L ->]], Hfs' as [[L' ->]|[L' ->]]; [done|by destruct (L' L)|by destruct (L L')|done]).
      destruct Hl as [[P ->]|[P ->]].
      + pose proof (greatest_pos _ _ _ Ht' Ht P) as P'. rewrite P'. by rewrite (greatest_unique _ _ _ Ht' Ht P P').
      + destruct (flt f0 t) eqn:P'; [|done]. exfalso. by apply P, (greatest_pos _ _ _ Ht Ht').
    - intros ->. exists t, fs. split; [done|]. split; [done|]. unfold when. destruct (flt f0 t); [left; by split|right; by split].
  Qed.
End stages.

(** the order *)
Lemma ranks_refl fw r : rankable fw r -> ranks_before fw r r.
Proof.
  intros H. apply not_after; [done|done|]. destruct (after_of fw r r) eqn:E; [|done]. exfalso. pose proof (ranks_total fw r r H H E). congruence.
Qed.
Definition rb (fw : f32) (a b : variant_result) : bool :=
  if fgt fw f0 then fle (combined_score fw b) (combined_score fw a)
  else flt (vr_dist b) (vr_dist a) || (feq (vr_dist a) (vr_dist b) && fle (vr_freq b) (vr_freq a)).
Lemma rb_iff fw a b : rb fw a b = true <-> ranks_before fw a b.
Proof. unfold rb, ranks_before. destruct (fgt fw f0); [done|]. by rewrite orb_true_iff, andb_true_iff. Qed.
Lemma tied_dec fw a b : (rb fw a b && rb fw b a) = true <-> tied fw a b.
Proof. unfold tied. by rewrite andb_true_iff, !rb_iff. Qed.
Lemma selects_tied fw x l : exists sl, selects (tied fw x) l sl.
Proof.
  induction l as [|y l [sl IH]]; [exists []; constructor|]. destruct (rb fw x y && rb fw y x) eqn:E.
  - exists (y :: sl). constructor; [by apply tied_dec|done].
  - exists sl. constructor; [|done]. intros H. apply tied_dec in H. congruence.
Qed.
Lemma order_unique fw l1 : Forall (rankable fw) l1 -> forall l2, l1 ≡ₚ l2 -> ranked fw l1 -> ranked fw l2 ->
  (forall x s1 s2, x ∈ l1 -> selects (tied fw x) l1 s1 -> selects (tied fw x) l2 s2 -> s1 = s2) -> l1 = l2.
Proof.
  induction l1 as [|a l1 IH]; intros Q l2 Pm R1 R2 T.
  - by apply Permutation_nil_l in Pm.
  - apply Forall_cons in Q as [Qa Q]. destruct l2 as [|b l2]; [by apply Permutation_nil_r in Pm|].
    assert (ranks_before fw a b) as B1.
    { assert (b ∈ a :: l1) as H by (rewrite Pm; left). apply elem_of_list_lookup in H as [[|i] H].
      - injection H as ->. by apply ranks_refl.
      - apply (R1 0 (S i)); [lia|done|done]. }
    assert (ranks_before fw b a) as B2.
    { assert (a ∈ b :: l2) as H by (rewrite <- Pm; left). apply elem_of_list_lookup in H as [[|i] H].
      - injection H as ->. by apply ranks_refl.
      - apply (R2 0 (S i)); [lia|done|done]. }
    assert (a = b) as ->.
    { destruct (selects_tied fw a l1) as [s1 H1], (selects_tied fw a l2) as [s2 H2].
      assert (a :: s1 = b :: s2) as E; [|by injection E].
      apply (T a); [left| |].
      - constructor; [|done]. split; by apply ranks_refl.
      - constructor; [by split|done]. }
    f_equal. apply Permutation_cons_inv in Pm. apply IH; [done|done| | |].
    + intros i j x y Hij Hx Hy. by apply (R1 (S i) (S j)); [lia|..].
    + intros i j x y Hij Hx Hy. by apply (R2 (S i) (S j)); [lia|..].
    + intros x s1 s2 Hx H1 H2. destruct (rb fw x b && rb fw b x) eqn:E.
      * apply tied_dec in E. assert (b :: s1 = b :: s2) as X; [|by injection X].
        apply (T x); [by right|by constructor|by constructor].
      * assert (~ tied fw x b) as N by (intros X; apply tied_dec in X; congruence).
        apply (T x); [by right|by constructor|by constructor].
Qed.
Lemma ranks_iff fw l l' : Forall (rankable fw) l -> ranks fw l l' <-> l' = sort_by (after_of fw) l.
Proof.
  intros Q. destruct (rank_results_ok fw l Q) as (l0 & E & P0 & R0 & K0).
  assert (l0 = sort_by (after_of fw) l) as <- by (revert E; unfold rank_results; destruct (_ && _ && _); [done|by intros [= <-]]).
  split; [|intros ->; done]. intros (P & R & K).
  apply order_unique with fw; [by rewrite P|by rewrite P|done|done|].
  intros x s1 s2 Hx H1 H2. rewrite P in Hx. destruct (selects_tied fw x l) as [s H].
  rewrite <- (K x s s1 Hx H H1). by apply (K0 x).
Qed.

(** neighbours *)
Lemma merges_iff l l' : merges l l' <-> l' = dedup l.
Proof.
  split.
  - induction 1 as [|r|r r' l l' E H IH|r r' l l' E H IH]; [done|done| |].
    + rewrite IH. cbn. rewrite E. by rewrite Nat.eqb_refl.
    + rewrite IH. cbn. destruct (Nat.eqb_spec (vr_id r') (vr_id r)); [by exfalso; apply E|done].
  - intros ->. assert (forall n l, length l <= n -> merges l (dedup l)) as W; [|by apply (W (length l))].
    clear l. intros n. induction n as [|n IH]; intros [|r [|r' l]] Hn; cbn in Hn; try lia; try (by constructor).
    cbn. destruct (Nat.eqb_spec (vr_id r') (vr_id r)) as [E|E].
    + constructor; [done|]. apply (IH (r :: l)). cbn. lia.
    + constructor; [by intros X; apply E|]. apply (IH (r' :: l)). cbn. lia.
Qed.

(** the border *)
Lemma final_is fw r : weight_single fw -> final_score fw r = vr_score fw r.
Proof.
  intros Hw. unfold final_score. destruct (fgt fw f0) eqn:E; [symmetry; by apply vr_score_combined|].
  unfold vr_score. destruct Hw as (_ & H0 & _). revert H0 E. unfold fle, fgt, feq. by destruct fw as [|[]| |[]].
Qed.
Lemma flt_feq x y : flt x y = true -> feq x y = false.
Proof. unfold flt, feq, SFltb, SFeqb. by destruct (SFcompare x y) as [[]|]. Qed.
Lemma cutoffs_set c l : forall i e below, 0 < e -> first_at (fun _ r => flt (vr_dist r) c = true) l below ->
  cutoffs c i e l = (e, if (below <? length l)%nat then i + below else 0).
Proof.
  induction l as [|r l IH]; intros i e below He (L & N & H).
  - cbn in *. by destruct (Nat.ltb_spec below 0); [lia|].
  - cbn [cutoffs]. replace (e =? 0)%nat with false by (symmetry; apply Nat.eqb_neq; lia). rewrite andb_false_r. destruct below as [|below].
    + rewrite (H r) by done. cbn. by rewrite Nat.add_0_r.
    + destruct (flt (vr_dist r) c) eqn:E; [exfalso; apply (N 0 r); [lia|done|done]|].
      rewrite (IH (S i) e below He).
      * change (S below <? length (r :: l))%nat with (below <? length l)%nat. destruct (below <? length l)%nat; [f_equal; lia|done].
      * split; [cbn in L; lia|]. split; [|exact H]. intros j x Hj Hx. apply (N (S j) x); [lia|done].
Qed.
Lemma cutoffs_spec c l : forall i below same, first_at (fun _ r => flt (vr_dist r) c = true) l below ->
  first_at (fun j r => 0 < i + j /\ feq (vr_dist r) c = true) (take below l) same ->
  cutoffs c i 0 l = (if (same <? below)%nat then i + same else 0, if (below <? length l)%nat then i + below else 0).
Proof.
  induction l as [|r l IH]; intros i below same (L & N & H) (L' & N' & H').
  - cbn in *. destruct below; [|lia]. destruct same; [|cbn in L'; lia]. done.
  - cbn [cutoffs]. rewrite andb_true_r. destruct below as [|below].
    + cbn in L'. destruct same; [|lia]. pose proof (H r eq_refl) as E. cbn in E. rewrite E. rewrite (flt_feq _ _ E). cbn. by rewrite Nat.add_0_r.
    + destruct (flt (vr_dist r) c) eqn:E; [exfalso; apply (N 0 r); [lia|done|done]|].
      assert (first_at (fun _ r => flt (vr_dist r) c = true) l below) as Hb.
      { split; [cbn in L; lia|]. split; [|exact H]. intros j x Hj Hx. apply (N (S j) x); [lia|done]. }
      assert ((if (S below <? length (r :: l))%nat then i + S below else 0) = if (below <? length l)%nat then S i + below else 0) as Eb.
      { change (S below <? length (r :: l))%nat with (below <? length l)%nat. destruct (below <? length l)%nat; lia. }
      rewrite Eb. cbn [take] in *. destruct same as [|same].
      * destruct (H' r eq_refl) as [Hi Ef]. rewrite Ef. rewrite (cutoffs_set c l (S i) i below); [|lia|done].
        destruct (Nat.ltb_spec 0 (S below)); [|lia]. f_equal. lia.
      * assert ((if feq (vr_dist r) c then i else 0) = 0) as ->.
        { destruct (feq (vr_dist r) c) eqn:Ef; [|done]. destruct i; [done|]. exfalso. apply (N' 0 r); [lia|done|]. split; [lia|done]. }
        rewrite (IH (S i) below same); [|done|].
        -- change (S same <? S below)%nat with (same <? below)%nat. destruct (same <? below)%nat; [f_equal; lia|done].
        -- split; [cbn in L'; lia|]. split.
           ++ intros j x Hj Hx [_ Ef]. apply (N' (S j) x); [lia|done|]. split; [lia|done].
           ++ intros x Hx. destruct (H' x Hx) as [_ Ef]. split; [lia|done].
Qed.
Lemma crops_iff max fw l l' : weight_single fw -> crops max fw l l' <-> l' = take (crop_n max fw l) l.
Proof.
  intros Hw. pose proof (fun r => final_is fw r Hw) as FS.
  assert (crops max fw l l' <-> crop max fw l = Ok l') as E.
  { unfold crops, crop. destruct (Nat.ltb_spec 0 max) as [H0|H0]; cbn [andb].
    2:{ split; [|intros [= <-]; left; split; [left; lia|done]]. intros [[_ ->]|(? & ? & ? & _)]; [done|lia]. }
    destruct (Nat.ltb_spec max (length l)) as [H1|H1].
    2:{ split; [|intros [= <-]; left; split; [by right|done]]. intros [[_ ->]|(? & ? & ? & _ & Hx & _)]; [done|]. apply lookup_lt_Some in Hx. lia. }
    destruct (lookup_lt_is_Some_2 l (max - 1)) as [a Ha]; [lia|]. destruct (lookup_lt_is_Some_2 l max) as [b Hb]; [lia|].
    rewrite Ha, Hb. cbn [rexpect rbind]. rewrite <- !FS. set (c := final_score fw b).
    destruct (first_at_exists (fun _ r => flt (vr_dist r) c) l) as [below Hbelow].
    destruct (first_at_exists (fun j r => (0 <? j)%nat && feq (vr_dist r) c) (take below l)) as [same Hsame].
    apply (first_at_iff _ (fun j r => 0 < 0 + j /\ feq (vr_dist r) c = true)) in Hsame.
    2:{ intros i r _. cbn beta. by rewrite andb_true_iff, Nat.ltb_lt. }
    rewrite (cutoffs_spec c l 0 below same Hbelow Hsame). cbn [Nat.add] in *.
    assert (below <= length l) as Lb by apply Hbelow. assert (same <= below) as Ls by (destruct Hsame as [Hs _]; rewrite take_length in Hs; lia).
    assert (forall A B C D : Prop, ~ A -> (C <-> D) -> ((A /\ B) \/ C <-> D)) as Drop by tauto.
    apply Drop; [lia|]. clear Drop. split.
    - intros (last & next & _ & [= <-] & [= <-] & H). fold c in H. destruct H as [[-> ->]|[-> (be & sa & Hbe & Hsa & H)]]; [done|].
      assert (be = below) as -> by (by eapply first_at_unique). assert (sa = same) as -> by (by eapply first_at_unique).
      f_equal. destruct H as [[Lt ->]|[(-> & Lt & ->)|(-> & Lt & ->)]].
      + destruct (Nat.ltb_spec same below); [|lia]. destruct (Nat.ltb_spec 0 same); [done|]. exfalso.
        assert (same = 0) as -> by lia. destruct Hsame as (_ & _ & Hs).
        destruct (lookup_lt_is_Some_2 (take below l) 0) as [x Hx]; [rewrite take_length; lia|]. destruct (Hs x Hx). lia.
      + rewrite !Nat.ltb_irrefl. destruct (Nat.ltb_spec below (length l)); [|lia]. by destruct (Nat.ltb_spec 0 below); [|lia].
      + rewrite !Nat.ltb_irrefl. destruct (Nat.ltb_spec below (length l)); [|done]. by destruct (Nat.ltb_spec 0 below); [lia|].
    - intros H. exists a, b. split; [done|]. split; [done|]. split; [done|]. fold c.
      destruct (flt c (final_score fw a)); [left; by injection H as <-|right]. split; [done|].
      exists below, same. split; [done|]. split; [done|]. injection H as <-.
      destruct (Nat.ltb_spec same below).
      + left. split; [done|]. destruct (Nat.ltb_spec 0 same); [done|]. exfalso.
        assert (same = 0) as -> by lia. destruct Hsame as (_ & _ & Hs).
        destruct (lookup_lt_is_Some_2 (take below l) 0) as [x Hx]; [rewrite take_length; lia|]. destruct (Hs x Hx). lia.
      + right. rewrite Nat.ltb_irrefl. destruct (Nat.ltb_spec below (length l)).
        * destruct (Nat.ltb_spec 0 below); [left|right]; (split; [lia|]); (split; [lia|]); done.
        * right. split; [lia|]. split; [lia|done]. }
  rewrite E. rewrite (proj1 (crop_take max fw l)). split; [by intros [= <-]|by intros ->].
Qed.

(** the cutoff *)
Lemma cuts_iff cut fw l l' : weight_single fw -> when (fle f1 cut = true) (cuts cut fw) l l' <-> l' = apply_cutoff cut fw l.
Proof.
  intros Hw. pose proof (fun r => final_is fw r Hw) as FS.
  destruct (apply_cutoff_spec cut fw l) as (n & E & Hn & H0 & H1).
  change (fge cut f1) with (fle f1 cut) in *. unfold when. destruct (fle f1 cut) eqn:Ec.
  2:{ rewrite (H0 eq_refl). split; [|intros ->; right; by split]. intros [[? _]|[_ ->]]; done. }
  specialize (H1 eq_refl). clear H0.
  assert (cuts cut fw l l' <-> l' = apply_cutoff cut fw l) as C; [|rewrite C; split; [by intros [[_ ?]|[? _]]|left; by split]].
  assert (first_at (fun i r => 0 < i /\ exists best, l !! 0 = Some best /\
      fle (final_score fw r) (fdiv (final_score fw best) cut) = true) l (Nat.min n (length l))) as F.
  { split; [lia|]. split.
    - intros i r Hi Hr [Hp (best & Hb & Hf)]. destruct (H1 best Hb) as [K _]. rewrite !FS in Hf. rewrite (K i r) in Hf; [done|lia|done].
    - intros r Hr. pose proof (lookup_lt_Some _ _ _ Hr) as Lt. rewrite Nat.min_l in Hr |- * by lia.
      assert (0 < n) as Pn by (apply Hn; by destruct l). split; [done|].
      destruct (lookup_lt_is_Some_2 l 0) as [best Hb]; [lia|]. exists best. split; [done|]. rewrite !FS. by apply (proj2 (H1 best Hb)). }
  rewrite E. assert (take n l = take (Nat.min n (length l)) l) as ->.
  { destruct (Nat.le_ge_cases n (length l)); [by rewrite Nat.min_l|]. rewrite Nat.min_r by done. by rewrite firstn_all, take_ge. }
  split.
  - intros (k & Hk & ->). by rewrite (first_at_unique _ _ _ _ Hk F).
  - intros ->. exists (Nat.min n (length l)). done.
Qed.

(** ** The whole *)
Section whole.
  Context (lc : N -> bool) (ses : str -> str -> list edit_instruction).
  Context (m : model) (q : str) (ks : list nat) (p : search_parameters) (inst : list (vocab_id * distance)).
  Context (HA : alphabet_ok (m_alphabet m)).
  Context (Hin : forall id d, (id, d) ∈ inst <-> exists v, candidate lc m q ks p id v d).
  Context (Hso : StronglySorted (id_before m) (map fst inst)).
  Context (Hlen : 0 < length ks) (Hlen2 : (N.of_nat (length ks) < 9007199254740992)%N) (Hw : weights_ok (m_weights m)).
  Context (Hsize : length (m_alphabet m) <= 166).
  Context (Hinst : forall id d, (id, d) ∈ inst -> id < length (m_decoder m) /\ measured (length ks) d).
  Context (Hfw : weight_single (p_freq_weight p)) (Hcn : length (m_confusables m) <= 500).
  Context (Hconf : Forall (fun c => double (cf_weight c) /\ fle f0 (cf_weight c) = true /\ fle (cf_weight c) f2 = true) (m_confusables m)).
  Context (HL : links_inside m).
  Context (HLs : forall id v r s, m_decoder m !! id = Some v -> (r, s) ∈ stored_references v -> unit_score s).
  Context (HF : freq_u32 m).
  #[local] Set Default Proof Using "All".
  Local Notation thr := (p_score_threshold p).
  Local Notation fw := (p_freq_weight p).
  Local Notation len := (length ks).
  Local Notation lA := (listA m inst len thr).
  Local Notation lB := (listB ses m inst q len thr).
  Local Notation lC := (listC ses m inst q len thr).
  Local Notation lD := (listD ses m inst q len thr).
  Local Notation lE := (listE ses m inst q len thr fw).
  Local Notation lF := (listF ses m inst q len thr fw).
  Local Notation lG := (listG ses m inst q len thr (p_max_matches p) fw).
  Local Notation lH := (listH ses m inst q len thr (p_max_matches p) fw).
  Local Notation hy x := (x ses m inst q len thr (p_cutoff_threshold p) (p_max_matches p) fw Hlen Hlen2 Hw Hinst Hfw Hcn Hconf HL HLs HF) (only parsing).

  Lemma early_iff : early m = true <-> m_confusables m <> [] /\ m_confusables_before_pruning m = true.
  Proof.
    unfold early, with_conf. rewrite andb_true_iff, negb_true_iff, bool_decide_eq_false.
    destruct (m_confusables m); cbn; split; intros [? ?]; (split; [|done]); congruence.
  Qed.
  Lemma late_iff : late m = true <-> m_confusables m <> [] /\ m_confusables_before_pruning m = false.
  Proof.
    unfold late, with_conf. rewrite andb_true_iff, !negb_true_iff, bool_decide_eq_false.
    destruct (m_confusables m); cbn; split; intros [? ?]; (split; [|done]); congruence.
  Qed.
  Lemma result_rankable l : Forall result_ok l -> Forall (rankable fw) l.
  Proof. intros H. eapply Forall_impl; [exact H|]. intros r. by apply ok_rankable. Qed.

  Lemma top_greatest cs : map seen cs = inst -> Forall (good m) cs ->
    greatest (map (fun c => f64_of_N (counted_freq m (si_value c))) cs ++ (if expandable m inst then map vr_freq lC else []))
      (top_freq ses m inst q len thr).
  Proof.
    intros E G. destruct (hy top_freq_ok) as (W & L & Lr). destruct (hy raw_max_ok) as (Wr & Lw & Er).
    assert (forall c, c ∈ cs -> fle (f64_of_N (counted_freq m (si_value c))) (raw_max m f0 inst) = true) as Lc.
    { intros c Hc. rewrite Forall_forall in G. destruct (G c Hc) as [D _]. rewrite <- absolute_counted.
      apply (Lw (si_id c) (si_distance c)); [|done]. rewrite <- E. by apply (elem_of_list_fmap_1 seen). }
    assert (forall c, c ∈ cs -> whole (f64_of_N (counted_freq m (si_value c)))) as Wc.
    { intros c Hc. rewrite Forall_forall in G. destruct (G c Hc) as [D _]. rewrite <- absolute_counted.
      by apply ((hy absolute_whole) (si_id c)). }
    split.
    - assert (raw_max m f0 inst ∈ f0 :: map (fun c => f64_of_N (counted_freq m (si_value c))) cs) as Hr.
      { destruct Er as [->|(id & d & v & Hx & Hv & ->)]; [left|]. right. rewrite <- E in Hx. apply elem_of_list_fmap in Hx as (c & Ec & Hc).
        injection Ec as -> ->. rewrite Forall_forall in G. destruct (G c Hc) as [D _]. assert (v = si_value c) as -> by congruence.
        rewrite absolute_counted. apply elem_of_list_fmap. by exists c. }
      unfold top_freq. destruct (expandable m inst); [|by rewrite app_nil_r].
      destruct ((hy max_fold) vr_freq lC) with (mf := raw_max m f0 inst) as (_ & _ & _ & [Em|(x & Hx & Em)]).
      + eapply Forall_impl; [apply (hy listC_ok)|]. by intros r (_ & _ & ?).
      + done.
      + unfold max_freq_of. rewrite Em. rewrite app_comm_cons. apply elem_of_app. by left.
      + unfold max_freq_of. rewrite Em. right. apply elem_of_app. right. by apply elem_of_list_fmap_1.
    - apply Forall_app. split.
      + rewrite Forall_forall. intros x Hx. apply elem_of_list_fmap in Hx as (c & -> & Hc).
        apply ((hy fle_trans_whole) _ (raw_max m f0 inst)); auto.
      + destruct (expandable m inst); [|constructor]. rewrite Forall_forall. intros x Hx. apply elem_of_list_fmap in Hx as (r & -> & Hr). auto.
  Qed.

  Lemma whole_iff l : looked_up lc ses m q ks p l <-> l = apply_cutoff (p_cutoff_threshold p) fw lH.
  Proof.
    assert (Forall (fun r => vr_id r < length (m_decoder m)) lA) as IA.
    { eapply Forall_impl; [apply (hy listA_ok)|]. by intros r (? & _). }
    assert (Forall (fun r => vr_id r < length (m_decoder m)) lB) as IB.
    { eapply Forall_impl; [apply (hy listB_ok)|]. by intros r (? & _). }
    assert (Forall (fun r => vr_id r < length (m_decoder m)) lG) as IG.
    { pose proof (hy listD_ok) as H. rewrite Forall_forall in H. rewrite Forall_forall. intros r Hr.
      apply (H r). by eapply listG_elem. }
    assert (forall cs, map seen cs = inst -> Forall (good m) cs -> expandable m inst = true <-> linked_sighting cs) as EX.
    { intros cs E G. rewrite <- E. by apply linked_iff. }
    assert (forall cs l', map seen cs = inst -> Forall (good m) cs -> first_results m ks p cs l' <-> l' = lA) as HA'.
    { intros cs l' E G. rewrite <- E. by apply first_results_iff. }
    assert (forall l', when (m_confusables m <> [] /\ m_confusables_before_pruning m = true) (Forall2 (reweighed ses m q)) lA l' <-> l' = lB) as HB.
    { intros l'. apply when_iff; [apply early_iff|]. intros _. by apply reweighed_iff. }
    assert (forall cs l', map seen cs = inst -> Forall (good m) cs -> when (linked_sighting cs) (expands m) lB l' <-> l' = lC) as HC.
    { intros cs l' E G. apply when_iff; [by apply EX|]. intros _. by apply expands_iff. }
    assert (forall cs l', map seen cs = inst -> Forall (good m) cs -> shared m cs lC l' <-> l' = lD) as HD.
    { intros cs l' E G. apply shared_iff with (if expandable m inst then map vr_freq lC else []); [by apply top_greatest|].
      apply (when_iff _ (expandable m inst) _ _ _ (map vr_freq lC)); [by apply EX|done|done]. }
    assert (forall l', ranks fw lD l' <-> l' = lE) as HE.
    { intros l'. apply ranks_iff, result_rankable, (hy listD_result_ok). }
    assert (forall cs l', map seen cs = inst -> Forall (good m) cs -> when (linked_sighting cs) merges lE l' <-> l' = lF) as HF'.
    { intros cs l' E G. apply when_iff; [by apply EX|]. intros _. apply merges_iff. }
    assert (forall l', crops (p_max_matches p) fw lF l' <-> l' = lG) as HG by (intros l'; by apply crops_iff).
    assert (forall l', when (m_confusables m <> [] /\ m_confusables_before_pruning m = false) (Forall2 (reweighed ses m q)) lG l' <->
      l' = if late m then rescore_confusables ses m lG q else lG) as HH1.
    { intros l'. apply when_iff; [apply late_iff|]. intros _. by apply reweighed_iff. }
    assert (forall l', when (m_confusables m <> [] /\ m_confusables_before_pruning m = false) (ranks fw)
      (if late m then rescore_confusables ses m lG q else lG) l' <-> l' = lH) as HH.
    { intros l'. unfold listH. destruct (late m) eqn:El.
      - rewrite (when_iff _ (late m) _ _ _ (sort_by (after_of fw) (rescore_confusables ses m lG q))); [by rewrite El|apply late_iff|].
        intros _. apply ranks_iff, result_rankable, (hy rescored_ok).
      - rewrite (when_iff _ (late m) _ _ _ l'); [by rewrite El|apply late_iff|]. intros X. apply late_iff in X. congruence. }
    split.
    - intros [cs l1 l2 l3 l4 l5 l6 l7 l8 l9 S1 S2 S3 S4 S5 S6 S7 S8 S9 S10 S11].
      apply (sighted_iff lc m q ks p HA Hsize inst Hin Hso) in S1 as [E G].
      apply (HA' cs) in S2 as ->; [|done..]. apply HB in S3 as ->. apply (HC cs) in S4 as ->; [|done..].
      apply (HD cs) in S5 as ->; [|done..]. apply HE in S6 as ->. apply (HF' cs) in S7 as ->; [|done..].
      apply HG in S8 as ->. apply HH1 in S9 as ->. apply HH in S10 as ->. by apply cuts_iff in S11.
    - intros ->. destruct (sighted_exists lc m q ks p HA Hsize inst Hin Hso) as (cs & E & G).
      apply (looked_up_intro _ _ _ _ _ _ _ cs lA lB lC lD lE lF lG (if late m then rescore_confusables ses m lG q else lG) lH).
      + by apply (sighted_iff lc m q ks p HA Hsize inst Hin Hso).
      + by apply HA'.
      + by apply HB.
      + by apply HC.
      + by apply HD.
      + by apply HE.
      + by apply HF'.
      + by apply HG.
      + by apply HH1.
      + by apply HH.
      + by apply cuts_iff.
  Qed.
End whole.

Lemma lookup_exact lc ses m m' q ks p l : built m m' -> query m q ks -> length ks <= 255 -> tame m p ->
  finds lc ses m' q p l <-> looked_up lc ses m q ks p l.
Proof.
  intros B Q Hl T. destruct (instances lc ses m m' q ks B Q p) as (inst & Hf & Hnd & Hi & H255 & _ & Hso).
  destruct (pipeline_hyps lc ses m m' q ks B Q p inst T Hi) as (H1 & H2 & H3 & H4 & H5 & H6 & H7 & H8).
  pose proof (len_pos lc ses m m' q ks B Q) as Lp. pose proof (len_small lc ses m m' q ks B Q) as Ls.
  rewrite (Hf p) by done. unfold sr.
  rewrite (score_and_rank_eq ses m' inst q (length ks) _ _ _ _ Lp Ls H1 H2 H3 H4 H5 H6 H7 H8).
  pose proof (decoder_same lc ses m m' q ks B Q) as Ed. pose proof (weights_same lc ses m m' q ks B Q) as Ew.
  destruct (confusables_same lc ses m m' q ks B Q) as [Ec Ep]. pose proof (have_freq_same lc ses m m' q ks B Q) as Ef.
  assert (listH ses m' inst q (length ks) (p_score_threshold p) (p_max_matches p) (p_freq_weight p) =
    listH ses m inst q (length ks) (p_score_threshold p) (p_max_matches p) (p_freq_weight p)) as ->.
  { assert (scored m' (length ks) (p_score_threshold p) = scored m (length ks) (p_score_threshold p)) as E1.
    { unfold scored, absolute_freq. by rewrite Ed, Ew, Ef. }
    assert (expandable m' inst = expandable m inst) as E2 by (unfold expandable, linked; by rewrite Ed).
    assert (raw_max m' = raw_max m) as E3 by (unfold raw_max, absolute_freq; by rewrite Ed, Ef).
    assert (forall x, rescore_confusables ses m' x q = rescore_confusables ses m x q) as E4.
    { intros x. unfold rescore_confusables, confusable_weight. by rewrite Ed, Ec. }
    assert (expansions m' = expansions m) as E5 by (unfold expansions, expansion; by rewrite Ed).
    assert (late m' = late m /\ early m' = early m) as [E6 E7] by (unfold late, early, with_conf; by rewrite Ec, Ep).
    unfold listH, listG, listF, listE, listD, top_freq, listC, listB, listA.
    rewrite E1, E2, E3, E5, E6, E7. destruct (early m), (late m); by rewrite ?E4. }
  rewrite Ew in H1. rewrite Ed in H2. rewrite Ec in H4, H5. unfold links_inside, freq_u32 in H6, H8. rewrite Ed in H6, H7, H8.
  rewrite (whole_iff lc ses m q ks p inst (bt_alphabet _ _ B) (H255 Hl) Hso Lp Ls H1 (bt_size _ _ B) H2 H3 H4 H5 H6 H7 H8).
  split; [by intros [= <-]|by intros ->].
Qed.
Lemma one_outcome lc ses m m' q ks p : built m m' -> query m q ks -> length ks <= 255 -> tame m p ->
  exists l, looked_up lc ses m q ks p l /\ forall l', looked_up lc ses m q ks p l' -> l' = l.
Proof.
  intros B Q Hl T. destruct (total lc ses m m' q ks B Q p T) as [l H]. exists l.
  split; [by apply (lookup_exact lc ses m m')|]. intros l' H'. apply (lookup_exact lc ses m m') in H'; [|done..].
  by apply (finds_unique lc ses m m' q ks B Q p).
Qed.
