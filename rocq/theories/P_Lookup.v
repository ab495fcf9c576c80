(** Proofs about looking up a string as a whole. *)
From Coq Require Import Lia Reals Lra Sorted.
From Verif Require Import M_Base M_Anahash M_Iter M_Distance M_Float M_Types M_Model M_Confusable M_Search.
From Verif Require Import S_Anahash S_Iter S_Distance S_Model S_Search.
From Verif Require Import P_Base P_Primes P_Anahash P_Iter P_Recurse P_Model P_Index P_Nearest P_Gather P_Float P_Score P_Rank P_Find.
From stdpp Require Import options.

Lemma floor_as_u8_le x : floor_as_u8 x <= 255.
Proof. destruct x as [|[]| |[] mx e]; cbn [floor_as_u8]; lia. Qed.
Lemma effective_limit_le t len : effective_limit t len <= 255.
Proof. unfold effective_limit. 
  destruct t as [x|x k|x].
  1, 2: pose proof (floor_as_u8_le (f32mul (f32_of_nat len) x)); lia.
  pose proof (floor_as_u8_le (fdiv (f64_of_nat len) f2)). lia.
Qed.

Lemma bag_diff_perm (ks a b : list nat) d : a ≡ₚ b -> bag_diff ks a d -> bag_diff ks b d.
Proof. intros E (c & x & y & E1 & E2 & -> & H). exists c, x, y. rewrite <- E. done. Qed.
Lemma in_reach_perm ks max a b : a ≡ₚ b -> in_reach ks max a -> in_reach ks max b.
Proof.
  intros E ((d & Hd & Hle) & Hs & Hl). split; [exists d; split; [by eapply bag_diff_perm|done]|]. split.
  - destruct Hs as [|(k & H1 & H2)]; [by left|right]. exists k. by rewrite <- E.
  - destruct Hl as [|[g Hg]]; [left; by rewrite <- (Permutation_length E)|right]. exists g. by rewrite <- E.
Qed.
Lemma reached_perm m ks max stop a b : a ≡ₚ b -> reached m ks max stop a -> reached m ks max stop b.
Proof.
  intros E. destruct stop; cbn; [by apply in_reach_perm|]. intros [[H1 H2]|[H1 H2]]; [left|right]; (split; [done|]).
  - by rewrite <- E.
  - by eapply in_reach_perm.
Qed.
Lemma reached_nonempty m ks max stop a : ks <> [] -> reached m ks max stop a -> a <> [].
Proof.
  intros Hne H ->. assert (forall max, ~ in_reach ks max []) as N.
  { intros mx (_ & [|(k & _ & Hk)] & _); [done|]. by apply elem_of_nil in Hk. }
  destruct stop; cbn in H; [by apply N in H|]. destruct H as [[_ H]|[_ H]]; [|by apply N in H].
  apply Permutation_nil_l in H. done.
Qed.
Lemma reached_self m ks max stop id v : ks <> [] -> entry_reading m id v ks -> reached m ks max stop ks.
Proof.
  intros Hne He. assert (in_reach ks max ks) as R.
  { split.
    - exists 0. split; [|lia]. exists ks, [], []. rewrite app_nil_r. split; [done|]. split; [done|]. split; [done|]. by intros ? ?%elem_of_nil.
    - split; [right|right; exists []; by rewrite app_nil_r]. destruct ks as [|k l]; [done|]. exists k. split; left. }
  destruct stop; cbn; [done|]. left. split; [|done]. by exists id, v, ks.
Qed.

(** the indexed part of a model survives building *)
Section lookup.
  Context (lc : N -> bool) (ses : str -> str -> list edit_instruction).
  Context (m m' : model) (q : str) (ks : list nat).
  Context (B : built m m') (Q : query m q ks).
  #[local] Set Default Proof Using "All".

  Lemma built_parts : index_right m m' /\ m_alphabet m' = m_alphabet m /\ m_weights m' = m_weights m /\
    m_have_freq m' = m_have_freq m /\ m_confusables m' = m_confusables m /\
    m_confusables_before_pruning m' = m_confusables_before_pruning m /\ m_decoder m' = m_decoder m.
  Proof.
    destruct (bt_build _ _ B) as (o & o' & Ho & Ho' & Hb).
    pose proof (build_right _ _ _ _ (bt_alphabet _ _ B) Ho Ho' Hb) as R.
    destruct (build_fields _ _ _ _ Ho' Hb) as (? & ? & ? & ?). split; [done|].
    split; [by eapply build_alphabet|]. split_and!; try done. apply (ir_decoder _ _ R).
  Qed.

  Lemma find_split ta te stop : let maxa := effective_limit ta (length ks) in let maxe := effective_limit te (length ks) in
    exists inst F,
      (forall p f order, p_max_anagram_distance p = ta -> p_max_edit_distance p = te -> p_stop_criterion p = stop ->
        F <= f -> some_order order ->
        find_variants lc ses f order m' q p =
        score_and_rank ses m' inst q (length ks) (p_max_matches p) (p_score_threshold p) (p_cutoff_threshold p) (p_freq_weight p)) /\
      NoDup (map fst inst) /\
      (forall id d, (id, d) ∈ inst -> exists v ks', entry_reading m id v ks' /\ reached m ks maxa stop ks' /\ measured (length ks) d) /\
      (length ks <= 255 -> forall id d, (id, d) ∈ inst <->
        exists v ks', entry_reading m id v ks' /\ reached m ks maxa stop ks' /\
          distance_between lc (m_weights m) q ks (vv_text v) ks' d /\ d_ld d <= maxe) /\
      (forall id v, entry_reading m id v ks -> exists d, (id, d) ∈ inst /\ d_ld d = 0 /\
        distance_between lc (m_weights m) q ks (vv_text v) ks d) /\
      StronglySorted (id_before m) (map fst inst).
  Proof.
    intros maxa maxe.
    destruct built_parts as (R & EA & EW & _). destruct Q as [Hr Hne Hshort].
    pose proof (bt_alphabet _ _ B) as HA. pose proof (bt_short _ _ B) as HS. pose proof (bt_norm _ _ B) as HN.
    assert (Forall (fun k => k < 167) ks) as Hks.
    { eapply Forall_impl; [by eapply reads_bound|]. cbn. intros k Hk. pose proof (bt_size _ _ B). lia. }
    assert (maxa <= 255) as Hma by apply effective_limit_le. assert (maxe <= 255) as Hme by apply effective_limit_le.
    assert ((N.of_nat (length ks) + N.of_nat maxa < 65536)%N) as Hlen by lia.
    assert (exists F near, (forall f o, F <= f -> some_order o -> find_nearest f o m' (prod ks) maxa stop = Ok near) /\
      forall h, h ∈ near <-> exists ks', entry_bag m h ks' /\ reached m ks maxa stop ks') as (F & near & En & Hnear).
    { destruct stop.
      - by destruct (nearest_exhaustive m m' HA R EA HS ks maxa Hks (reads_bound _ _ _ Hr) Hlen Hma) as (F & near & E & N); exists F, near.
      - destruct (nearest_stop m m' HA R EA HS ks maxa Hks (reads_bound _ _ _ Hr) Hlen Hma) as (F & near & E & N1 & N2).
        exists F, near. split; [done|]. intros h.
        assert (forall x, entry_bag m h x -> h = prod ks <-> x ≡ₚ ks) as Hp.
        { intros x Hb. pose proof (entry_bag_below m m' HA R EA HS _ _ Hb) as Hb168. destruct Hb as (i & v & _ & ->). split.
          - intros Ep. apply prod_inj; [done| |done]. by eapply reads_below168.
          - intros Ep. by apply prod_perm. }
        assert ((exists k2, entry_bag m (prod ks) k2) <-> same_bag_entry m ks) as Hsame.
        { split.
          - intros (k2 & Hb). pose proof (entry_bag_below m m' HA R EA HS _ _ Hb) as Hb168. destruct Hb as (i & v & Hb & Ep). exists i, v, k2.
            split; [done|]. apply prod_inj; [done| |done]. by eapply reads_below168.
          - intros (i & v & k2 & He & Hk2). exists k2, i, v. split; [done|]. symmetry. by apply prod_perm. }
        destruct (decide (is_Some (m_index m' !! prod ks))) as [Hi|Hi].
        + assert (exists k2, entry_bag m (prod ks) k2) as Hex by (by apply (indexed_hash_bag m m' HA R EA HS)).
          rewrite (N1 Hex), elem_of_singleton. split.
          * intros ->. destruct Hex as (k2 & Hb). exists k2. split; [done|]. left. split; [apply Hsame; by exists k2|].
            pose proof (entry_bag_below m m' HA R EA HS _ _ Hb) as Hb168. destruct Hb as (i & v & _ & Ep). apply prod_inj; [done| |done]. by eapply reads_below168.
          * intros (k2 & Hb & [[_ H]|[H _]]); [by apply (Hp k2)|]. exfalso. by apply H, Hsame.
        + assert (~ exists k2, entry_bag m (prod ks) k2) as Hex by (intros X; apply Hi; by apply (indexed_hash_bag m m' HA R EA HS)).
          rewrite (N2 Hex). split; intros (k2 & Hb & H); exists k2; (split; [done|]).
          * right. split; [by rewrite <- Hsame|done].
          * destruct H as [[H _]|[_ H]]; [|done]. exfalso. by apply Hex, Hsame. }
    destruct (gather_near lc m m' HA R EA EW HN HS q ks Hr Hne ltac:(lia) maxe Hme (reached m ks maxa stop)
      (reached_perm m ks maxa stop) (fun a => reached_nonempty m ks maxa stop a Hne) near Hnear)
      as (inst & Eg & Hnd & Hm & H255 & Hex & Hso).
    exists inst, F. split; [|split; [done|split; [done|split; [done|split; [|done]]]]].
    2:{ intros id v He. apply (Hex id v He). by eapply reached_self. }
    intros p f order Ea Ee Es Hf Ho. unfold find_variants. case_bool_decide as Hemp.
    - assert (inst = []) as ->.
      { destruct inst as [|[id d] l]; [done|]. exfalso. destruct (Hm id d ltac:(left)) as (v & k2 & He & _).
        destruct (proj2 (ir_content _ _ R (prod k2) id)) as (nd & Hnd' & _); [exists v; split; [apply He|by apply anahash_reads, He]|].
        rewrite Hemp in Hnd'. by rewrite lookup_empty in Hnd'. }
      unfold score_and_rank. destruct (Nat.eqb_spec (length ks) 0) as [E0|_]; [by destruct ks|]. cbn [rfoldl rbind].
      destruct (negb _ && _); cbn; unfold rank_results, crop, normalize_freq; cbn; rewrite ?andb_false_r; cbn;
        rewrite ?andb_false_r; cbn; destruct (0 <? p_max_matches p)%nat; cbn; destruct (negb _ && negb _); cbn;
        rewrite ?andb_false_r; cbn; unfold apply_cutoff; destruct (fge _ _); done.
    - rewrite EA. rewrite (normalize_reads _ _ _ HA Hr), (anahash_reads _ _ _ HA Hr). cbn [rbind].
      rewrite map_length, Ea, Ee, Es. fold maxa maxe. rewrite (En f order Hf Ho). cbn [rbind]. rewrite Eg. done.
  Qed.
End lookup.

(** ** Following a result back to its instance *)
Section trace.
  Context (ses : str -> str -> list edit_instruction).
  Context (m : model) (inst : list (vocab_id * distance)) (q : str) (len : nat) (thr cut : f64) (mm : nat) (fw : f32).
  #[local] Set Default Proof Using "Type*".
  Local Notation lA := (listA m inst len thr).
  Local Notation lB := (listB ses m inst q len thr).
  Local Notation lC := (listC ses m inst q len thr).
  Local Notation lD := (listD ses m inst q len thr).
  Local Notation lE := (listE ses m inst q len thr fw).
  Local Notation lF := (listF ses m inst q len thr fw).
  Local Notation lG := (listG ses m inst q len thr mm fw).
  Local Notation lH := (listH ses m inst q len thr mm fw).
  Local Notation exp := (expandable m inst).
  Local Notation top := (top_freq ses m inst q len thr).

  Lemma cutoff_elem r : r ∈ apply_cutoff cut fw lH -> r ∈ lH.
  Proof. destruct (apply_cutoff_spec cut fw lH) as (n & -> & _). intros H. eapply elem_of_submseteq; [exact H|]. apply sublist_submseteq, take_sublist. Qed.
  Lemma no_conf_late : m_confusables m = [] -> late m = false /\ early m = false.
  Proof. intros E. unfold late, early, with_conf. rewrite E. done. Qed.
  Lemma listH_elem r : r ∈ lH -> exists r', r' ∈ lG /\ vr_id r = vr_id r' /\ vr_freq r = vr_freq r' /\ vr_via r = vr_via r' /\
    (late m = false -> r = r').
  Proof.
    rewrite listH_perm. destruct (late m); [|intros H; by exists r]. unfold rescore_confusables.
    intros H. apply elem_of_list_fmap in H as (r' & -> & H). by exists r'.
  Qed.
  Lemma listD_elem r : r ∈ lD <-> exists r', r' ∈ lC /\ r = VariantResult (vr_id r') (vr_dist r')
    (if fgt top f0 then fdiv (vr_freq r') top else vr_freq r') (vr_via r').
  Proof.
    unfold listD, normalize_freq. destruct (fgt top f0).
    - rewrite elem_of_list_fmap. split; intros (r' & H1 & H2); exists r'; done.
    - split; [intros H; exists r; split; [done|by destruct r]|]. intros (r' & H & ->). by destruct r'.
  Qed.
  Lemma listC_elem r : r ∈ lC <-> exists r0, r0 ∈ lB /\ if exp then r ∈ expansions m r0 else r = r0.
  Proof.
    unfold listC. destruct exp.
    - rewrite elem_of_list_join. split.
      + intros (l & Hr & Hl). apply elem_of_list_fmap in Hl as (r0 & -> & Hl). by exists r0.
      + intros (r0 & H0 & H). exists (expansions m r0). split; [done|]. apply elem_of_list_fmap. by exists r0.
    - split; [intros H; by exists r|]. by intros (r0 & H & ->).
  Qed.
  Lemma listB_elem r : r ∈ lB -> exists r0, r0 ∈ lA /\ vr_id r = vr_id r0 /\ vr_freq r = vr_freq r0 /\ vr_via r = vr_via r0 /\
    (early m = false -> r = r0).
  Proof.
    unfold listB. destruct (early m); [|intros H; by exists r]. unfold rescore_confusables.
    intros H. apply elem_of_list_fmap in H as (r' & -> & H). by exists r'.
  Qed.

  (** where a result comes from *)
  Lemma trace r : r ∈ apply_cutoff cut fw lH -> exists id d v, (id, d) ∈ inst /\ m_decoder m !! id = Some v /\
    fge (distance_score (m_weights m) len d) thr = true /\
    ((vr_id r = id /\ vr_via r = None /\ (exp = true -> vt_check (vv_type v) VT_TRANSPARENT = false) /\
      vr_freq r = (if fgt top f0 then fdiv (absolute_freq m v) top else absolute_freq m v) /\
      (m_confusables m = [] -> vr_dist r = distance_score (m_weights m) len d)) \/
     (vr_via r = Some id /\ exp = true /\ exists s, (vr_id r, s) ∈ stored_references v /\
      (m_confusables m = [] -> vr_dist r = fmul (distance_score (m_weights m) len d) s))).
  Proof.
    intros H. apply cutoff_elem in H. apply listH_elem in H as (r1 & H & I1 & F1 & V1 & D1). apply listG_elem in H.
    apply listD_elem in H as (r2 & H & ->). cbn in I1, F1, V1, D1. apply listC_elem in H as (r3 & H & HC).
    apply listB_elem in H as (r4 & H & I4 & F4 & V4 & D4). apply listA_elem in H as (id & d & v & Hi & Hv & Ht & ->).
    cbn in I4, F4, V4, D4. exists id, d, v. split; [done|]. split; [done|]. split; [done|].
    destruct exp eqn:Ex.
    - apply expansions_elem in HC as (item & Hit & [(t & s & ti & Hin & Htt & ->)|[Etr ->]]);
        rewrite I4 in Hit; assert (item = v) as -> by congruence.
      + right. cbn in *. split; [congruence|]. split; [done|]. exists s. split; [by rewrite I1|].
        intros [EL EE]%no_conf_late. rewrite (D1 EL). cbn. by rewrite (D4 EE).
      + left. split; [congruence|]. split; [congruence|]. split; [done|]. split.
        * rewrite F1. by rewrite F4.
        * intros [EL EE]%no_conf_late. rewrite (D1 EL). cbn. by rewrite (D4 EE).
    - subst r2. left. split; [congruence|]. split; [congruence|]. split; [done|]. split.
      + rewrite F1. by rewrite F4.
      + intros [EL EE]%no_conf_late. rewrite (D1 EL). cbn. by rewrite (D4 EE).
  Qed.

  (** without links and caps nothing is lost *)
  Lemma uncropped : mm = 0 -> fge cut f1 = false -> apply_cutoff cut fw lH = (if late m then sort_by (after_of fw) (rescore_confusables ses m lF q) else lF).
  Proof.
    intros -> Hc. destruct (apply_cutoff_spec cut fw (listH ses m inst q len thr 0 fw)) as (n & _ & _ & E & _). rewrite E by done.
    unfold listH. assert (listG ses m inst q len thr 0 fw = lF) as ->; [|done].
    unfold listG, crop_n, crop. cbn. by rewrite firstn_all.
  Qed.
  Lemma ids_normalized l t : map vr_id (normalize_freq t l) = map vr_id l.
  Proof. unfold normalize_freq. destruct (fgt t f0); [|done]. rewrite map_map. done. Qed.
  Lemma ids_rescored l : map vr_id (rescore_confusables ses m l q) = map vr_id l.
  Proof. unfold rescore_confusables. rewrite map_map. done. Qed.
  Lemma ids_plain : exp = false -> map vr_id (apply_cutoff cut fw lH) ⊆+ map vr_id lA.
  Proof.
    intros Ex. destruct (apply_cutoff_spec cut fw lH) as (n & -> & _).
    etrans; [apply sublist_submseteq; rewrite <- firstn_map; apply sublist_take|].
    assert (map vr_id lH ≡ₚ map vr_id lG) as -> by (rewrite (listH_perm ses m inst q len thr mm fw); destruct (late m); [by rewrite ids_rescored|done]).
    unfold listG. rewrite <- firstn_map. etrans; [apply sublist_submseteq, sublist_take|].
    unfold listF. rewrite Ex. rewrite (listE_perm ses m inst q len thr fw). unfold listD. rewrite ids_normalized. unfold listC. rewrite Ex.
    unfold listB. destruct (early m); [by rewrite ids_rescored|done].
  Qed.
End trace.

(** keeping something for each id *)
Lemma dedup_from_keeps l : forall p x, x ∈ l -> vr_id x = p \/ exists y, y ∈ dedup_from p l /\ vr_id y = vr_id x /\
  (y = x \/ exists i j, i < j /\ l !! i = Some y /\ l !! j = Some x).
Proof.
  induction l as [|z l IH]; intros p x Hx; [by apply elem_of_nil in Hx|]. apply elem_of_cons in Hx as [->|Hx]; cbn.
  - destruct (Nat.eqb_spec (vr_id z) p) as [E|E]; [by left|]. right. exists z. split; [left|]. split; [done|by left].
  - assert (forall y, (y = x \/ exists i j, i < j /\ l !! i = Some y /\ l !! j = Some x) ->
      (y = x \/ exists i j, i < j /\ (z :: l) !! i = Some y /\ (z :: l) !! j = Some x)) as Sh.
    { intros y [->|(i & j & ? & ? & ?)]; [by left|]. right. exists (S i), (S j). split; [lia|done]. }
    destruct (Nat.eqb_spec (vr_id z) p) as [E|E].
    + destruct (IH p x Hx) as [?|(y & Hy & Ey & H)]; [by left|]. right. exists y. split; [done|]. split; [done|]. by apply Sh.
    + right. destruct (IH (vr_id z) x Hx) as [Ez|(y & Hy & Ey & H)].
      * exists z. split; [left|]. split; [done|]. right. apply elem_of_list_lookup in Hx as [j Hj]. exists 0, (S j). split; [lia|done].
      * exists y. split; [by right|]. split; [done|]. by apply Sh.
Qed.
Lemma dedup_keeps l x : x ∈ l -> exists y, y ∈ dedup l /\ vr_id y = vr_id x /\
  (y = x \/ exists i j, i < j /\ l !! i = Some y /\ l !! j = Some x).
Proof.
  destruct l as [|z l]; intros Hx; [by apply elem_of_nil in Hx|]. cbn. apply elem_of_cons in Hx as [->|Hx].
  - exists z. split; [left|]. split; [done|by left].
  - destruct (dedup_from_keeps l (vr_id z) x Hx) as [Ez|(y & Hy & Ey & H)].
    + exists z. split; [left|]. split; [done|]. right. apply elem_of_list_lookup in Hx as [j Hj]. exists 0, (S j). split; [lia|done].
    + exists y. split; [by right|]. split; [done|]. destruct H as [->|(i & j & ? & ? & ?)]; [by left|]. right. exists (S i), (S j). split; [lia|done].
Qed.
Lemma dedup_head l : dedup l !! 0 = l !! 0.
Proof. by destruct l. Qed.

(** ** The number of results *)
Lemma cutoffs_early c l : forall i e j x, l !! j = Some x -> feq (vr_dist x) c = true -> flt (vr_dist x) c = false ->
  (forall k y, k < j -> l !! k = Some y -> flt (vr_dist y) c = false) -> 0 < i + j -> e <= i + j ->
  0 < fst (cutoffs c i e l) <= i + j.
Proof.
  assert (forall l i e, 0 < e -> fst (cutoffs c i e l) = e) as Stay.
  { clear l. induction l as [|r l IH]; intros i e He; [done|]. cbn. destruct (Nat.eqb_spec e 0); [lia|]. rewrite andb_false_r.
    destruct (flt _ _); [done|]. by apply IH. }
  induction l as [|r l IH]; intros i e j x Hx Ex Lx Hk Hij He; [done|]. cbn [cutoffs]. destruct j as [|j].
  - injection Hx as ->. rewrite Ex, Lx. cbn [andb]. destruct (Nat.eqb_spec e 0) as [->|?]; rewrite Stay; lia.
  - rewrite (Hk 0 r ltac:(lia) eq_refl). cbn in Hx.
    set (e' := if feq (vr_dist r) c && (e =? 0)%nat then i else e).
    assert (e' <= i + S j) by (unfold e'; destruct (feq _ _ && _); lia).
    rewrite <- Nat.add_succ_comm. apply (IH (S i) e' j x Hx Ex Lx); [|lia|lia].
    intros k y Hkj Hy. by apply (Hk (S k)); [lia|].
Qed.

Lemma weight_zero fw : weight_single fw -> feq fw f0 = true -> fgt fw f0 = false.
Proof. intros _. unfold feq, fgt. by destruct fw as [|[]| |[]]. Qed.
Lemma weight_cases fw : weight_single fw -> feq fw f0 = true \/ fgt fw f0 = true.
Proof. intros (_ & H & _). destruct fw as [|[]| |[]]; (by left) || (by right) || done. Qed.

(** along a ranked list the scores decrease *)
Lemma ranked_score fw a b : weight_single fw -> result_ok a -> result_ok b -> ranks_before fw a b ->
  fle (vr_score fw b) (vr_score fw a) = true.
Proof.
  intros Hw Ha Hb. unfold ranks_before. destruct (weight_cases fw Hw) as [E|E].
  - rewrite (weight_zero fw Hw E). unfold vr_score. rewrite E. destruct Ha as [Ha _], Hb as [Hb _].
    apply modest_dv in Ha as (x & Hx & _), Hb as (y & Hy & _). rewrite (dv_flt _ _ _ _ Hy Hx), (dv_fle _ _ _ _ Hy Hx).
    pose proof (dv_nonan _ _ Hx) as [Nx Dx]. pose proof (dv_nonan _ _ Hy) as [Ny Dy].
    rewrite (nonan_feq _ _ Nx Ny), Dx, Dy. intros [?|[? _]]; lra.
  - rewrite E, <- !vr_score_combined by done. done.
Qed.

Lemma crop_bound mm fw l : weight_single fw -> feq fw f0 = true -> Forall result_ok l -> ranked fw l -> 0 < mm ->
  length (take (crop_n mm fw l) l) <= Nat.max mm 2.
Proof.
  intros Hw Ez Hl Hr Hmm. destruct (crop_take mm fw l) as [E _]. revert E. set (n := crop_n mm fw l). clearbody n. unfold crop.
  destruct (Nat.ltb_spec 0 mm); [|lia]. cbn [andb]. destruct (Nat.ltb_spec mm (length l)) as [Hlt|Hge].
  2:{ intros [= <-]. lia. }
  destruct (lookup_lt_is_Some_2 l (mm - 1)) as [a Ha]; [lia|]. destruct (lookup_lt_is_Some_2 l mm) as [b Hb]; [lia|].
  rewrite Ha, Hb. cbn [rexpect rbind]. destruct (flt _ _) eqn:Ef.
  { intros [= <-]. rewrite take_length. lia. }
  unfold vr_score in *. rewrite Ez in *.
  assert (forall i x, l !! i = Some x -> exists r, dv (vr_dist x) r) as Num.
  { intros i x Hx. rewrite Forall_forall in Hl. destruct (Hl x) as [Hm _]; [by eapply elem_of_list_lookup_2|].
    apply modest_dv in Hm as (r & ? & _). by exists r. }
  assert (forall i j x y r s, i <= j -> l !! i = Some x -> l !! j = Some y -> dv (vr_dist x) r -> dv (vr_dist y) s -> (s <= r)%R) as Mono.
  { intros i j x y r s Hij Hx Hy Dx Dy. destruct (decide (i = j)) as [->|].
    - assert (x = y) as -> by congruence. apply dv_nonan in Dx as [_ <-], Dy as [_ <-]. lra.
    - assert (ranks_before fw x y) as Hrb by (by apply (Hr i j); [lia|..]).
      rewrite Forall_forall in Hl. apply ranked_score in Hrb; [|done|by apply Hl; eapply elem_of_list_lookup_2..].
      unfold vr_score in Hrb. rewrite Ez in Hrb. by apply (dv_fle _ _ _ _ Dy Dx). }
  destruct (Num _ _ Ha) as (ra & Da). destruct (Num _ _ Hb) as (rb & Db).
  assert (ra <= rb)%R as Hab.
  { destruct (Rle_lt_dec ra rb) as [|L]; [done|]. by apply (dv_flt _ _ _ _ Db Da) in L; rewrite L in Ef. }
  assert (rb = ra) as Erb by (apply Rle_antisym; [apply (Mono (mm - 1) mm a b); (done || lia)|done]). subst rb.
  set (j := if (mm =? 1)%nat then 1 else mm - 1).
  assert (exists x, l !! j = Some x /\ dv (vr_dist x) ra) as (x & Hx & Dx).
  { unfold j. destruct (Nat.eqb_spec mm 1) as [->|]; [by exists b|by exists a]. }
  assert (0 < fst (cutoffs (vr_dist b) 0 0 l) <= 0 + j) as He.
  { apply (cutoffs_early _ _ _ _ j x Hx).
    - pose proof (dv_nonan _ _ Dx) as [Nx Ex]. pose proof (dv_nonan _ _ Db) as [Nb Eb]. apply (nonan_feq _ _ Nx Nb). congruence.
    - apply not_true_is_false; intros F. apply (dv_flt _ _ _ _ Dx Db) in F. lra.
    - intros k y Hk Hy. apply not_true_is_false; intros F. destruct (Num _ _ Hy) as (r & Dy). apply (dv_flt _ _ _ _ Dy Db) in F.
      pose proof (Mono k j y x r ra ltac:(lia) Hy Hx Dy Dx). lra.
    - unfold j. destruct (Nat.eqb_spec mm 1); lia.
    - lia. }
  destruct (cutoffs _ _ _ _) as [e t]. cbn in He. destruct (Nat.ltb_spec 0 e); [|lia]. intros [= <-]. rewrite take_length.
  unfold j in He. destruct (Nat.eqb_spec mm 1); lia.
Qed.
