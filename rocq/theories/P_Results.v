(** Proofs of the properties of looking up a string. *)
From Coq Require Import Lia Reals Lra Sorted.
From Verif Require Import M_Base M_Anahash M_Iter M_Distance M_Float M_Types M_Model M_Confusable M_Search.
From Verif Require Import S_Anahash S_Iter S_Distance S_Model S_Search.
From Verif Require Import P_Base P_Primes P_Anahash P_Iter P_Recurse P_Model P_Vocab P_Index P_Nearest P_Gather P_Float P_Score P_Rank P_Find P_Lookup.
From stdpp Require Import options.

Lemma some_order_id {A} : some_order (fun l : list A => l).
Proof. by intros l. Qed.
Lemma submseteq_nodup {A} (l k : list A) : l ⊆+ k -> NoDup k -> NoDup l.
Proof. intros (k' & ->)%submseteq_Permutation. rewrite NoDup_app. tauto. Qed.

Section results.
  Context (lc : N -> bool) (ses : str -> str -> list edit_instruction).
  Context (m m' : model) (q : str) (ks : list nat).
  Context (B : built m m') (Q : query m q ks).
  #[local] Set Default Proof Using "All".
  Local Notation len := (length ks).

  Definition agree (p p' : search_parameters) : Prop :=
    p_max_anagram_distance p = p_max_anagram_distance p' /\ p_max_edit_distance p = p_max_edit_distance p' /\
    p_stop_criterion p = p_stop_criterion p'.

  Definition sr (inst : list (vocab_id * distance)) (p : search_parameters) : res (list variant_result) :=
    score_and_rank ses m' inst q len (p_max_matches p) (p_score_threshold p) (p_cutoff_threshold p) (p_freq_weight p).

  (** the instances considered *)
  Lemma instances p : exists inst,
    (forall p', agree p' p -> forall l, finds lc ses m' q p' l <-> sr inst p' = Ok l) /\
    NoDup (map fst inst) /\
    (forall id d, (id, d) ∈ inst -> (exists v, indexed m id v) /\ id < length (m_decoder m') /\ measured len d) /\
    (len <= 255 -> forall id d, (id, d) ∈ inst <-> exists v, candidate lc m q ks p id v d) /\
    (forall id v, entry_reading m id v ks -> exists d, (id, d) ∈ inst /\ d_ld d = 0 /\
      distance_between lc (m_weights m) q ks (vv_text v) ks d) /\
    StronglySorted (id_before m) (map fst inst).
  Proof.
    destruct (find_split lc ses m m' q ks B Q (p_max_anagram_distance p) (p_max_edit_distance p) (p_stop_criterion p))
      as (inst & F & Ef & Hnd & Hm & H255 & Hex & Hso).
    exists inst. split; [|split; [done|split; [|split; [|done]]]].
    - intros p' (E1 & E2 & E3) l. unfold finds, sr. split.
      + intros (F' & H). specialize (H (F + F') (fun l => l) ltac:(lia) some_order_id).
        rewrite <- H. symmetry. apply Ef; [done|done|done|lia|apply some_order_id].
      + intros H. exists F. intros f order Hf Ho. rewrite <- H. by apply Ef.
    - intros id d Hd. destruct (Hm id d Hd) as (v & k2 & He & _ & Hme). split; [exists v; apply He|]. split; [|done].
      destruct (built_parts lc ses m m' q ks B Q) as (_ & _ & _ & _ & _ & _ & ->). destruct He as [[He _] _]. by eapply lookup_lt_Some.
    - intros Hl id d. rewrite (H255 Hl id d). split.
      + intros (v & k2 & ? & ? & ? & ?). exists v, k2. done.
      + intros (v & k2 & ? & ? & ? & ?). exists v, k2. done.
  Qed.

  Lemma finds_unique p l l' : finds lc ses m' q p l -> finds lc ses m' q p l' -> l = l'.
  Proof.
    destruct (instances p) as (inst & Hf & _). rewrite !(Hf p) by done. congruence.
  Qed.

  Lemma decoder_same : m_decoder m' = m_decoder m.
  Proof. by destruct (built_parts lc ses m m' q ks B Q) as (_ & _ & _ & _ & _ & _ & ->). Qed.
  Lemma weights_same : m_weights m' = m_weights m.
  Proof. by destruct (built_parts lc ses m m' q ks B Q) as (_ & _ & -> & _). Qed.
  Lemma have_freq_same : m_have_freq m' = m_have_freq m.
  Proof. by destruct (built_parts lc ses m m' q ks B Q) as (_ & _ & _ & -> & _). Qed.
  Lemma confusables_same : m_confusables m' = m_confusables m /\ m_confusables_before_pruning m' = m_confusables_before_pruning m.
  Proof. by destruct (built_parts lc ses m m' q ks B Q) as (_ & _ & _ & _ & -> & -> & _). Qed.
  Lemma len_pos : 0 < len.
  Proof. destruct Q as [_ Hne _]. destruct ks; [done|cbn; lia]. Qed.
  Lemma len_small : (N.of_nat len < 9007199254740992)%N.
  Proof. pose proof (qu_short _ _ _ Q). lia. Qed.

  (** the hypotheses of the pipeline *)
  Lemma pipeline_hyps p (inst : list (vocab_id * distance)) : tame m p ->
    (forall id d, (id, d) ∈ inst -> (exists v, indexed m id v) /\ id < length (m_decoder m') /\ measured len d) ->
    weights_ok (m_weights m') /\
    (forall id d, (id, d) ∈ inst -> id < length (m_decoder m') /\ measured len d) /\
    weight_single (p_freq_weight p) /\ length (m_confusables m') <= 500 /\
    Forall (fun c => double (cf_weight c) /\ fle f0 (cf_weight c) = true /\ fle (cf_weight c) f2 = true) (m_confusables m') /\
    links_inside m' /\
    (forall id v r s, m_decoder m' !! id = Some v -> (r, s) ∈ stored_references v -> unit_score s) /\ freq_u32 m'.
  Proof.
    intros [T1 T2 T3 T4 T5 T6] Hi. unfold links_inside, freq_u32. rewrite decoder_same, weights_same, (proj1 confusables_same).
    split_and!; try done.
    - apply (bt_weights _ _ B).
    - intros id d Hd. destruct (Hi id d Hd) as (_ & H & ?). by rewrite decoder_same in H.
  Qed.

  (** C29 *)
  Lemma total p : tame m p -> exists l, finds lc ses m' q p l.
  Proof.
    intros T. destruct (instances p) as (inst & Hf & _ & Hi & _).
    destruct (pipeline_hyps p inst T Hi) as (H1 & H2 & H3 & H4 & H5 & H6 & H7 & H8).
    eexists. apply (Hf p); [done|]. unfold sr.
    apply (score_and_rank_eq ses m' inst q len _ _ _ _ len_pos len_small H1 H2 H3 H4 H5 H6 H7 H8).
  Qed.

  (** C17 *)
  Lemma sound p l : len <= 255 -> finds lc ses m' q p l ->
    Forall (fun r => exists id v d, candidate lc m q ks p id v d /\
      ((vr_id r = id /\ vr_via r = None) \/ (vr_via r = Some id /\ exists s, (vr_id r, s) ∈ stored_references v))) l.
  Proof.
    intros Hl H. destruct (instances p) as (inst & Hf & _ & _ & H255 & _). apply (Hf p) in H; [|done].
    apply score_and_rank_inv in H as ->. rewrite Forall_forall. intros r Hr.
    apply trace in Hr as (id & d & v & Hid & Hv & _ & H). destruct (proj1 (H255 Hl id d) Hid) as (v' & Hc).
    assert (v' = v) as ->. { rewrite decoder_same in Hv. destruct Hc as (k2 & [[Hv' _] _] & _). congruence. }
    exists id, v, d. split; [done|]. destruct H as [(? & ? & _)|(? & _ & s & ? & _)]; [by left|right; eauto].
  Qed.

  Lemma no_links_exp inst : no_links m -> expandable m' inst = false.
  Proof.
    intros H. unfold expandable. apply not_true_is_false. intros E. apply existsb_exists in E as ([id d] & _ & E).
    unfold linked in E. cbn in E. rewrite decoder_same in E. destruct (m_decoder m !! id) as [v|] eqn:Hv; [|done].
    by rewrite (H id v Hv) in E.
  Qed.

  (** C27 *)
  Lemma distinct p l : no_links m -> finds lc ses m' q p l -> NoDup (map vr_id l).
  Proof.
    intros HN H. destruct (instances p) as (inst & Hf & Hnd & _). apply (Hf p) in H; [|done].
    apply score_and_rank_inv in H as ->. eapply submseteq_nodup; [apply ids_plain; by apply no_links_exp|]. by apply listA_ids.
  Qed.

  (** C26 *)
  Lemma threshold p l : no_links m -> m_confusables m = [] -> finds lc ses m' q p l ->
    Forall (fun r => fle (p_score_threshold p) (vr_dist r) = true) l.
  Proof.
    intros HN HC H. destruct (instances p) as (inst & Hf & Hnd & _). apply (Hf p) in H; [|done].
    apply score_and_rank_inv in H as ->. rewrite Forall_forall. intros r Hr.
    apply trace in Hr as (id & d & v & Hid & Hv & Ht & [(_ & _ & _ & _ & Hd)|(_ & Ex & _)]).
    - rewrite Hd; [done|]. by rewrite (proj1 confusables_same).
    - by rewrite no_links_exp in Ex.
  Qed.

  (** C18 *)
  Lemma complete p : len <= 255 -> tame m p -> no_links m -> m_confusables m = [] ->
    p_max_matches p = 0 -> fge (p_cutoff_threshold p) f1 = false ->
    exists l, finds lc ses m' q p l /\ NoDup (map vr_id l) /\
      forall id, id ∈ map vr_id l <-> exists v d, candidate lc m q ks p id v d /\
        fle (p_score_threshold p) (distance_score (m_weights m) len d) = true.
  Proof.
    intros Hl T HN HC Hmm Hcut. destruct (total p T) as [l H]. exists l. split; [done|]. split; [by eapply distinct|].
    destruct (instances p) as (inst & Hf & Hnd & Hi & H255 & _). apply (Hf p) in H; [|done].
    apply score_and_rank_inv in H as ->. intros id. rewrite uncropped by done.
    assert (late m' = false) as ->. { apply no_conf_late. by rewrite (proj1 confusables_same). }
    assert (early m' = false) as Ee. { apply no_conf_late. by rewrite (proj1 confusables_same). }
    unfold listF. rewrite no_links_exp by done.
    rewrite (listE_perm ses m' inst q len). unfold listD. rewrite ids_normalized. unfold listC. rewrite no_links_exp by done.
    unfold listB. rewrite Ee, elem_of_list_fmap. split.
    - intros (r & -> & Hr). apply listA_elem in Hr as (id & d & v & Hid & Hv & Ht & ->). cbn.
      destruct (proj1 (H255 Hl id d) Hid) as (v' & Hc). exists v', d. split; [done|]. by rewrite <- weights_same.
    - intros (v & d & Hc & Ht). eexists. split; [|apply listA_elem; exists id, d, v; split_and!; [by apply H255; [|exists v]| | |reflexivity]].
      + done.
      + rewrite decoder_same. by destruct Hc as (k2 & [[Hv' _] _] & _).
      + by rewrite weights_same.
  Qed.

  (** C20 *)
  Lemma unit_scores p l : tame m p -> m_confusables m = [] -> finds lc ses m' q p l -> Forall (fun r => unit_score (vr_dist r)) l.
  Proof.
    intros T HC H. destruct (instances p) as (inst & Hf & Hnd & Hi & _). apply (Hf p) in H; [|done].
    apply score_and_rank_inv in H as ->. rewrite Forall_forall. intros r Hr.
    apply trace in Hr as (id & d & v & Hid & Hv & Ht & H).
    assert (unit_score (distance_score (m_weights m') len d)) as Hu.
    { apply score_unit; [rewrite weights_same; apply (bt_weights _ _ B)|apply len_pos|apply len_small|by apply (Hi id d)]. }
    assert (m_confusables m' = []) as HC' by (by rewrite (proj1 confusables_same)).
    destruct H as [(_ & _ & _ & _ & Hd)|(_ & Ex & s & Hs & Hd)]; rewrite (Hd HC'); [done|].
    assert (unit_score s) as Us by (eapply (tm_links _ _ T); [rewrite <- decoder_same; exact Hv|exact Hs]).
    apply unit_dv in Hu as (a & Ha & Ba), Us as (b & Hb & Bb).
    destruct (dv_mul_unit _ _ _ _ Ha Hb) as (c & Hc & Bc); [lra|done|]. apply unit_dv. exists c. split; [done|lra].
  Qed.

  (** C22 *)
  Lemma results_ranked p l : tame m p -> finds lc ses m' q p l -> ranked (p_freq_weight p) l /\ Forall result_ok l.
  Proof.
    intros T H. destruct (instances p) as (inst & Hf & Hnd & Hi & _). apply (Hf p) in H; [|done].
    destruct (pipeline_hyps p inst T Hi) as (H1 & H2 & H3 & H4 & H5 & H6 & H7 & H8).
    apply score_and_rank_inv in H as ->. split.
    - apply (result_ranked ses m' inst q len _ _ _ _ len_pos len_small H1 H2 H3 H4 H5 H6 H7 H8).
    - pose proof (listH_result_ok ses m' inst q len (p_score_threshold p) (p_cutoff_threshold p) (p_max_matches p) (p_freq_weight p) len_pos len_small H1 H2 H3 H4 H5 H6 H7 H8) as Ok.
      rewrite Forall_forall in *. intros r Hr. apply Ok. by eapply cutoff_elem.
  Qed.

  (** C23 *)
  Lemma number p l : tame m p -> feq (p_freq_weight p) f0 = true -> 0 < p_max_matches p -> finds lc ses m' q p l ->
    length l <= Nat.max (p_max_matches p) 2.
  Proof.
    intros T Ez Hmm H. destruct (instances p) as (inst & Hf & Hnd & Hi & _). apply (Hf p) in H; [|done].
    destruct (pipeline_hyps p inst T Hi) as (H1 & H2 & H3 & H4 & H5 & H6 & H7 & H8).
    apply score_and_rank_inv in H as ->.
    destruct (apply_cutoff_spec (p_cutoff_threshold p) (p_freq_weight p) (listH ses m' inst q len (p_score_threshold p) (p_max_matches p) (p_freq_weight p))) as (n & -> & _).
    rewrite take_length. etrans; [apply Nat.le_min_r|].
    rewrite (Permutation_length (listH_perm ses m' inst q len _ _ _)).
    assert (forall l, length (rescore_confusables ses m' l q) = length l) as EL by (intros; apply map_length).
    destruct (late m'); [rewrite EL|]; (apply crop_bound; [done|done| | |done]).
    1, 3: pose proof (listD_result_ok ses m' inst q len (p_score_threshold p) (p_cutoff_threshold p) (p_max_matches p) (p_freq_weight p) len_pos len_small H1 H2 H3 H4 H5 H6 H7 H8) as Ok;
      rewrite Forall_forall in *; intros r Hr; apply Ok; rewrite <- (listE_perm ses m' inst q len (p_score_threshold p) (p_freq_weight p));
      (eapply sublist_elem; [apply listF_sublist|done]).
    1, 2: eapply ranked_sublist; [apply listF_sublist|];
      apply (listE_ranked ses m' inst q len (p_score_threshold p) (p_cutoff_threshold p) (p_max_matches p) (p_freq_weight p) len_pos len_small H1 H2 H3 H4 H5 H6 H7 H8).
  Qed.


  (** C24 *)
  Lemma prefix_of_ranked p l l0 : (m_confusables m = [] \/ m_confusables_before_pruning m = true) ->
    finds lc ses m' q p l -> finds lc ses m' q (with_caps p 0 f0) l0 -> exists n, l = take n l0 /\ (l0 <> [] -> 0 < n).
  Proof.
    intros HC H H0. destruct (instances p) as (inst & Hf & _). apply (Hf p) in H; [|done]. apply (Hf (with_caps p 0 f0)) in H0; [|done].
    apply score_and_rank_inv in H as ->, H0 as ->. rewrite (uncropped ses m' inst q len _ (p_cutoff_threshold (with_caps p 0 f0))) by done.
    assert (late m' = false) as EL.
    { unfold late, with_conf. destruct confusables_same as [-> ->]. destruct HC as [-> | ->]; [done|]. apply andb_false_r. }
    rewrite EL. cbn [with_caps p_score_threshold p_freq_weight].
    destruct (apply_cutoff_spec (p_cutoff_threshold p) (p_freq_weight p) (listH ses m' inst q len (p_score_threshold p) (p_max_matches p) (p_freq_weight p))) as (n & -> & Hn & _).
    unfold listH in *. rewrite EL in *. unfold listG in *. rewrite take_take.
    eexists. split; [reflexivity|]. intros Hne. pose proof (proj2 (crop_take (p_max_matches p) (p_freq_weight p) _) Hne).
    assert (0 < n); [|lia]. apply Hn. intros E. apply (f_equal length) in E. rewrite take_length in E. cbn in E.
    destruct (listF _ _ _ _ _ _ _); [done|]. cbn in E. lia.
  Qed.

  (** C25 *)
  Lemma final_score_eq fw r : weight_single fw -> final_score fw r = vr_score fw r.
  Proof.
    intros Hw. unfold final_score. destruct (fgt fw f0) eqn:E; [symmetry; by apply vr_score_combined|].
    unfold vr_score. destruct (weight_cases fw Hw) as [-> | E2]; [done|congruence].
  Qed.
  Lemma cutoff_result p l l0 : tame m p -> double (p_cutoff_threshold p) ->
    finds lc ses m' q p l -> finds lc ses m' q (with_caps p (p_max_matches p) f0) l0 ->
    (fle f1 (p_cutoff_threshold p) = false -> l = l0) /\
    (fle f1 (p_cutoff_threshold p) = true -> exists n, l = take n l0 /\ (l0 <> [] -> 0 < n) /\
      forall best, l0 !! 0 = Some best ->
        let limit := fdiv (final_score (p_freq_weight p) best) (p_cutoff_threshold p) in
        (forall i r, 0 < i < n -> l0 !! i = Some r -> flt limit (final_score (p_freq_weight p) r) = true) /\
        (forall i r, n <= i -> l0 !! i = Some r -> fle (final_score (p_freq_weight p) r) limit = true)).
  Proof.
    intros T Dc H H0. pose proof (results_ranked (with_caps p (p_max_matches p) f0) l0) as Hrk.
    destruct Hrk as [Hrk Hok]; [destruct T; by split|done|]. cbn [with_caps p_freq_weight] in Hrk.
    pose proof (tm_weight _ _ T) as Hw.
    destruct (instances p) as (inst & Hf & _). apply (Hf p) in H; [|done]. apply (Hf (with_caps p (p_max_matches p) f0)) in H0; [|done].
    apply score_and_rank_inv in H. apply score_and_rank_inv in H0.
    cbn [with_caps p_score_threshold p_freq_weight p_max_matches p_cutoff_threshold] in H0.
    set (lH := listH ses m' inst q len (p_score_threshold p) (p_max_matches p) (p_freq_weight p)) in *.
    assert (l0 = lH) as ->.
    { destruct (apply_cutoff_spec f0 (p_freq_weight p) lH) as (n & _ & _ & E & _). rewrite H0. by apply E. }
    destruct (apply_cutoff_spec (p_cutoff_threshold p) (p_freq_weight p) lH) as (n & En & Hn & E1 & E2). split.
    { intros Ec. rewrite H. by apply E1. }
    intros Ec. exists n. split; [congruence|]. split; [done|]. intros best Hb limit.
    destruct (E2 Ec best Hb) as [K1 K2]. unfold limit. rewrite (final_score_eq _ best Hw).
    assert (forall i r, lH !! i = Some r -> result_ok r) as Res.
    { intros i r Hr. rewrite Forall_forall in Hok. apply Hok. by eapply elem_of_list_lookup_2. }
    destruct (vr_score_number _ best Hw (Res _ _ Hb)) as (s & Hs & Ps).
    assert (nonan (fdiv (vr_score (p_freq_weight p) best) (p_cutoff_threshold p))) as NL.
    { split.
      - apply (valid_div 53 1024 prec53 emax53); [by eapply dv_double|done].
      - assert (fle f1 (p_cutoff_threshold p) = true) as Ec' by done.
        destruct (p_cutoff_threshold p) as [c|[]| |c mc ec] eqn:Ecut; try done.
        + destruct Hs as (_ & Hs & _). by destruct (vr_score (p_freq_weight p) best) as [|[]| |].
        + assert (dv (S754_finite c mc ec) (rval (S754_finite c mc ec))) as Hc by (by apply (fval_of 53 1024 prec53 emax53)).
          apply (dv_fle _ _ _ _ dv_f1 Hc) in Ec'.
          destruct (between (s / rval (S754_finite c mc ec)) _ s Hs) as [Hr _].
          { split; [apply Rmult_le_pos; [lra|]; left; apply Rinv_0_lt_compat; lra|].
            apply Rmult_le_reg_r with (rval (S754_finite c mc ec)); [lra|]. unfold Rdiv. rewrite Rmult_assoc, Rinv_l by lra.
            assert (s * 1 <= s * rval (S754_finite c mc ec))%R by (apply Rmult_le_compat_l; lra). lra. }
          pose proof (fval_div 53 1024 prec53 emax53 _ _ _ _ Hs Hc ltac:(lra) Hr) as Hd. apply dv_nonan in Hd. apply Hd. }
    split.
    - intros i r Hi Hr. rewrite (final_score_eq _ r Hw). specialize (K1 i r Hi Hr).
      destruct (vr_score_number _ r Hw (Res _ _ Hr)) as (t & Ht & _). apply dv_nonan in Ht as [Nt _].
      apply (nonan_flt _ _ NL Nt). apply Rnot_le_lt. intros L. apply (nonan_fle _ _ Nt NL) in L. unfold fle in *. congruence.
    - intros i r Hi Hr. rewrite (final_score_eq _ r Hw).
      assert (n < length lH) as Hlt by (apply lookup_lt_Some in Hr; lia).
      destruct (lookup_lt_is_Some_2 lH n Hlt) as [r1 Hr1]. specialize (K2 r1 Hr1).
      destruct (vr_score_number _ r Hw (Res _ _ Hr)) as (t & Ht & _). apply dv_nonan in Ht as [Nt _].
      destruct (vr_score_number _ r1 Hw (Res _ _ Hr1)) as (t1 & Ht1 & _). apply dv_nonan in Ht1 as [Nt1 _].
      apply (nonan_fle _ _ Nt NL). apply (nonan_fle _ _ Nt1 NL) in K2.
      destruct (decide (n = i)) as [->|]; [by assert (r1 = r) as <- by congruence|].
      assert (fle (vr_score (p_freq_weight p) r) (vr_score (p_freq_weight p) r1) = true) as Hle.
      { apply ranked_score; [done|by eapply Res|by eapply Res|]. by apply (Hrk n i); [lia|..]. }
      apply (nonan_fle _ _ Nt Nt1) in Hle. lra.
  Qed.

  (** C28 *)
  Lemma freq_unit p l : tame m p -> finds lc ses m' q p l -> Forall (fun r => unit_score (vr_freq r)) l.
  Proof.
    intros T H. destruct (results_ranked p l T H) as [_ Hok]. eapply Forall_impl; [exact Hok|]. by intros r [_ ?].
  Qed.

  Lemma absolute_counted v : absolute_freq m' v = f64_of_N (counted_freq m v).
  Proof. unfold absolute_freq, counted_freq. rewrite have_freq_same. by destruct (m_have_freq m). Qed.

  (** the maximum over the results equals that over the instances *)
  Lemma top_is_raw p inst : tame m p ->
    (forall id d, (id, d) ∈ inst -> (exists v, indexed m id v) /\ id < length (m_decoder m') /\ measured len d) ->
    top_freq ses m' inst q len (p_score_threshold p) = raw_max m' f0 inst.
  Proof.
    intros T Hi. destruct (pipeline_hyps p inst T Hi) as (H1 & H2 & H3 & H4 & H5 & H6 & H7 & H8).
    set (thr := p_score_threshold p). set (fw := p_freq_weight p) in *.
    destruct (raw_max_ok ses m' inst q len thr f0 0 fw len_pos len_small H1 H2 H3 H4 H5 H6 H7 H8) as (W & L & _).
    unfold top_freq. destruct (expandable m' inst) eqn:Ex; [|done].
    assert (forall r, r ∈ listC ses m' inst q len thr -> fgt (vr_freq r) (raw_max m' f0 inst) = false) as Key.
    { intros r Hr. apply not_true_is_false. intros Hgt.
      assert (forall x, whole x -> fle x (raw_max m' f0 inst) = true -> fgt x (raw_max m' f0 inst) = false) as Cmp.
      { intros x (a & _ & _ & Ha)%(whole_dv ses m' inst q len thr f0 0 fw len_pos len_small H1 H2 H3 H4 H5 H6 H7 H8) Hle.
        destruct (whole_dv ses m' inst q len thr f0 0 fw len_pos len_small H1 H2 H3 H4 H5 H6 H7 H8 _ W) as (b & _ & _ & Hb).
        apply (dv_fle _ _ _ _ Ha Hb) in Hle. apply not_true_is_false. intros G.
        apply (dv_flt _ _ _ _ Hb Ha) in G. lra. }
      apply listC_elem in Hr as (r0 & Hr0 & Hr). rewrite Ex in Hr.
      apply listB_elem in Hr0 as (r1 & Hr1 & Ei & Efr & _). apply listA_elem in Hr1 as (id & d & v & Hid & Hv & _ & ->). cbn in Ei, Efr.
      assert (fle (vr_freq r0) (raw_max m' f0 inst) = true) as L0 by (rewrite Efr; by apply (L id d v)).
      assert (whole (vr_freq r0)) as W0.
      { rewrite Efr. by apply (absolute_whole ses m' inst q len thr f0 0 fw len_pos len_small H1 H2 H3 H4 H5 H6 H7 H8 id). }
      apply expansions_elem in Hr as (item & _ & [(t & s & ti & _ & Ht & ->)|[_ ->]]); cbn in Hgt.
      - destruct (flt (f64_of_N (vv_frequency ti)) (vr_freq r0)) eqn:Elt; [|by rewrite (Cmp _ W0 L0) in Hgt].
        assert (whole (f64_of_N (vv_frequency ti))) as Wt by (exists (vv_frequency ti); split; [by apply (H8 t)|done]).
        rewrite Cmp in Hgt; [done|done|].
        destruct (whole_dv ses m' inst q len thr f0 0 fw len_pos len_small H1 H2 H3 H4 H5 H6 H7 H8 _ W) as (b & _ & _ & Hb).
        destruct (whole_dv ses m' inst q len thr f0 0 fw len_pos len_small H1 H2 H3 H4 H5 H6 H7 H8 _ Wt) as (c & _ & _ & Hc).
        destruct (whole_dv ses m' inst q len thr f0 0 fw len_pos len_small H1 H2 H3 H4 H5 H6 H7 H8 _ W0) as (e & _ & _ & He).
        apply (dv_flt _ _ _ _ Hc He) in Elt. apply (dv_fle _ _ _ _ He Hb) in L0. apply (dv_fle _ _ _ _ Hc Hb). lra.
      - by rewrite (Cmp _ W0 L0) in Hgt. }
    revert Key. generalize (listC ses m' inst q len thr) as l. induction l as [|r l IH]; intros Key; [done|].
    unfold max_freq_of. cbn [foldl]. rewrite (Key r) by left. apply IH. intros x Hx. apply Key. by right.
  Qed.

  Lemma top_candidate p l r v : len <= 255 -> tame m p -> finds lc ses m' q p l -> r ∈ l -> vr_via r = None ->
    m_decoder m !! vr_id r = Some v -> (0 < counted_freq m v)%N ->
    (forall id v' d, candidate lc m q ks p id v' d -> (counted_freq m v' <= counted_freq m v)%N) -> vr_freq r = f1.
  Proof.
    intros Hl T H Hr Hvia Hv Hpos Hmax. destruct (instances p) as (inst & Hf & Hnd & Hi & H255 & _). apply (Hf p) in H; [|done].
    destruct (pipeline_hyps p inst T Hi) as (H1 & H2 & H3 & H4 & H5 & H6 & H7 & H8).
    apply score_and_rank_inv in H as ->.
    destruct (raw_max_ok ses m' inst q len (p_score_threshold p) (p_cutoff_threshold p) (p_max_matches p) (p_freq_weight p) len_pos len_small H1 H2 H3 H4 H5 H6 H7 H8) as (W & L & E).
    apply trace in Hr as (id & d & v2 & Hid & Hv2 & _ & [(Ei & _ & _ & Efr & _)|(Ev & _)]); [|congruence].
    subst id. rewrite decoder_same in Hv2. assert (v2 = v) as -> by congruence. rewrite Efr, (top_is_raw p inst T Hi).
    assert (raw_max m' f0 inst = absolute_freq m' v) as Em.
    { specialize (L _ _ v Hid ltac:(by rewrite decoder_same)). rewrite absolute_counted in *.
      assert ((counted_freq m v < 4294967296)%N) as B1.
      { unfold counted_freq. destruct (m_have_freq m); [|lia]. apply (tm_freq _ _ T (vr_id r)). done. }
      destruct E as [E|(id' & d' & v' & Hid' & Hv' & E)].
      - rewrite E in L. assert (dv (f64_of_N (counted_freq m v)) (IZR (Z.of_N (counted_freq m v)))) as D1 by (apply dv_of_N; lia).
        apply (dv_fle _ _ _ _ D1 dv_f0) in L. apply le_IZR in L. lia.
      - rewrite E in *. rewrite absolute_counted in *. apply (H255 Hl) in Hid' as (v3 & Hc3).
        assert (v3 = v') as ->. { rewrite decoder_same in Hv'. destruct Hc3 as (k2 & [[Hv3 _] _] & _). congruence. }
        assert ((counted_freq m v' < 4294967296)%N) as B2.
        { unfold counted_freq. destruct (m_have_freq m); [|lia]. apply (tm_freq _ _ T id'). by rewrite <- decoder_same. }
        assert (dv (f64_of_N (counted_freq m v)) (IZR (Z.of_N (counted_freq m v)))) as D1 by (apply dv_of_N; lia).
        assert (dv (f64_of_N (counted_freq m v')) (IZR (Z.of_N (counted_freq m v')))) as D2 by (apply dv_of_N; lia).
        apply (dv_fle _ _ _ _ D1 D2) in L. apply le_IZR in L.
        specialize (Hmax id' v' d' Hc3). f_equal. lia. }
    rewrite Em, absolute_counted.
    assert ((counted_freq m v < 4294967296)%N) as B1.
    { unfold counted_freq. destruct (m_have_freq m); [|lia]. apply (tm_freq _ _ T (vr_id r)). done. }
    assert (dv (f64_of_N (counted_freq m v)) (IZR (Z.of_N (counted_freq m v)))) as Hd by (apply dv_of_N; lia).
    assert (fgt (f64_of_N (counted_freq m v)) f0 = true) as ->.
    { apply (dv_flt _ _ _ _ dv_f0 Hd). apply IZR_lt. lia. }
    apply frac_self with (w := m_weights m); [apply (bt_weights _ _ B)|lia|lia].
  Qed.

  (** C21 *)
  Lemma longest_self (P : list nat -> list nat -> Prop) n : (forall x l, P x l -> length x <= length l) -> P ks ks ->
    longest (fun x => P x ks /\ P x ks) n -> n = N.of_nat len.
  Proof. intros Hle Hs (w & [Hw _] & -> & Hmax). specialize (Hmax ks (conj Hs Hs)). apply Hle in Hw. lia. Qed.
  Lemma self_score d : d_ld d = 0 -> distance_between lc (m_weights m) q ks q ks d -> distance_score (m_weights m) len d = f1.
  Proof.
    intros E [H1 H2 H3 H4 H5]. apply (exact_score _ (bt_weights _ _ B) len d len_pos len_small E).
    - destruct (fgt (w_lcs (m_weights m)) f0); [|done]. eapply (longest_self substring); [|by exists [], []; rewrite app_nil_r|done].
      intros x l (a & b & ->). rewrite !app_length. lia.
    - destruct (fgt (w_prefix (m_weights m)) f0); [|done]. eapply (longest_self (fun x l => x `prefix_of` l)); [|done|done]. intros; by apply prefix_length.
    - destruct (fgt (w_suffix (m_weights m)) f0); [|done]. eapply (longest_self (fun x l => x `suffix_of` l)); [|done|done]. intros; by apply suffix_length.
    - destruct (fgt (w_case (m_weights m)) f0); [|done]. destruct H5 as (c & c' & E1 & E2 & H). apply H. congruence.
  Qed.

  Lemma exact_in_D p inst id d v : m_confusables m = [] -> (id, d) ∈ inst -> m_decoder m !! id = Some v ->
    flag (vv_type v) transparent_bit = false -> fle (p_score_threshold p) (distance_score (m_weights m) len d) = true ->
    exists r, r ∈ listD ses m' inst q len (p_score_threshold p) /\ vr_id r = id /\ vr_dist r = distance_score (m_weights m) len d /\ vr_via r = None.
  Proof.
    intros HC Hid Hv Htr Ht. eexists. split; [|split; [|split]].
    - apply listD_elem. exists (VariantResult id (distance_score (m_weights m) len d) (absolute_freq m' v) None). split; [|reflexivity].
      apply listC_elem. exists (VariantResult id (distance_score (m_weights m) len d) (absolute_freq m' v) None). split.
      + unfold listB. assert (early m' = false) as -> by (apply no_conf_late; by rewrite (proj1 confusables_same)).
        apply listA_elem. exists id, d, v. rewrite weights_same, decoder_same. done.
      + destruct (expandable m' inst); [|done]. apply expansions_elem. exists v. cbn. split; [by rewrite decoder_same|].
        right. split; [|done]. by rewrite vt_check_transparent.
    - done.
    - done.
    - done.
  Qed.

  Lemma exact_first p l id v : tame m p -> m_confusables m = [] -> feq (p_freq_weight p) f0 = true ->
    fle (p_score_threshold p) f1 = true -> indexed m id v -> vv_text v = q -> flag (vv_type v) transparent_bit = false ->
    finds lc ses m' q p l ->
    (exists r, l !! 0 = Some r /\ vr_dist r = f1) /\ Forall (fun r => fle (vr_dist r) f1 = true) l /\
    (p_max_matches p = 0 -> fle f1 (p_cutoff_threshold p) = false -> exists r, r ∈ l /\ vr_id r = id /\ vr_dist r = f1).
  Proof.
    intros T HC Ez Hthr Hi Ht Htr H.
    assert (Forall (fun r => unit_score (vr_dist r)) l) as HU by (by eapply unit_scores).
    destruct (instances p) as (inst & Hf & Hnd & Hin & _ & Hex & _). apply (Hf p) in H; [|done].
    destruct (pipeline_hyps p inst T Hin) as (H1 & H2 & H3 & H4 & H5 & H6 & H7 & H8).
    assert (entry_reading m id v ks) as He by (split; [done|]; rewrite Ht; apply (qu_reads _ _ _ Q)).
    destruct (Hex id v He) as (d & Hd & Ed & Hdb). rewrite Ht in Hdb. pose proof (self_score d Ed Hdb) as Es.
    destruct (exact_in_D p inst id d v HC Hd (proj1 Hi) Htr ltac:(by rewrite Es)) as (r & Hr & Er1 & Er2 & Er3). rewrite Es in Er2.
    apply score_and_rank_inv in H.
    set (thr := p_score_threshold p) in *. set (fw := p_freq_weight p) in *. set (mm := p_max_matches p) in *. set (cut := p_cutoff_threshold p) in *.
    set (lE := listE ses m' inst q len thr fw) in *. set (lF := listF ses m' inst q len thr fw) in *.
    assert (r ∈ lE) as HrE by (unfold lE; by rewrite (listE_perm ses m' inst q len thr fw)).
    assert (Forall result_ok lE) as HokE.
    { unfold lE. rewrite (listE_perm ses m' inst q len thr fw).
      apply (listD_result_ok ses m' inst q len thr cut mm fw len_pos len_small H1 H2 H3 H4 H5 H6 H7 H8). }
    pose proof (listE_ranked ses m' inst q len thr cut mm fw len_pos len_small H1 H2 H3 H4 H5 H6 H7 H8) as HrkE.
    assert (late m' = false) as EL by (apply no_conf_late; by rewrite (proj1 confusables_same)).
    assert (forall r0, unit_score (vr_dist r0) -> fle f1 (vr_dist r0) = true -> vr_dist r0 = f1) as One.
    { intros r0 (a & Ha & Ba)%unit_dv Hle. apply (dv_fle _ _ _ _ dv_f1 Ha) in Hle. assert (a = 1%R) as -> by lra.
      eapply dv_inj; [exact Ha|apply dv_f1|lra]. }
    assert (forall x, result_ok x -> ranks_before fw x r -> fle f1 (vr_dist x) = true) as Above.
    { intros x Hx Hrb. apply ranked_score in Hrb; [|done|done|by rewrite Forall_forall in HokE; apply HokE].
      unfold vr_score in Hrb. fold fw in Ez. rewrite Ez, Er2 in Hrb. done. }
    split; [|split].
    - assert (exists h, lF !! 0 = Some h /\ lE !! 0 = Some h) as (h & HhF & HhE).
      { assert (lF !! 0 = lE !! 0) as E0 by (unfold lF, listF; fold lE; destruct (expandable m' inst); [apply dedup_head|done]).
        destruct lE as [|h lE']; [by apply elem_of_nil in HrE|]. by exists h. }
      exists h. assert (l !! 0 = Some h) as Hl.
      { rewrite H. destruct (apply_cutoff_spec cut fw (listH ses m' inst q len thr mm fw)) as (n & -> & Hn & _).
        assert (listH ses m' inst q len thr mm fw = take (crop_n mm fw lF) lF) as EH by (unfold listH; rewrite EL; done).
        rewrite EH in *. assert (lF <> []) as Hne by (intros E; by rewrite E in HhF).
        pose proof (proj2 (crop_take mm fw lF) Hne). rewrite lookup_take; [by rewrite lookup_take|].
        apply Hn. intros E. apply (f_equal length) in E. rewrite take_length in E. cbn in E. apply lookup_lt_Some in HhF. lia. }
      split; [done|]. apply One.
      + rewrite Forall_forall in HU. apply HU. by eapply elem_of_list_lookup_2.
      + apply elem_of_list_lookup in HrE as [j Hj]. destruct j as [|j].
        * assert (h = r) as -> by congruence. by rewrite Er2.
        * apply Above; [rewrite Forall_forall in HokE; apply HokE; by eapply elem_of_list_lookup_2|]. by apply (HrkE 0 (S j)); [lia|..].
    - eapply Forall_impl; [exact HU|]. by intros x (_ & _ & ?).
    - intros Emm Ecut. rewrite H. rewrite uncropped by done. rewrite EL. change (listF ses m' inst q len thr fw) with lF.
      unfold lF, listF. fold lE. destruct (expandable m' inst) eqn:Ex; [|by exists r].
      destruct (dedup_keeps lE r HrE) as (y & Hy & Ey & [->|(i & j & Hij & Hyi & Hrj)]); [by exists r|].
      exists y. split; [done|]. split; [congruence|].
      assert (result_ok y) as Hoky by (rewrite Forall_forall in HokE; apply HokE; by eapply elem_of_list_lookup_2).
      apply One.
      + rewrite Forall_forall in HU. apply HU. rewrite H, uncropped, EL by done. change (listF ses m' inst q len thr fw) with lF.
        unfold lF, listF. fold lE. by rewrite Ex.
      + apply Above; [done|]. by apply (HrkE i j).
  Qed.

  (** C37 *)
  Lemma transparent_hidden p l x v : finds lc ses m' q p l -> m_decoder m !! x = Some v ->
    flag (vv_type v) transparent_bit = true -> vv_variants v <> None ->
    (forall y vy s, m_decoder m !! y = Some vy -> (x, s) ∈ stored_references vy -> False) ->
    x ∉ map vr_id l.
  Proof.
    intros H Hx Htr Hvar Hno Hin. destruct (instances p) as (inst & Hf & _). apply (Hf p) in H; [|done].
    apply score_and_rank_inv in H as ->. apply elem_of_list_fmap in Hin as (r & -> & Hr).
    apply trace in Hr as (id & d & v2 & Hid & Hv2 & _ & H). rewrite decoder_same in Hv2. destruct H as [(E & _ & H & _)|(_ & _ & s & Hs & _)].
    - rewrite E in Hx. assert (v2 = v) as -> by congruence. assert (expandable m' inst = true) as Ex.
      { unfold expandable. apply existsb_exists. exists (id, d). split; [by apply elem_of_list_In|]. unfold linked. cbn.
        rewrite decoder_same, Hv2. by destruct (vv_variants v). }
      specialize (H Ex). rewrite vt_check_transparent in H. unfold flag, transparent_bit in Htr. congruence.
    - by apply (Hno id v2 s).
  Qed.
  Lemma references_returned p l x v d t s : len <= 255 -> tame m p -> m_confusables m = [] ->
    p_max_matches p = 0 -> fle f1 (p_cutoff_threshold p) = false -> finds lc ses m' q p l ->
    candidate lc m q ks p x v d -> fle (p_score_threshold p) (distance_score (m_weights m) len d) = true ->
    (t, s) ∈ stored_references v ->
    exists r r', vr_id r = t /\ vr_via r = Some x /\ vr_dist r = fmul (distance_score (m_weights m) len d) s /\
      r' ∈ l /\ vr_id r' = t /\ (r' = r \/ ranks_before (p_freq_weight p) r' r).
  Proof.
    intros Hl T HC Emm Ecut H Hc Ht Hs.
    destruct (instances p) as (inst & Hf & Hnd & Hin & H255 & Hex & _). apply (Hf p) in H; [|done].
    destruct (pipeline_hyps p inst T Hin) as (H1 & H2 & H3 & H4 & H5 & H6 & H7 & H8).
    assert ((x, d) ∈ inst) as Hid by (apply H255; [done|by exists v]).
    assert (m_decoder m !! x = Some v) as Hv by (destruct Hc as (k2 & [[Hv' _] _] & _); done).
    assert (expandable m' inst = true) as Ex.
    { unfold expandable. apply existsb_exists. exists (x, d). split; [by apply elem_of_list_In|]. unfold linked. cbn.
      rewrite decoder_same, Hv. unfold stored_references in Hs. destruct (vv_variants v); [done|]. by apply elem_of_nil in Hs. }
    assert (t < length (m_decoder m)) as Htl by (by apply (tm_inside _ _ T x v t s)).
    destruct (lookup_lt_is_Some_2 _ _ Htl) as [ti Hti].
    assert (exists r, r ∈ listD ses m' inst q len (p_score_threshold p) /\ vr_id r = t /\ vr_via r = Some x /\
      vr_dist r = fmul (distance_score (m_weights m) len d) s) as (r & HrD & E1 & E2 & E3).
    { eexists. split; [|split; [|split]].
      - apply listD_elem. eexists. split; [|reflexivity]. apply listC_elem.
        exists (VariantResult x (distance_score (m_weights m) len d) (absolute_freq m' v) None). split.
        + unfold listB. assert (early m' = false) as -> by (apply no_conf_late; by rewrite (proj1 confusables_same)).
          apply listA_elem. exists x, d, v. rewrite weights_same, decoder_same. done.
        + rewrite Ex. apply expansions_elem. exists v. cbn. split; [by rewrite decoder_same|]. left. exists t, s, ti.
          split; [done|]. split; [by rewrite decoder_same|]. reflexivity.
      - done.
      - done.
      - done. }
    apply score_and_rank_inv in H. rewrite uncropped in H by done.
    assert (late m' = false) as EL by (apply no_conf_late; by rewrite (proj1 confusables_same)). rewrite EL in H.
    unfold listF in H. rewrite Ex in H.
    set (lE := listE ses m' inst q len (p_score_threshold p) (p_freq_weight p)) in *.
    assert (r ∈ lE) as HrE by (unfold lE; by rewrite (listE_perm ses m' inst q len _ _)).
    pose proof (listE_ranked ses m' inst q len (p_score_threshold p) f0 0 (p_freq_weight p) len_pos len_small H1 H2 H3 H4 H5 H6 H7 H8) as HrkE.
    destruct (dedup_keeps lE r HrE) as (y & Hy & Ey & Hcase). exists r, y. split; [done|]. split; [done|]. split; [done|].
    split; [by rewrite H|]. split; [congruence|]. destruct Hcase as [->|(i & j & Hij & Hyi & Hrj)]; [by left|right]. by apply (HrkE i j).
  Qed.
End results.
