(** Proofs about ranking, deduplicating and cropping. *)
From Coq Require Import Lia Reals Lra Sorted.
From Verif Require Import M_Base M_Anahash M_Iter M_Distance M_Float M_Types M_Model M_Confusable M_Search.
From Verif Require Import S_Anahash S_Iter S_Distance S_Model S_Search P_Base P_Float P_Score.
From stdpp Require Import options.

(** ** Stable insertion sort *)
Section sort.
  Context (after : variant_result -> variant_result -> bool) (Q : variant_result -> Prop).
  (** [after x y]: [x] has to come after [y] *)
  Local Notation ge a b := (after a b = false).
  Context (Has : forall a b, Q a -> Q b -> after a b = true -> ge b a).
  Context (Htr : forall a b c, Q a -> Q b -> Q c -> ge a b -> ge b c -> ge a c).
  #[local] Set Default Proof Using "All".

  Lemma insert_perm x l : insert_by after x l ≡ₚ x :: l.
  Proof.
    induction l as [|y l IH]; cbn; [done|]. destruct (after x y); [|done]. rewrite IH. apply perm_swap.
  Qed.
  Lemma sort_perm l : sort_by after l ≡ₚ l.
  Proof. induction l as [|x l IH]; cbn; [done|]. by rewrite insert_perm, IH. Qed.

  Lemma insert_sorted x l : Q x -> Forall Q l -> StronglySorted (fun a b => ge a b) l ->
    StronglySorted (fun a b => ge a b) (insert_by after x l).
  Proof.
    intros Qx Ql S. induction S as [|y l S IH Hy]; cbn; [by repeat constructor|].
    apply Forall_cons in Ql as [Qy Ql]. destruct (after x y) eqn:E.
    - constructor; [by apply IH|]. rewrite insert_perm. apply Forall_cons. split; [by apply Has|done].
    - constructor; [by constructor|]. apply Forall_cons. split; [done|].
      rewrite Forall_forall in *. intros z Hz. apply (Htr x y z); auto.
  Qed.
  Lemma sort_sorted l : Forall Q l -> StronglySorted (fun a b => ge a b) (sort_by after l).
  Proof.
    induction l as [|x l IH]; intros H; cbn; [constructor|]. apply Forall_cons in H as [Qx Ql].
    apply insert_sorted; [done| |by apply IH]. change (Forall Q (sort_by after l)). by rewrite sort_perm.
  Qed.

  (** stability *)
  Definition tie x y := bool_decide (after x y = false) && bool_decide (after y x = false).
  Lemma insert_tie z x l : Q z -> Q x -> Forall Q l ->
    List.filter (tie z) (insert_by after x l) = List.filter (tie z) (x :: l).
  Proof.
    intros Qz Qx Ql. induction l as [|y l IH]; cbn [insert_by]; [done|]. apply Forall_cons in Ql as [Qy Ql].
    destruct (after x y) eqn:E; [|done]. cbn [List.filter]. rewrite (IH Ql). cbn [List.filter].
    destruct (tie z x) eqn:Ex, (tie z y) eqn:Ey; try done.
    exfalso. unfold tie in *. apply andb_true_iff in Ex as [X1%bool_decide_eq_true X2%bool_decide_eq_true].
    apply andb_true_iff in Ey as [Y1%bool_decide_eq_true Y2%bool_decide_eq_true].
    assert (after x y = false) by (by apply (Htr x z y)). congruence.
  Qed.
  Lemma sort_stable z l : Q z -> Forall Q l -> List.filter (tie z) (sort_by after l) = List.filter (tie z) l.
  Proof.
    intros Qz. induction l as [|x l IH]; intros H; cbn [sort_by foldr]; [done|]. apply Forall_cons in H as [Qx Ql].
    change (foldr (insert_by after) [] l) with (sort_by after l).
    rewrite insert_tie; [|done|done|by rewrite sort_perm]. cbn [List.filter]. by rewrite IH.
  Qed.
End sort.

(** ** Numbers of any size *)
Definition dext (x : f64) : R := ext 1024 x.
Definition nonan (x : f64) : Prop := double x /\ x <> S754_nan.
Lemma nonan_fle x y : nonan x -> nonan y -> fle x y = true <-> (dext x <= dext y)%R.
Proof. intros [? ?] [? ?]. by apply (le_ext 53 1024 prec53 emax53). Qed.
Lemma nonan_flt x y : nonan x -> nonan y -> flt x y = true <-> (dext x < dext y)%R.
Proof. intros [? ?] [? ?]. by apply (lt_ext 53 1024 prec53 emax53). Qed.
Lemma nonan_feq x y : nonan x -> nonan y -> feq x y = true <-> dext x = dext y.
Proof. intros [? ?] [? ?]. by apply (eq_ext 53 1024 prec53 emax53). Qed.
Lemma nonan_compare x y : nonan x -> nonan y -> SFcompare x y = Some (Raux.Rcompare (dext x) (dext y)).
Proof. intros [? ?] [? ?]. by apply (compare_ext 53 1024 prec53 emax53). Qed.
Lemma dv_nonan x r : dv x r -> nonan x /\ dext x = r.
Proof. intros (? & ? & ?)%(fval_ext 53 1024 prec53 emax53). done. Qed.
Lemma fle_nonan x y : double x -> double y -> fle x y = true -> nonan x /\ nonan y.
Proof.
  intros Hx Hy H. assert (x <> S754_nan) by (by intros ->). assert (y <> S754_nan); [|done].
  intros ->. revert H. by destruct x as [|[]| |[]].
Qed.

(** ** The ranking order *)
Definition after_of (fw : f32) (a b : variant_result) : bool :=
  match rank_cmp fw a b with Some Gt => true | _ => false end.

(** what can be ranked: no NaN among the numbers compared *)
Definition rankable (fw : f32) (r : variant_result) : Prop :=
  if fgt fw f0 then nonan (vr_score fw r) else nonan (vr_dist r) /\ nonan (vr_freq r).

Lemma vr_score_combined fw r : fgt fw f0 = true -> vr_score fw r = combined_score fw r.
Proof. intros H. unfold vr_score. destruct (feq fw f0) eqn:E; [|done]. exfalso. revert H E. unfold fgt, feq. by destruct fw as [|[]| |[]]. Qed.

Lemma not_after fw a b : rankable fw a -> rankable fw b -> after_of fw a b = false <-> ranks_before fw a b.
Proof.
  unfold rankable, ranks_before, after_of, rank_cmp. destruct (fgt fw f0) eqn:Ef.
  - intros Ha Hb. rewrite (nonan_compare _ _ Hb Ha). rewrite <- !vr_score_combined by done. rewrite (nonan_fle _ _ Hb Ha).
    destruct (Raux.Rcompare_spec (dext (vr_score fw b)) (dext (vr_score fw a))); split; (done || lra).
  - intros [Da Fa] [Db Fb]. unfold fgt.
    rewrite (nonan_flt _ _ Db Da), (nonan_feq _ _ Da Db), (nonan_fle _ _ Fb Fa).
    pose proof (nonan_flt _ _ Db Da) as T1. pose proof (nonan_flt _ _ Da Db) as T2.
    pose proof (nonan_flt _ _ Fb Fa) as T3. pose proof (nonan_flt _ _ Fa Fb) as T4. unfold flt in *.
    destruct (SFltb (vr_dist b) (vr_dist a)); [split; [intros _; left; by apply T1|done]|].
    destruct (SFltb (vr_dist a) (vr_dist b)).
    { assert (dext (vr_dist a) < dext (vr_dist b))%R by (by apply T2). split; [done|]. intros [?|[? _]]; lra. }
    assert (dext (vr_dist a) = dext (vr_dist b)) as Ed.
    { destruct (Rlt_le_dec (dext (vr_dist b)) (dext (vr_dist a))) as [L|L]; [by apply T1 in L|].
      destruct (Rlt_le_dec (dext (vr_dist a)) (dext (vr_dist b))) as [L'|L']; [by apply T2 in L'|]. lra. }
    destruct (SFltb (vr_freq b) (vr_freq a)).
    { assert (dext (vr_freq b) < dext (vr_freq a))%R by (by apply T3). split; [|done]. intros _. right. split; [done|lra]. }
    destruct (SFltb (vr_freq a) (vr_freq b)).
    { assert (dext (vr_freq a) < dext (vr_freq b))%R by (by apply T4). split; [done|]. intros [?|[_ ?]]; lra. }
    split; [|done]. intros _. right. split; [done|].
    destruct (Rlt_le_dec (dext (vr_freq a)) (dext (vr_freq b))) as [L'|L']; [by apply T4 in L'|]. lra.
Qed.

Lemma ranks_total fw a b : rankable fw a -> rankable fw b -> after_of fw a b = true -> after_of fw b a = false.
Proof.
  intros Ha Hb H. apply not_after; [done..|].
  assert (~ ranks_before fw a b) as N by (rewrite <- not_after by done; congruence).
  revert Ha Hb N. unfold rankable, ranks_before. destruct (fgt fw f0) eqn:Ef.
  - intros Ha Hb. rewrite <- !vr_score_combined by done. rewrite (nonan_fle _ _ Hb Ha), (nonan_fle _ _ Ha Hb). lra.
  - intros [Da Fa] [Db Fb].
    rewrite (nonan_flt _ _ Db Da), (nonan_feq _ _ Da Db), (nonan_fle _ _ Fb Fa).
    rewrite (nonan_flt _ _ Da Db), (nonan_feq _ _ Db Da), (nonan_fle _ _ Fa Fb). intros N.
    destruct (Rtotal_order (dext (vr_dist a)) (dext (vr_dist b))) as [?|[?|?]]; [by left| |tauto].
    right. split; [done|]. destruct (Rle_lt_dec (dext (vr_freq a)) (dext (vr_freq b))); [done|].
    exfalso. apply N. right. split; [done|lra].
Qed.
Lemma ranks_trans fw a b c : rankable fw a -> rankable fw b -> rankable fw c ->
  after_of fw a b = false -> after_of fw b c = false -> after_of fw a c = false.
Proof.
  intros Ha Hb Hc. rewrite !not_after by done. revert Ha Hb Hc. unfold rankable, ranks_before. destruct (fgt fw f0) eqn:Ef.
  - intros Ha Hb Hc. rewrite <- !vr_score_combined by done.
    rewrite (nonan_fle _ _ Hb Ha), (nonan_fle _ _ Hc Hb), (nonan_fle _ _ Hc Ha). lra.
  - intros [Da Fa] [Db Fb] [Dc Fc].
    rewrite (nonan_flt _ _ Db Da), (nonan_feq _ _ Da Db), (nonan_fle _ _ Fb Fa).
    rewrite (nonan_flt _ _ Dc Db), (nonan_feq _ _ Db Dc), (nonan_fle _ _ Fc Fb).
    rewrite (nonan_flt _ _ Dc Da), (nonan_feq _ _ Da Dc), (nonan_fle _ _ Fc Fa).
    intros [?|[? ?]] [?|[? ?]]; (left; lra) || (right; split; lra).
Qed.

Lemma sorted_ranked fw l : Forall (rankable fw) l ->
  StronglySorted (fun a b => after_of fw a b = false) l <-> ranked fw l.
Proof.
  intros Q. split.
  - intros S i j a b Hij Ha Hb. revert i j Hij Ha Hb. induction S as [|x l S IH Hx]; intros i j Hij Ha Hb; [done|].
    apply Forall_cons in Q as [Qx Ql]. destruct i as [|i], j as [|j]; [lia| |lia|].
    + injection Ha as <-. cbn in Hb. apply elem_of_list_lookup_2 in Hb. rewrite Forall_forall in Hx, Ql. apply not_after; auto.
    + apply (IH Ql i j); [lia|done|done].
  - induction l as [|x l IH]; intros H; [constructor|]. apply Forall_cons in Q as [Qx Ql]. constructor.
    + apply IH; [done|]. intros i j a b Hij Ha Hb. by apply (H (S i) (S j) a b); [lia|..].
    + rewrite Forall_forall. intros y Hy. apply elem_of_list_lookup in Hy as [j Hj]. apply not_after; [done| |].
      * rewrite Forall_forall in Ql. apply Ql. by eapply elem_of_list_lookup_2.
      * apply (H 0 (S j)); [lia|done|done].
Qed.

Lemma selects_filter {A} (P : A -> Prop) (f : A -> bool) l l' :
  (forall x, x ∈ l -> f x = true <-> P x) -> selects P l l' -> l' = List.filter f l.
Proof.
  intros H S. induction S as [|x l l' Hx S IH|x l l' Hx S IH]; [done| |]; cbn.
  - assert (f x = true) as -> by (apply H; [left|done]). f_equal. apply IH. intros y Hy. apply H. by right.
  - assert (f x = false) as -> by (apply not_true_is_false; intros E; apply Hx, H; [left|done]). apply IH.
    intros y Hy. apply H. by right.
Qed.

Lemma rank_results_ok fw l : Forall (rankable fw) l ->
  exists l', rank_results fw l = Ok l' /\ l' ≡ₚ l /\ ranked fw l' /\ keeps_ties fw l l'.
Proof.
  intros Q. exists (sort_by (after_of fw) l). split_and!.
  - unfold rank_results. destruct (fgt fw f0 && (1 <? length l)%nat && existsb _ l) eqn:E; [|done]. exfalso.
    apply andb_true_iff in E as [E E3]. apply andb_true_iff in E as [E1 _]. apply existsb_exists in E3 as (r & Hr & E3).
    rewrite Forall_forall in Q. specialize (Q r). rewrite elem_of_list_In in Q. specialize (Q Hr).
    unfold rankable in Q. rewrite E1 in Q. destruct Q as [_ Q]. by destruct (vr_score fw r).
  - apply (sort_perm _ (rankable fw)); [apply ranks_total|apply ranks_trans].
  - apply sorted_ranked.
    + rewrite (sort_perm _ (rankable fw)); [done|apply ranks_total|apply ranks_trans].
    + apply (sort_sorted _ (rankable fw)); [apply ranks_total|apply ranks_trans|done].
  - intros x sl sl' Hx S1 S2. assert (rankable fw x) as Qx by (rewrite Forall_forall in Q; auto).
    assert (forall y, rankable fw y -> tie (after_of fw) x y = true <-> tied fw x y) as T.
    { intros y Qy. unfold tie, tied. rewrite andb_true_iff, !bool_decide_eq_true. by rewrite !not_after. }
    assert (sort_by (after_of fw) l ≡ₚ l) as Pm by (apply (sort_perm _ (rankable fw)); [apply ranks_total|apply ranks_trans]).
    rewrite (selects_filter _ (tie (after_of fw) x) _ _) with (2 := S1); [|intros y Hy; apply T; rewrite Forall_forall in Q; auto].
    rewrite (selects_filter _ (tie (after_of fw) x) _ _) with (2 := S2); [|intros y Hy; apply T; rewrite Forall_forall in Q; apply Q; by rewrite <- Pm].
    symmetry. apply (sort_stable _ (rankable fw)); [apply ranks_total|apply ranks_trans|done|done].
Qed.

(** ** Scores that can be ranked *)
Lemma single_to_f64 x : weight_single x -> exists r, dv (to_f64 x) r /\ (0 <= r <= IZR (2 ^ 128))%R /\ (fgt x f0 = true -> 0 < r)%R.
Proof.
  intros (Hs & H0 & Hi). destruct x as [s|s| |s mx ex]; cbn [to_f64].
  - exists 0%R. split; [by split|]. split; [split; [lra|]; apply IZR_le; lia|]. unfold fgt. by destruct s.
  - by destruct s.
  - done.
  - destruct s; [done|]. change (cond_Zopp false (Z.pos mx)) with (Z.pos mx).
    unfold single in Hs. change (bounded 24 128 mx ex = true) in Hs.
    assert (Hp24 : FLX.Prec_gt_0 24) by done. assert (He24 : BinarySingleNaN.Prec_lt_emax 24 128) by done.
    pose proof (BinarySingleNaN.bounded_lt_emax 24 128 mx ex Hs) as Hlt.
    set (r := Defs.F2R (Defs.Float Zaux.radix2 (Z.pos mx) ex)) in *.
    assert (0 < r)%R as Hpos by (by apply Float_prop.F2R_gt_0).
    apply andb_prop in Hs as [Hc He]. apply Z.leb_le in He.
    unfold SpecFloat.canonical_mantissa in Hc. apply Zeq_bool_eq in Hc. unfold SpecFloat.fexp, SpecFloat.emin in Hc.
    assert (Generic_fmt.generic_format Zaux.radix2 (SpecFloat.fexp 53 1024) r) as Hg.
    { apply FLT.generic_format_FLT. exists (Defs.Float Zaux.radix2 (Z.pos mx) ex); [done| |].
      - cbn. change (Z.pow_pos 2 53) with (2 ^ 53)%Z.
        pose proof (Digits.Zpower_gt_Zdigits Zaux.radix2 53 (Z.pos mx)) as Z. cbn [Z.abs] in Z. apply Z.
        rewrite <- Digits.Zpos_digits2_pos. lia.
      - cbn. unfold emin. lia. }
    assert (drnd r = r) as Er by (apply Generic_fmt.round_generic; [apply Generic_fmt.valid_rnd_N|done]).
    exists r. split.
    + rewrite <- Er. apply fval_normalize; [done|done|]. unfold in_range. change (rnd 53 1024) with drnd.
      fold r. rewrite Er. rewrite Rabs_pos_eq by lra. eapply Rlt_trans; [exact Hlt|]. by apply Raux.bpow_lt.
    + split; [|done]. split; [lra|]. left. change (IZR (2 ^ 128)) with (Raux.bpow Zaux.radix2 128). done.
Qed.

Definition big (e : Z) : f64 := S754_finite false 4503599627370496 (e - 52).
Lemma dv_big e : (0 <= e <= 1010)%Z -> dv (big e) (Raux.bpow Zaux.radix2 e).
Proof.
  intros He. split; [|split; [done|]].
  - unfold is_num, big. cbn. unfold bounded, canonical_mantissa. change (digits2_pos 4503599627370496) with 53%positive.
    unfold SpecFloat.fexp, emin. apply andb_true_intro. split; [apply Zeq_is_eq_bool|apply Z.leb_le]; lia.
  - unfold rval, big. cbn [BinarySingleNaN.SF2R]. unfold Defs.F2R. cbn [Defs.Fnum Defs.Fexp cond_Zopp].
    change 4503599627370496%Z with (2 ^ 52)%Z. change (IZR (2 ^ 52)) with (Raux.bpow Zaux.radix2 52).
    rewrite <- Raux.bpow_plus. f_equal. lia.
Qed.
Lemma modest_dv x : modest x <-> exists r, dv x r /\ (0 <= r <= Raux.bpow Zaux.radix2 1000)%R.
Proof.
  assert (dv (f64_of_N (2 ^ 1000)) (Raux.bpow Zaux.radix2 1000)) as HB.
  { replace (f64_of_N (2 ^ 1000)) with (big 1000) by (vm_compute; reflexivity). apply dv_big. lia. }
  split.
  - intros (D & H0 & H1). assert (is_fin x) as Fx.
    { apply (pos_fin 53 1024 prec53 emax53); [done|]. destruct x as [|[]| |[]]; try done. }
    pose proof (fval_of 53 1024 prec53 emax53 x D Fx) as Hx. exists (rval x). split; [done|].
    apply (dv_fle _ _ _ _ dv_f0 Hx) in H0. apply (dv_fle _ _ _ _ Hx HB) in H1. lra.
  - intros (r & Hx & H0 & H1). split; [by eapply dv_double|].
    split; [by apply (dv_fle _ _ _ _ dv_f0 Hx)|by apply (dv_fle _ _ _ _ Hx HB)].
Qed.
Lemma unit_dv x : unit_score x <-> exists r, dv x r /\ (0 <= r <= 1)%R.
Proof.
  split.
  - intros (D & H0 & H1). assert (is_fin x) as Fx.
    { apply (pos_fin 53 1024 prec53 emax53); [done|]. destruct x as [|[]| |[]]; try done. }
    pose proof (fval_of 53 1024 prec53 emax53 x D Fx) as Hx. exists (rval x). split; [done|].
    apply (dv_fle _ _ _ _ dv_f0 Hx) in H0. apply (dv_fle _ _ _ _ Hx dv_f1) in H1. lra.
  - intros (r & Hx & H0 & H1). split; [by eapply dv_double|].
    split; [by apply (dv_fle _ _ _ _ dv_f0 Hx)|by apply (dv_fle _ _ _ _ Hx dv_f1)].
Qed.

(** combined scores are numbers *)
Lemma vr_score_number fw r : weight_single fw -> result_ok r ->
  exists s, dv (vr_score fw r) s /\ (0 <= s)%R.
Proof.
  intros Hw [Hd Hf]. apply modest_dv in Hd as (a & Ha & Ba). apply unit_dv in Hf as (c & Hc & Bc).
  unfold vr_score. destruct (feq fw f0); [exists a; split; [done|lra]|].
  destruct (single_to_f64 fw Hw) as (w & Hw64 & Bw & _).
  destruct (dv_mul_unit _ _ _ _ Hw64 Hc) as (p & Hp & Bp); [lra|done|].
  assert (IZR (2 ^ 128) <= Raux.bpow Zaux.radix2 1000)%R as L1.
  { change (IZR (2 ^ 128)) with (Raux.bpow Zaux.radix2 128). apply Raux.bpow_le. lia. }
  destruct Bw as [Bw0 Bw1]. pose proof (Rle_trans _ _ _ Bw1 L1) as Bw. clear L1 Bw1.
  assert (Raux.bpow Zaux.radix2 1001 = 2 * Raux.bpow Zaux.radix2 1000)%R as E1.
  { change 1001%Z with (1 + 1000)%Z. rewrite Raux.bpow_plus. done. }
  destruct (between (a + p) (big 1001) _ (dv_big 1001 ltac:(lia))) as [R1 B1]; [lra|].
  pose proof (fval_add 53 1024 prec53 emax53 _ _ _ _ Ha Hp R1) as Hs.
  assert (1 <= Raux.bpow Zaux.radix2 1000)%R as L2 by (change 1%R with (Raux.bpow Zaux.radix2 0); apply Raux.bpow_le; lia).
  destruct (between (1 + w) (big 1001) _ (dv_big 1001 ltac:(lia))) as [R2 B2]; [lra|].
  pose proof (fval_add 53 1024 prec53 emax53 _ _ _ _ dv_f1 Hw64 R2) as Ht.
  assert (1 <= drnd (1 + w))%R as L3 by (rewrite <- drnd_1 at 1; apply drnd_mono; lra).
  assert (0 <= drnd (a + p) / drnd (1 + w) <= Raux.bpow Zaux.radix2 1001)%R as B3.
  { split.
    - apply Rmult_le_pos; [lra|]. left. apply Rinv_0_lt_compat. lra.
    - apply Rmult_le_reg_r with (drnd (1 + w)); [lra|]. unfold Rdiv. rewrite Rmult_assoc, Rinv_l by lra.
      assert (1 * drnd (a + p) <= drnd (1 + w) * Raux.bpow Zaux.radix2 1001)%R by (apply Rmult_le_compat; lra). lra. }
  destruct (between _ (big 1001) _ (dv_big 1001 ltac:(lia)) B3) as [R3 B4].
  eexists. split; [apply (fval_div 53 1024 prec53 emax53 _ _ _ _ Hs Ht); [unfold drnd in *; lra|done]|]. apply B4.
Qed.
Lemma ok_rankable fw r : weight_single fw -> result_ok r -> rankable fw r.
Proof.
  intros Hw Hr. unfold rankable. destruct (fgt fw f0).
  - destruct (vr_score_number fw r Hw Hr) as (s & Hs & _). apply dv_nonan in Hs; tauto.
  - destruct Hr as [Hd Hf]. apply modest_dv in Hd as (a & Ha & _). apply unit_dv in Hf as (c & Hc & _).
    apply dv_nonan in Ha, Hc. tauto.
Qed.

(** ** Deduplication, cropping, cutoff *)
Lemma dedup_from_sublist l : forall x, dedup_from x l `sublist_of` l.
Proof.
  induction l as [|y l IH]; intros x; cbn; [done|]. destruct (_ =? _)%nat; [by apply sublist_cons|by apply sublist_skip].
Qed.
Lemma dedup_sublist l : dedup l `sublist_of` l.
Proof. destruct l as [|x l]; cbn; [done|]. apply sublist_skip, dedup_from_sublist. Qed.
Lemma sublist_lookup2 {A} (l k : list A) i j a b : l `sublist_of` k -> i < j -> l !! i = Some a -> l !! j = Some b ->
  exists i' j', i' < j' /\ k !! i' = Some a /\ k !! j' = Some b.
Proof.
  intros Sb. revert i j. induction Sb as [|x l k Sb IH|x l k Sb IH]; intros i j Hij Hi Hj; [done| |].
  - destruct j as [|j]; [lia|]. cbn in Hj. destruct i as [|i]; cbn in Hi.
    + injection Hi as ->. apply elem_of_list_lookup_2 in Hj. eapply elem_of_submseteq in Hj; [|apply sublist_submseteq; exact Sb].
      apply elem_of_list_lookup in Hj as [j' Hj]. exists 0, (S j'). split; [lia|done].
    + destruct (IH i j ltac:(lia) Hi Hj) as (i' & j' & ? & ? & ?). exists (S i'), (S j'). split; [lia|done].
  - destruct (IH i j Hij Hi Hj) as (i' & j' & ? & ? & ?). exists (S i'), (S j'). split; [lia|done].
Qed.
Lemma ranked_sublist fw l k : l `sublist_of` k -> ranked fw k -> ranked fw l.
Proof. intros S R i j a b Hij Hi Hj. destruct (sublist_lookup2 _ _ _ _ _ _ S Hij Hi Hj) as (i' & j' & ? & ? & ?). by apply (R i' j'). Qed.
Lemma take_sublist {A} n (l : list A) : take n l `sublist_of` l.
Proof. by apply sublist_take. Qed.

Definition crop_n (mm : nat) (fw : f32) (l : list variant_result) : nat :=
  match crop mm fw l with Ok l' => length l' | Panic _ => 0 end.
Lemma crop_take mm fw l : crop mm fw l = Ok (take (crop_n mm fw l) l) /\ (l <> [] -> 0 < crop_n mm fw l).
Proof.
  unfold crop_n, crop. destruct (0 <? mm)%nat eqn:E0; cbn [andb]; [|split; [by rewrite firstn_all|destruct l; cbn; lia || done]].
  destruct (mm <? length l)%nat eqn:E1; [|split; [by rewrite firstn_all|destruct l; cbn; lia || done]].
  apply Nat.ltb_lt in E0, E1.
  destruct (lookup_lt_is_Some_2 l (mm - 1)) as [a Ha]; [lia|]. destruct (lookup_lt_is_Some_2 l mm) as [b Hb]; [lia|].
  rewrite Ha, Hb. cbn [rexpect rbind].
  assert (forall n, 0 < n -> (Ok (take n l) = Ok (take (length (take n l)) l) /\ (l <> [] -> 0 < length (take n l)))) as T.
  { intros n Hn. rewrite take_length. split; [|intros; destruct l; [done|cbn; lia]]. f_equal.
    destruct (Nat.le_gt_cases n (length l)); [by rewrite Nat.min_l by lia|]. rewrite Nat.min_r by lia. by rewrite firstn_all, firstn_all2 by lia. }
  destruct (flt _ _); [apply T; lia|]. destruct (cutoffs _ _ _ _) as [e t].
  destruct (0 <? e)%nat; [apply T; lia|]. destruct (0 <? t)%nat; [apply T; lia|]. split; [by rewrite firstn_all|destruct l; cbn; lia || done].
Qed.

Lemma cutoff_at_spec fw lim l : forall i, 0 < i -> let n := cutoff_at fw lim i l in
  (n = 0 /\ Forall (fun r => fle (vr_score fw r) lim = false) l) \/
  (exists k r, n = i + k /\ Forall (fun r => fle (vr_score fw r) lim = false) (take k l) /\ l !! k = Some r /\ fle (vr_score fw r) lim = true).
Proof.
  induction l as [|r l IH]; intros i Hi n; cbn in n; [by left|]. subst n. destruct (fle (vr_score fw r) lim) eqn:E.
  - right. exists 0, r. split; [lia|]. by split; [constructor|].
  - destruct (IH (S i) ltac:(lia)) as [[-> H]|(k & r' & -> & H1 & H2 & H3)].
    + left. split; [done|]. by constructor.
    + right. exists (S k), r'. split; [lia|]. split; [by constructor|]. done.
Qed.
Lemma apply_cutoff_spec c fw l : exists n, apply_cutoff c fw l = take n l /\ (l <> [] -> 0 < n) /\
  (fge c f1 = false -> apply_cutoff c fw l = l) /\
  (fge c f1 = true -> forall best, l !! 0 = Some best ->
    (forall i r, 0 < i < n -> l !! i = Some r -> fle (vr_score fw r) (fdiv (vr_score fw best) c) = false) /\
    (forall r, l !! n = Some r -> fle (vr_score fw r) (fdiv (vr_score fw best) c) = true)).
Proof.
  unfold apply_cutoff. destruct (fge c f1) eqn:Ec.
  2:{ exists (length l). cbn. rewrite firstn_all. split; [done|]. split; [destruct l; cbn; lia || done|]. split; [done|]. done. }
  destruct l as [|best l]; [exists 0; by cbn|].
  destruct (cutoff_at_spec fw (fdiv (vr_score fw best) c) l 1 ltac:(lia)) as [[-> H]|(k & r' & -> & H1 & H2 & H3)].
  - exists (length (best :: l)). cbn [Nat.ltb Nat.leb]. rewrite firstn_all. split; [done|]. split; [cbn; lia|]. split; [done|].
    intros _ b [= <-]. split.
    + intros [|i] r Hi Hr; [lia|]. cbn in Hr. rewrite Forall_forall in H. apply H. by eapply elem_of_list_lookup_2.
    + intros r Hr. apply lookup_lt_Some in Hr. lia.
  - exists (1 + k). cbn [Nat.ltb Nat.leb Nat.add]. split; [done|]. split; [lia|]. split; [done|]. intros _ b [= <-]. split.
    + intros [|i] r Hi Hr; [lia|]. cbn in Hr. rewrite Forall_forall in H1. apply H1. eapply elem_of_list_lookup_2.
      rewrite lookup_take; [exact Hr|lia].
    + intros r Hr. change (l !! k = Some r) in Hr. rewrite H2 in Hr. by injection Hr as <-.
Qed.

Lemma rank_ok fw l : weight_single fw -> Forall result_ok l ->
  exists l', rank_results fw l = Ok l' /\ l' ≡ₚ l /\ ranked fw l' /\ keeps_ties fw l l'.
Proof. intros Hw H. apply rank_results_ok. eapply Forall_impl; [exact H|]. intros r. by apply ok_rankable. Qed.
