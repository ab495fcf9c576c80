(** Signs of shares, logarithms and perplexities. *)
From Coq Require Import ZArith Reals SpecFloat Lia Lra.
From Flocq Require Import Core BinarySingleNaN.
From Verif Require Import M_Base M_Float M_Types M_Matches S_Search S_Matches P_Float P_Limit P_Score P_Rank P_Order P_Nonan.
From stdpp Require Import options.
#[local] Open Scope nat_scope.

Lemma positive_shape x r : dv x r -> (0 < r)%R -> exists m e, x = S754_finite false m e.
Proof.
  intros (_ & F & E) Hr. destruct x as [s|s| |s m e]; try done; unfold rval in E; cbn in E; [lra|].
  destruct s; [|by exists m, e]. exfalso. cbn in E.
  assert (F2R (Float radix2 (Z.neg m) e) < 0)%R by (by apply F2R_lt_0). change (- Z.pos m)%Z with (Z.neg m) in E. lra.
Qed.
Lemma dv_opp x r : dv x r -> dv (SFopp x) (- r).
Proof.
  intros (V & F & <-). destruct x as [s|s| |s m e]; try done; (split; [done|]); (split; [done|]); unfold rval; cbn [SFopp SF2R].
  - lra.
  - destruct s; cbn [negb cond_Zopp]; rewrite <- F2R_Zopp; done.
Qed.
Lemma zero_share x : weight_single x -> fgt x f0 = true -> fdiv f0 (to_f64 x) = f0.
Proof.
  intros Hw Hp. destruct (single_to_f64 x Hw) as (r & Hd & _ & Hr). specialize (Hr Hp).
  destruct (positive_shape _ _ Hd Hr) as (mx & e & ->). done.
Qed.

(** ** Transitions *)
Lemma fval_count n : (n < 4294967296)%N -> fval 24 128 (f32_of_N n) (rnd 24 128 (IZR (Z.of_N n))) /\ (0 <= rnd 24 128 (IZR (Z.of_N n)))%R.
Proof.
  intros H. unfold f32_of_N.
  assert (fval 24 128 (S754_finite false 8388608 9) (IZR 4294967296)) as Hb.
  { split; [done|]. split; [done|]. unfold rval. cbn [SF2R cond_Zopp]. unfold F2R. cbn [Fnum Fexp bpow]. rewrite <- mult_IZR. done. }
  assert (0 <= IZR (Z.of_N n) <= IZR 4294967296)%R as Hn by (split; apply IZR_le; lia).
  destruct (in_range_between 24 128 prec24 emax24 _ _ _ Hb Hn) as [Hr [H0 _]]. split; [|done].
  replace (IZR (Z.of_N n)) with (F2R (Float radix2 (Z.of_N n) 0)) in * by (unfold F2R; cbn; lra).
  by apply (fval_normalize 24 128 prec24 emax24).
Qed.
Lemma fval32_1 : fval 24 128 f32_1 1.
Proof. apply (fval_int 24 128 prec24 emax24 1 false). lia. Qed.
Lemma rnd32_1 : rnd 24 128 1 = 1%R.
Proof. apply (rnd_fval 24 128 prec24 emax24 f32_1). exact fval32_1. Qed.
Lemma share_unit j p : (0 < j <= p)%N -> (p < 4294967296)%N ->
  let x := f32div (f32_of_N j) (f32_of_N p) in single x /\ fle f0 x = true /\ fle x f32_1 = true.
Proof.
  intros [Hj Hp] Hm x. destruct (fval_count j) as [Vj Nj]; [lia|]. destruct (fval_count p) as [Vp _]; [lia|].
  set (a := rnd 24 128 (IZR (Z.of_N j))) in *. set (b := rnd 24 128 (IZR (Z.of_N p))) in *.
  assert (1 <= b)%R as Hb.
  { rewrite <- rnd32_1. apply (rnd_mono 24 128 prec24 emax24). apply IZR_le. lia. }
  assert (a <= b)%R as Hab. { apply (rnd_mono 24 128 prec24 emax24). apply IZR_le. lia. }
  assert (0 <= a / b <= 1)%R as Hq.
  { split; [apply Rmult_le_pos; [done|]; left; apply Rinv_0_lt_compat; lra|]. apply Rmult_le_reg_r with b; [lra|].
    unfold Rdiv. rewrite Rmult_assoc, Rinv_l by lra. lra. }
  pose proof fval32_1 as V1.
  destruct (in_range_between 24 128 prec24 emax24 _ _ _ V1 Hq) as [Hr [R0 R1]].
  assert (fval 24 128 x (rnd 24 128 (a / b))) as Vx by (apply (fval_div 24 128 prec24 emax24); [done|done|lra|done]).
  destruct (fval_ext 24 128 prec24 emax24 _ _ Vx) as (Nx & Hx & Ex).
  destruct (fval_ext 24 128 prec24 emax24 _ _ V1) as (N1 & H1 & E1).
  split; [apply Vx|]. split.
  - apply (le_ext 24 128 prec24 emax24); try done. rewrite Ex. done.
  - apply (le_ext 24 128 prec24 emax24); try done. rewrite Ex, E1. done.
Qed.
Lemma transition_nonpos ln counts t : log32_like ln -> consistent_counts counts ->
  single (transition_value ln counts t) /\ fle (transition_value ln counts t) f0 = true.
Proof.
  intros [L1 L2 _] Hc. destruct t as [[a|] [b|]]; cbn [transition_value]; try by split.
  destruct (counts !! NBi a b) as [joint|] eqn:E; [|by split].
  destruct (Hc a b joint E) as (prior & Ep & Hj & Hm). rewrite Ep. cbn [default].
  rewrite bool_decide_eq_false_2 by (cbn; lia). destruct (share_unit joint prior Hj Hm) as (H1 & H2 & H3). auto.
Qed.
Lemma logprob_nonpos ln counts tokens : log32_like ln -> consistent_counts counts ->
  single (sequence_logprob ln counts tokens) /\ fle (sequence_logprob ln counts tokens) f0 = true.
Proof.
  intros Hl Hc. unfold sequence_logprob.
  assert (forall l acc, single acc -> fle acc f0 = true ->
    single (foldl f32add acc (map (transition_value ln counts) l)) /\ fle (foldl f32add acc (map (transition_value ln counts) l)) f0 = true) as G.
  { induction l as [|t l IH]; intros acc Ha Hn; [done|]. cbn [map foldl]. destruct (transition_nonpos ln counts t Hl Hc) as [H1 H2].
    apply IH; [by apply (valid_add 24 128 prec24 emax24)|by apply (add_nonpos 24 128 prec24 emax24)]. }
  by apply G.
Qed.
Lemma perplexity_nonneg n x : 0 < n -> (N.of_nat n < 9007199254740992)%N -> single x -> fle x f0 = true -> fle f0 (perplexity_of n x) = true.
Proof.
  intros Hn Hm Hx Hle. unfold perplexity_of.
  assert (prec53 : Prec_gt_0 53) by done. assert (emax53 : Prec_lt_emax 53 1024) by done.
  assert (dv (SFopp f1) (-1)) as V1 by (replace (-1)%R with (Ropp 1) by lra; apply dv_opp, dv_f1).
  assert (dv (f64_of_nat n) (IZR (Z.of_nat n))) as Vn.
  { unfold f64_of_nat, f64_of_N. rewrite <- nat_N_Z. apply (fval_int 53 1024 prec53 emax53). change (2 ^ 53)%Z with 9007199254740992%Z. lia. }
  assert (1 <= IZR (Z.of_nat n) <= IZR 9007199254740992)%R as Rn by (split; apply IZR_le; lia).
  set (k := IZR (Z.of_nat n)) in *.
  assert (fval 53 1024 (S754_finite false 4503599627370496 (-105)) (/ 9007199254740992)) as Ve.
  { split; [done|]. split; [done|]. unfold rval. cbn [SF2R cond_Zopp]. unfold F2R. cbn [Fnum Fexp].
    replace (bpow radix2 (-105)) with (/ IZR (2 ^ 105))%R by reflexivity. change (2 ^ 105)%Z with (4503599627370496 * 9007199254740992)%Z.
    rewrite mult_IZR. field. }
  assert (/ 9007199254740992 <= / k <= 1)%R as Hk.
  { split; [apply Rinv_le; lra|]. rewrite <- Rinv_1. apply Rinv_le; lra. }
  assert (exists m e, fdiv (SFopp f1) (f64_of_nat n) = S754_finite true m e /\ exists r, dv (S754_finite true m e) r /\ (-1 <= r < 0)%R) as (md & ed & -> & r & Vr & Hr).
  { assert (in_range 53 1024 (-1 / k)) as Hi.
    { unfold in_range. replace (-1 / k)%R with (- / k)%R by (unfold Rdiv; lra). unfold rnd. rewrite round_NE_opp, Rabs_Ropp.
      destruct (in_range_between 53 1024 prec53 emax53 (/ k) f1 1 dv_f1) as [Hi _]; [|exact Hi]. split; [|lra]. left. apply Rinv_0_lt_compat. lra. }
    pose proof (fval_div 53 1024 prec53 emax53 _ _ _ _ V1 Vn ltac:(lra) Hi) as Vd. change (SFdiv 53 1024) with fdiv in Vd.
    assert (-1 <= rnd 53 1024 (-1 / k) < 0)%R as Hb.
    { replace (-1 / k)%R with (- / k)%R by (unfold Rdiv; lra). unfold rnd. rewrite round_NE_opp. fold (rnd 53 1024 (/ k)).
      pose proof (rnd_mono 53 1024 prec53 emax53 _ _ (proj1 Hk)) as M1. rewrite (rnd_fval 53 1024 prec53 emax53 _ _ Ve) in M1.
      pose proof (rnd_mono 53 1024 prec53 emax53 _ _ (proj2 Hk)) as M2. rewrite (rnd_fval 53 1024 prec53 emax53 _ _ dv_f1) in M2. lra. }
    destruct (fdiv (SFopp f1) (f64_of_nat n)) as [s|s| |s mx ex]; destruct Vd as (V & F & E); try done; unfold rval in E; cbn in E; [lra|].
    destruct s; [|exfalso; cbn in E; assert (0 < F2R (Float radix2 (Z.pos mx) ex))%R by (by apply F2R_gt_0); lra].
    exists mx, ex. split; [done|]. exists (rnd 53 1024 (-1 / k)). split; [by split|done]. }
  destruct x as [s|s| |s mx ex]; [|destruct s; [reflexivity|done]|done|].
  { cbn [to_f64]. unfold fmul. cbn. by destruct s. }
  destruct s; [|done].
  assert (weight_single (S754_finite false mx ex)) as Hw by (by split).
  destruct (single_to_f64 _ Hw) as (a & (Va & Fa & Ea) & Hab & Hp). specialize (Hp eq_refl).
  assert (to_f64 (S754_finite true mx ex) = SFopp (to_f64 (S754_finite false mx ex))) as Eo.
  { cbn [to_f64]. change (cond_Zopp true (Z.pos mx)) with (Z.neg mx). change (cond_Zopp false (Z.pos mx)) with (Z.pos mx).
    unfold binary_normalize, binary_round. destruct (shl_align mx ex (fexp 53 1024 (Z.pos (digits2_pos mx) + ex))) as [mz ez].
    unfold binary_round_aux. destruct (shr_fexp 53 1024 (Z.pos mz) ez loc_Exact) as [mrs' e'].
    match goal with |- context [shr_fexp 53 1024 ?z e' loc_Exact] => destruct (shr_fexp 53 1024 z e' loc_Exact) as [mrs'' e''] end.
    destruct (shr_m mrs''); [done| |done]. by destruct (Z.leb _ _). }
  assert (dv (to_f64 (S754_finite true mx ex)) (- a)) as Vo.
  { rewrite Eo. by apply dv_opp. }
  assert (0 <= r * - a <= IZR (2 ^ 128))%R as Hq.
  { destruct Hab as [A0 A1]. split; [|nra]. nra. }
  assert (dv (S754_finite false 4503599627370496 76) (IZR (2 ^ 128))) as Vb.
  { split; [done|]. split; [done|]. unfold rval. cbn [SF2R cond_Zopp]. unfold F2R. cbn [Fnum Fexp bpow radix2]. 
    rewrite <- mult_IZR. f_equal. }
  destruct (in_range_between 53 1024 prec53 emax53 _ _ _ Vb Hq) as [Hi [H0 _]].
  pose proof (fval_mul 53 1024 prec53 emax53 _ _ _ _ Vr Vo Hi) as Vm.
  destruct (fval_ext 53 1024 prec53 emax53 _ _ Vm) as (Nx & Hx' & Ex).
  apply (le_ext 53 1024 prec53 emax53); try done. unfold fmul. rewrite Ex. done.
Qed.

(** ** Scores of sequences *)
Lemma single_exact x : weight_single x -> dv (to_f64 x) (rval x).
Proof.
  intros (Hs & H0 & Hi). destruct x as [s|s| |s mx ex]; cbn [to_f64].
  - by split.
  - by destruct s.
  - done.
  - destruct s; [done|]. change (cond_Zopp false (Z.pos mx)) with (Z.pos mx).
    unfold single in Hs. change (bounded 24 128 mx ex = true) in Hs.
    assert (Hp24 : Prec_gt_0 24) by done. assert (He24 : Prec_lt_emax 24 128) by done.
    pose proof (bounded_lt_emax 24 128 mx ex Hs) as Hlt.
    change (rval (S754_finite false mx ex)) with (F2R (Float radix2 (Z.pos mx) ex)).
    set (r := F2R (Float radix2 (Z.pos mx) ex)) in *.
    assert (0 < r)%R as Hpos by (by apply F2R_gt_0).
    apply andb_prop in Hs as [Hc He]. apply Z.leb_le in He.
    unfold SpecFloat.canonical_mantissa in Hc. apply Zeq_bool_eq in Hc. unfold SpecFloat.fexp, SpecFloat.emin in Hc.
    assert (generic_format radix2 (SpecFloat.fexp 53 1024) r) as Hg.
    { apply generic_format_FLT. exists (Float radix2 (Z.pos mx) ex); [done| |].
      - cbn. change (Z.pow_pos 2 53) with (2 ^ 53)%Z.
        pose proof (Zpower_gt_Zdigits radix2 53 (Z.pos mx)) as Z. cbn [Z.abs] in Z. apply Z.
        rewrite <- Digits.Zpos_digits2_pos. lia.
      - cbn. unfold SpecFloat.emin. lia. }
    assert (drnd r = r) as Er by (apply round_generic; [apply valid_rnd_N|done]).
    rewrite <- Er. apply fval_normalize; [done|done|]. unfold in_range. change (rnd 53 1024) with drnd.
    fold r. rewrite Er. rewrite Rabs_pos_eq by lra. eapply Rlt_trans; [exact Hlt|]. by apply bpow_lt.
Qed.
Lemma single_val x : weight_single x -> fval 24 128 x (rval x).
Proof.
  intros (Hs & H0 & Hi). split; [done|]. split; [|done]. by apply (pos_fin 24 128 prec24 emax24).
Qed.
Lemma to_f64_mono x y : weight_single x -> weight_single y -> fle x y = true -> fle (to_f64 x) (to_f64 y) = true.
Proof.
  intros Hx Hy H. apply (dv_fle _ _ _ _ (single_exact x Hx) (single_exact y Hy)).
  destruct (fval_ext 24 128 prec24 emax24 _ _ (single_val x Hx)) as (Nx & Ux & Ex).
  destruct (fval_ext 24 128 prec24 emax24 _ _ (single_val y Hy)) as (Ny & Uy & Ey).
  apply (le_ext 24 128 prec24 emax24) in H; [|done..]. by rewrite Ex, Ey in H.
Qed.
Lemma to_f64_positive x : weight_single x -> flt f0 x = true -> flt f0 (to_f64 x) = true /\ exists m e, to_f64 x = S754_finite false m e.
Proof.
  intros Hx H. destruct (single_to_f64 x Hx) as (r & Hd & _ & Hp). destruct (positive_shape _ _ Hd (Hp H)) as (m & e & ->).
  split; [done|by exists m, e].
Qed.
Definition nonpos (x : f64) : Prop := double x /\ fle x f0 = true.
Lemma nonpos_number x : nonpos x -> fis_nan x = false.
Proof. intros [_ H]. by destruct x. Qed.
Lemma log_share ln x y : log_like ln -> double x -> double y -> is_finite_SF x = true -> fle f0 x = true -> fle x y = true -> flt f0 y = true ->
  nonpos (ln (fdiv x y)).
Proof.
  intros [L0 _ _ L1 L2] Hx Hy Fx H0 Hxy Hp.
  destruct (div_unit 53 1024 eq_refl eq_refl x y f1 dv_f1 Hx Hy Fx H0 Hxy Hp) as (D & D0 & D1). split; [by apply L0|].
  change f0 with f0. rewrite <- L1. by apply L2.
Qed.
Lemma scaled w x : weight_single w -> flt f0 w = true -> nonpos x -> nonpos (fmul (to_f64 w) x).
Proof.
  intros Hw Hp [Hd Hx]. pose proof (single_exact w Hw) as (V & _). destruct (to_f64_positive w Hw Hp) as (_ & m & e & E). rewrite E in *. split.
  - by apply (valid_mul 53 1024 eq_refl eq_refl).
  - by apply (mul_nonpos 53 1024 eq_refl eq_refl).
Qed.
Lemma added x y : nonpos x -> nonpos y -> nonpos (fadd x y).
Proof.
  intros [Hx Lx] [Hy Ly]. split; [by apply (valid_add 53 1024 eq_refl eq_refl)|by apply (add_nonpos 53 1024 eq_refl eq_refl)].
Qed.
Lemma weight_sum w1 w2 w3 : Forall (fun w => weight_single w /\ flt f0 w = true) [w1; w2; w3] ->
  exists m e, fadd (fadd (to_f64 w1) (to_f64 w2)) (to_f64 w3) = S754_finite false m e /\ double (S754_finite false m e).
Proof.
  intros H. inversion H as [|? ? [H1 P1] H']; subst. inversion H' as [|? ? [H2 P2] H'']; subst. inversion H'' as [|? ? [H3 P3] _]; subst.
  destruct (single_to_f64 w1 H1) as (r1 & V1 & B1 & Q1). destruct (single_to_f64 w2 H2) as (r2 & V2 & B2 & Q2).
  destruct (single_to_f64 w3 H3) as (r3 & V3 & B3 & Q3). specialize (Q1 P1). specialize (Q2 P2). specialize (Q3 P3).
  assert (bpow radix2 129 = 2 * IZR (2 ^ 128))%R as E1 by (change (IZR (2 ^ 128)) with (bpow radix2 128); change 129%Z with (1 + 128)%Z; rewrite bpow_plus; done).
  assert (bpow radix2 130 = 4 * IZR (2 ^ 128))%R as E2 by (change (IZR (2 ^ 128)) with (bpow radix2 128); change 130%Z with (2 + 128)%Z; rewrite bpow_plus; done).
  destruct (in_range_between 53 1024 eq_refl eq_refl (r1 + r2) _ _ (dv_big 129 ltac:(lia))) as [I1 [L1 U1]]; [lra|].
  pose proof (fval_add 53 1024 eq_refl eq_refl _ _ _ _ V1 V2 I1) as Va.
  destruct (in_range_between 53 1024 eq_refl eq_refl (rnd 53 1024 (r1 + r2) + r3) _ _ (dv_big 130 ltac:(lia))) as [I2 [L2 U2]]; [lra|].
  pose proof (fval_add 53 1024 eq_refl eq_refl _ _ _ _ Va V3 I2) as Vb.
  assert (0 < rnd 53 1024 (rnd 53 1024 (r1 + r2) + r3))%R as Hp.
  { apply Rlt_le_trans with r3; [done|]. rewrite <- (rnd_fval 53 1024 eq_refl eq_refl _ _ V3) at 1. apply (rnd_mono 53 1024 eq_refl eq_refl). lra. }
  destruct (positive_shape _ _ Vb Hp) as (m & e & E). exists m, e. split; [exact E|]. rewrite <- E. apply Vb.
Qed.
Lemma meaned w1 w2 w3 x1 x2 x3 : Forall (fun w => weight_single w /\ flt f0 w = true) [w1; w2; w3] -> nonpos x1 -> nonpos x2 -> nonpos x3 ->
  nonpos (weighted_mean w1 w2 w3 x1 x2 x3).
Proof.
  intros H N1 N2 N3. unfold weighted_mean. destruct (weight_sum w1 w2 w3 H) as (m & e & -> & V).
  inversion H as [|? ? [H1 P1] H']; subst. inversion H' as [|? ? [H2 P2] H'']; subst. inversion H'' as [|? ? [H3 P3] _]; subst.
  assert (nonpos (fadd (fadd (fmul (to_f64 w1) x1) (fmul (to_f64 w2) x2)) (fmul (to_f64 w3) x3))) as [Hs Ls].
  { apply added; [apply added|]; by apply scaled. }
  split; [by apply (valid_div 53 1024 eq_refl eq_refl)|by apply (div_nonpos 53 1024 eq_refl eq_refl)].
Qed.
Lemma cost_init_single n : (N.of_nat n < 8388608)%N -> weight_single (f32mul (f32_of_nat (n - 1)) (f32_of_nat 2)).
Proof.
  intros Hn. assert (fval 24 128 (f32_of_nat (n - 1)) (IZR (Z.of_nat (n - 1)))) as V1 by (apply fval_len; lia).
  assert (fval 24 128 (f32_of_nat 2) 2) as V2 by (apply (fval_len 2); lia).
  assert (fval 24 128 (S754_finite false 8388608 1) (IZR 16777216)) as Vb.
  { split; [done|]. split; [done|]. unfold rval. cbn [SF2R cond_Zopp]. unfold F2R. cbn [Fnum Fexp bpow]. rewrite <- mult_IZR. done. }
  assert (0 <= IZR (Z.of_nat (n - 1)) * 2 <= IZR 16777216)%R as B.
  { rewrite <- mult_IZR. split; apply IZR_le; lia. }
  destruct (in_range_between 24 128 prec24 emax24 _ _ _ Vb B) as [I [L U]].
  pose proof (fval_mul 24 128 prec24 emax24 _ _ _ _ V1 V2 I) as (V & F & E). set (x := f32mul _ _). change (SFmul 24 128) with f32mul in *. fold x in V, F, E.
  split; [done|]. destruct (fval_ext 24 128 prec24 emax24 x _ (conj V (conj F E))) as (Nx & Hx & Ex). split.
  - apply (le_ext 24 128 prec24 emax24); [done|done|done|done|]. rewrite Ex. done.
  - destruct x as [s|s| |s m e]; try done.
Qed.
Lemma scores_numbers ln m p n seqs perplexity cost context :
  log_like ln -> (N.of_nat n < 8388608)%N -> positive_weights p -> Forall (well_scored (use_lm m p)) seqs ->
  (if use_lm m p then least worst_perplexity (map sq_perplexity seqs) perplexity else perplexity = worst_perplexity) ->
  least (f32mul (f32_of_nat (n - 1)) (f32_of_nat 2)) (map sq_cost seqs) cost ->
  greatest f0 (map sq_context seqs) context ->
  Forall (fun s => nonpos (combined ln m p perplexity cost context s)) seqs.
Proof.
  intros Hl Hn Hw Hs Hp (C1 & C2 & C3) (X1 & X2 & X3). rewrite Forall_forall in Hs |- *. intros s Hin.
  destruct (Hs s Hin) as ((K1 & K2) & P0 & (T1 & T2 & T3)).
  assert (weight_single cost) as Hc.
  { apply elem_of_cons in C1 as [->|C1]; [by apply cost_init_single|]. apply elem_of_list_fmap in C1 as (s' & -> & Hin'). apply (Hs s' Hin'). }
  assert (fle cost (sq_cost s) = true) as Lc.
  { apply P_Order.fle_flt; [done|destruct K1 as (_ & K & _); by destruct (sq_cost s)|]. apply C3. right. apply elem_of_list_fmap. by exists s. }
  assert (nonpos (variant_part ln cost s)) as Nv.
  { pose proof (single_exact cost Hc) as (V & F & _). pose proof (single_exact _ K1) as (V' & _). unfold variant_part.
    apply log_share; [done|done|done|done| |by apply to_f64_mono|by apply to_f64_positive].
    apply (dv_fle _ _ _ _ dv_f0 (single_exact cost Hc)). destruct (single_to_f64 cost Hc) as (r & (_ & _ & <-) & ? & _).
    destruct (single_exact cost Hc) as (_ & _ & <-). lra. }
  unfold combined. destruct (decide _); [exact Nv|]. apply meaned; [done| |done|].
  - destruct (use_lm m p); [|by split]. destruct (P0 eq_refl) as [P1 P2]. destruct Hp as (Q1 & Q2 & Q3).
    assert (double perplexity /\ flt f0 perplexity = true) as [Dp Lp].
    { apply elem_of_cons in Q1 as [->|Q1]; [by split|]. apply elem_of_list_fmap in Q1 as (s' & -> & Hin'). by apply (Hs s' Hin'). }
    unfold lm_part. apply log_share; [done|done|done| | | |done].
    + assert (flt worst_perplexity perplexity = false) as Hf by (apply Q3; left). destruct perplexity as [|[]| |]; done.
    + by destruct perplexity as [|[]| |[]].
    + apply P_Order.fle_flt; [done|by destruct (sq_perplexity s)|]. apply Q3. right. apply elem_of_list_fmap. by exists s.
  - assert (fle (sq_context s) context = true) as Lx.
    { apply P_Order.fle_flt; [by destruct (sq_context s)|done|]. apply X3. right. apply elem_of_list_fmap. by exists s. }
    assert (double context) as Dx.
    { apply elem_of_cons in X1 as [->|X1]; [done|]. apply elem_of_list_fmap in X1 as (s' & -> & Hin'). apply (Hs s' Hin'). }
    unfold context_part. apply log_share; [done|done|done| | |done|].
    + by destruct (sq_context s) as [|[]| |].
    + by destruct (sq_context s) as [|[]| |[]].
    + apply P_Order.flt_key. apply P_Order.flt_key in T2 as (N0 & N1 & L). apply P_Order.fle_key in Lx; [|done|done].
      split; [done|]. split; [done|]. unfold P_Order.klt in *. lia.
Qed.
