(** More facts about floating-point operations: no NaN, signs. *)
From Coq Require Import ZArith Reals SpecFloat Lia Lra.
From Flocq Require Import Core BinarySingleNaN.
From Verif Require Import M_Base M_Float P_Float.

Section fl.
  Context (prec emax : Z) (Hprec : Prec_gt_0 prec) (Hmax : Prec_lt_emax prec emax).
  #[local] Set Default Proof Using "All".
  Notation bf := (binary_float prec emax).

  Lemma overflow_nonan s : fis_nan (binary_overflow prec emax mode_NE s) = false.
  Proof. reflexivity. Qed.
  Lemma finite_nonan (b : bf) : is_finite b = true -> fis_nan (B2SF b) = false.
  Proof. now destruct b. Qed.
  Lemma normalize_nonan m e s : fis_nan (SpecFloat.binary_normalize prec emax m e s) = false.
  Proof.
    rewrite (binary_normalize_equiv prec emax Hprec Hmax).
    generalize (binary_normalize_correct prec emax Hprec Hmax mode_NE m e s). cbv zeta.
    destruct (Rlt_bool _ _); [intros (_ & F & _); now apply finite_nonan|]. intros ->. reflexivity.
  Qed.
  Lemma mul_nonan x y : is_num prec emax x -> is_num prec emax y -> is_fin x -> is_fin y -> fis_nan (SFmul prec emax x y) = false.
  Proof.
    intros Hx Hy Fx Fy. apply (to_bf prec emax Hprec Hmax) in Hx as [u <-]. apply (to_bf prec emax Hprec Hmax) in Hy as [v <-].
    apply (bf_fin prec emax Hprec Hmax) in Fx, Fy. rewrite (mul_equiv prec emax Hprec Hmax).
    generalize (Bmult_correct prec emax Hprec Hmax mode_NE u v).
    destruct (Rlt_bool _ _); [intros (_ & F & _)|intros ->; reflexivity]. apply finite_nonan. now rewrite F, Fx, Fy.
  Qed.
  (** sums of non-positive numbers *)
  Lemma add_nonpos x y : is_num prec emax x -> is_num prec emax y ->
    SFleb x (S754_zero false) = true -> SFleb y (S754_zero false) = true ->
    SFleb (SFadd prec emax x y) (S754_zero false) = true.
  Proof.
    intros Hx Hy Lx Ly. destruct (is_finite_SF x) eqn:Fx; [|destruct x as [|[]| |[]], y as [|[]| |[]]; easy].
    destruct (is_finite_SF y) eqn:Fy; [|destruct x as [|[]| |[]], y as [|[]| |[]]; easy].
    assert (forall z, is_num prec emax z -> is_fin z -> SFleb z (S754_zero false) = true -> (rval z <= 0)%R) as N.
    { intros z Hz Fz Lz. apply (le_ext prec emax Hprec Hmax) in Lz; [|easy|reflexivity|now apply (fin_nonan prec emax Hprec Hmax)|easy].
      rewrite (fin_ext prec emax Hprec Hmax) in Lz by easy. exact Lz. }
    pose proof (N x Hx Fx Lx) as Rx. pose proof (N y Hy Fy Ly) as Ry.
    pose proof Hx as Hx'. pose proof Hy as Hy'.
    apply (to_bf prec emax Hprec Hmax) in Hx' as [u Eu]. apply (to_bf prec emax Hprec Hmax) in Hy' as [v Ev].
    rewrite <- Eu, <- Ev in *. rewrite !(bf_rval prec emax Hprec Hmax) in *. apply (bf_fin prec emax Hprec Hmax) in Fx, Fy.
    rewrite (add_equiv prec emax Hprec Hmax).
    generalize (Bplus_correct prec emax Hprec Hmax mode_NE u v Fx Fy). destruct (Rlt_bool _ _) eqn:Eo.
    - intros (E & F & _).
      assert (round radix2 (SpecFloat.fexp prec emax) (round_mode mode_NE) (B2R u + B2R v) <= 0)%R as Hr.
      { rewrite <- (round_0 radix2 (SpecFloat.fexp prec emax) (round_mode mode_NE)).
        apply round_le; [now apply fexp_correct|apply valid_rnd_N|]. lra. }
      rewrite <- E in Hr. apply (le_ext prec emax Hprec Hmax); [apply (bf_valid prec emax Hprec Hmax)|reflexivity| |easy|].
      + now destruct (Bplus mode_NE u v).
      + rewrite (fin_ext prec emax Hprec Hmax) by (now apply (bf_fin prec emax Hprec Hmax)).
        rewrite (bf_rval prec emax Hprec Hmax). exact Hr.
    - intros [-> Es]. destruct u as [su|su| |su mu eu Bu]; try easy.
      + (* a zero cannot make the sum overflow *)
        destruct v as [sv|sv| |sv mv ev Bv]; try easy.
        * simpl in Eo. rewrite Rplus_0_r, round_0, Rabs_R0 in Eo by apply valid_rnd_N.
          rewrite Rlt_bool_true in Eo; [easy|]. apply bpow_gt_0.
        * simpl in Es. subst su. destruct sv; [reflexivity|].
          exfalso. simpl in Ry. assert (0 < F2R (Float radix2 (Zpos mv) ev))%R by (now apply F2R_gt_0). lra.
  Qed.
  Lemma leb_0 (z : spec_float) : is_num prec emax z -> is_fin z -> SFleb z (S754_zero false) = true <-> (rval z <= 0)%R.
  Proof.
    intros Hz Fz. rewrite (le_ext prec emax Hprec Hmax); [|easy|reflexivity|now destruct z|easy].
    rewrite (fin_ext prec emax Hprec Hmax) by easy. reflexivity.
  Qed.
  Lemma overflow_neg : SFleb (binary_overflow prec emax mode_NE true) (S754_zero false) = true.
  Proof. reflexivity. Qed.
  (** a positive times a non-positive number *)
  Lemma mul_nonpos m e y : is_num prec emax (S754_finite false m e) -> is_num prec emax y -> SFleb y (S754_zero false) = true ->
    SFleb (SFmul prec emax (S754_finite false m e) y) (S754_zero false) = true.
  Proof.
    intros Hx Hy Ly. destruct y as [s|s| |s my ey]; [reflexivity|now destruct s|easy|]. destruct s; [|easy].
    pose proof Hx as Hx'. pose proof Hy as Hy'.
    apply (to_bf prec emax Hprec Hmax) in Hx' as [u Eu]. apply (to_bf prec emax Hprec Hmax) in Hy' as [v Ev].
    rewrite <- Eu, <- Ev, (mul_equiv prec emax Hprec Hmax).
    assert (is_finite u = true /\ Bsign u = false /\ 0 < B2R u)%R as (Fu & Su & Ru).
    { destruct u as [| | |su mu eu Bu]; try easy. injection Eu as -> -> ->. repeat split. now apply F2R_gt_0. }
    assert (is_finite v = true /\ Bsign v = true /\ B2R v < 0)%R as (Fv & Sv & Rv).
    { destruct v as [| | |sv mv ev Bv]; try easy. injection Ev as -> -> ->. repeat split. now apply F2R_lt_0. }
    generalize (Bmult_correct prec emax Hprec Hmax mode_NE u v). destruct (Rlt_bool _ _).
    - intros (E & F & _). rewrite Fu, Fv in F. apply leb_0; [apply (bf_valid prec emax Hprec Hmax)|now apply (bf_fin prec emax Hprec Hmax)|].
      rewrite (bf_rval prec emax Hprec Hmax), E. rewrite <- (round_0 radix2 (SpecFloat.fexp prec emax) (round_mode mode_NE)).
      apply round_le; [now apply fexp_correct|apply valid_rnd_N|]. nra.
    - intros ->. rewrite Su, Sv. exact overflow_neg.
  Qed.
  (** a non-positive number divided by a positive one *)
  Lemma div_nonpos y m e : is_num prec emax (S754_finite false m e) -> is_num prec emax y -> SFleb y (S754_zero false) = true ->
    SFleb (SFdiv prec emax y (S754_finite false m e)) (S754_zero false) = true.
  Proof.
    intros Hx Hy Ly. destruct y as [s|s| |s my ey]; [reflexivity|now destruct s|easy|]. destruct s; [|easy].
    pose proof Hx as Hx'. pose proof Hy as Hy'.
    apply (to_bf prec emax Hprec Hmax) in Hx' as [u Eu]. apply (to_bf prec emax Hprec Hmax) in Hy' as [v Ev].
    rewrite <- Eu, <- Ev, (div_equiv prec emax Hprec Hmax).
    assert (Bsign u = false /\ 0 < B2R u)%R as (Su & Ru).
    { destruct u as [| | |su mu eu Bu]; try easy. injection Eu as -> -> ->. repeat split. now apply F2R_gt_0. }
    assert (is_finite v = true /\ Bsign v = true /\ B2R v < 0)%R as (Fv & Sv & Rv).
    { destruct v as [| | |sv mv ev Bv]; try easy. injection Ev as -> -> ->. repeat split. now apply F2R_lt_0. }
    generalize (Bdiv_correct prec emax Hprec Hmax mode_NE v u ltac:(lra)). destruct (Rlt_bool _ _).
    - intros (E & F & _). rewrite Fv in F. apply leb_0; [apply (bf_valid prec emax Hprec Hmax)|now apply (bf_fin prec emax Hprec Hmax)|].
      rewrite (bf_rval prec emax Hprec Hmax), E. rewrite <- (round_0 radix2 (SpecFloat.fexp prec emax) (round_mode mode_NE)).
      apply round_le; [now apply fexp_correct|apply valid_rnd_N|]. 
      assert (0 < / B2R u)%R by now apply Rinv_0_lt_compat. unfold Rdiv. nra.
    - intros ->. rewrite Su, Sv. exact overflow_neg.
  Qed.
  (** a number from 0 to another *)
  Lemma div_unit x y one : fval prec emax one 1 -> is_num prec emax x -> is_num prec emax y -> is_fin x ->
    SFleb (S754_zero false) x = true -> SFleb x y = true -> SFltb (S754_zero false) y = true ->
    is_num prec emax (SFdiv prec emax x y) /\ SFleb (S754_zero false) (SFdiv prec emax x y) = true /\ SFleb (SFdiv prec emax x y) one = true.
  Proof.
    intros V1 Hx Hy Fx L0 Lxy Ly. split; [now apply (valid_div prec emax Hprec Hmax)|].
    destruct (fval_ext prec emax Hprec Hmax _ _ V1) as (N1 & H1 & E1).
    destruct y as [sy|sy| |sy my ey]; [now destruct sy| |easy|].
    - destruct sy; [easy|]. destruct V1 as (V1 & F1 & R1). destruct x as [sx|sx| |sx mx ex]; try easy.
      + destruct one as [so|so| |so mo eo]; try easy; try (now destruct sx, so). 
        destruct so; [|now destruct sx]. exfalso. unfold rval in R1. cbn in R1.
        assert (F2R (Float radix2 (Z.neg mo) eo) < 0)%R by (now apply F2R_lt_0). change (- Z.pos mo)%Z with (Z.neg mo) in R1. lra.
      + destruct one as [so|so| |so mo eo]; try easy; try (now destruct sx, so). 
        destruct so; [|now destruct sx]. exfalso. unfold rval in R1. cbn in R1.
        assert (F2R (Float radix2 (Z.neg mo) eo) < 0)%R by (now apply F2R_lt_0). change (- Z.pos mo)%Z with (Z.neg mo) in R1. lra.
    - assert (is_fin (S754_finite sy my ey)) as Fy by easy.
      pose proof (fval_of prec emax Hprec Hmax x Hx Fx) as Vx. pose proof (fval_of prec emax Hprec Hmax _ Hy Fy) as Vy.
      destruct (fval_ext prec emax Hprec Hmax _ _ Vx) as (_ & Nx & Ex). destruct (fval_ext prec emax Hprec Hmax _ _ Vy) as (_ & Ny & Ey).
      apply (le_ext prec emax Hprec Hmax) in L0; [|reflexivity|easy|easy|easy]. apply (le_ext prec emax Hprec Hmax) in Lxy; [|easy..].
      apply (lt_ext prec emax Hprec Hmax) in Ly; [|reflexivity|easy|easy|easy]. rewrite Ex in *. rewrite Ey in *. change (ext emax (S754_zero false)) with 0%R in L0, Ly.
      set (a := rval x) in *. set (b := rval (S754_finite sy my ey)) in *.
      assert (0 <= a / b <= 1)%R as Hq.
      { split; [apply Rmult_le_pos; [easy|]; left; apply Rinv_0_lt_compat; easy|]. apply Rmult_le_reg_r with b; [easy|].
        unfold Rdiv. rewrite Rmult_assoc, Rinv_l by lra. lra. }
      destruct (in_range_between prec emax Hprec Hmax _ _ _ V1 Hq) as [Hr [R0 R1]].
      assert (fval prec emax (SFdiv prec emax x (S754_finite sy my ey)) (rnd prec emax (a / b))) as Vd
        by (apply (fval_div prec emax Hprec Hmax); [easy|easy|lra|easy]).
      destruct (fval_ext prec emax Hprec Hmax _ _ Vd) as (Nd & Hd & Ed). split.
      + apply (le_ext prec emax Hprec Hmax); [reflexivity|easy|easy|easy|]. rewrite Ed. exact R0.
      + apply (le_ext prec emax Hprec Hmax); [easy|easy|easy|easy|]. rewrite Ed, E1. exact R1.
  Qed.
End fl.
Lemma cost_init_number n : fis_nan (f32mul (f32_of_nat (n - 1)) (f32_of_nat 2)) = false.
Proof.
  unfold f32mul. pose proof (normalize_nonan 24 128 eq_refl eq_refl (Z.of_N (N.of_nat (n - 1))) 0 false) as Hn.
  change (SpecFloat.binary_normalize 24 128 (Z.of_N (N.of_nat (n - 1))) 0 false) with (f32_of_nat (n - 1)) in Hn.
  assert (is_num 24 128 (f32_of_nat (n - 1))) as Hv by apply (valid_normalize 24 128 eq_refl eq_refl).
  destruct (f32_of_nat (n - 1)) as [s|s| |s m e] eqn:E; [reflexivity|reflexivity|discriminate|].
  apply (mul_nonan 24 128 eq_refl eq_refl); try easy.
Qed.
