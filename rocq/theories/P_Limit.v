(** Proofs about the effective distance limits. *)
From Coq Require Import ZArith Reals SpecFloat Lia Lra.
From Flocq Require Import Core BinarySingleNaN.
From Verif Require Import M_Base M_Float M_Types M_Search S_Float P_Float P_Score.

Section mul.
  Context (prec emax : Z) (Hprec : Prec_gt_0 prec) (Hmax : Prec_lt_emax prec emax).
  #[local] Set Default Proof Using "All".
  Lemma mul_overflow x y a b : fval prec emax x a -> fval prec emax y b -> (0 <= a)%R -> (0 <= b)%R ->
    ~ in_range prec emax (a * b) -> SFmul prec emax x y = S754_infinity false.
  Proof.
    intros Hx Hy Ha Hb Hr.
    assert (a <> 0%R /\ b <> 0%R) as [Na Nb].
    { split; intros ->; apply Hr; unfold in_range; rewrite ?Rmult_0_l, ?Rmult_0_r, (rnd_0 prec emax Hprec Hmax), Rabs_R0; apply bpow_gt_0. }
    destruct Hx as (Hx & Fx & <-), Hy as (Hy & Fy & <-). apply to_bf in Hx as [u <-]; try assumption. apply to_bf in Hy as [v <-]; try assumption.
    rewrite !(bf_rval prec emax Hprec Hmax) in *. rewrite (mul_equiv prec emax Hprec Hmax).
    generalize (Bmult_correct prec emax Hprec Hmax mode_NE u v). rewrite Rlt_bool_false.
    2:{ apply Rnot_lt_le. intros H. apply Hr. exact H. }
    intros E. rewrite E. unfold binary_overflow. cbn [overflow_to_inf]. f_equal.
    assert (forall w : binary_float prec emax, (0 <= B2R w)%R -> B2R w <> 0%R -> Bsign w = false) as Sg.
    { intros w H1 H2. destruct w as [s|s| |s mx ex Hb']; try (now cbn in H2). destruct s; [|reflexivity]. exfalso.
      change (0 <= F2R (Float radix2 (Z.neg mx) ex))%R in H1.
      apply (Rlt_not_le _ _ (F2R_lt_0 radix2 (Float radix2 (Z.neg mx) ex) eq_refl)). exact H1. }
    now rewrite !Sg.
  Qed.
End mul.

Lemma floor_pos_spec m e : Z.of_N (M_Float.floor_pos m e) = Zfloor (F2R (Float radix2 (Z.pos m) e)).
Proof.
  unfold M_Float.floor_pos, F2R. cbn [Fnum Fexp]. destruct e as [|p|p].
  - cbn [bpow]. rewrite Rmult_1_r, Zfloor_IZR. reflexivity.
  - rewrite N2Z.inj_mul, N2Z.inj_pow. cbn [Z.of_N]. rewrite <- (Zfloor_IZR (Z.pos m * 2 ^ Z.pos p)). f_equal.
    now rewrite mult_IZR.
  - rewrite N2Z.inj_div, N2Z.inj_pow. cbn [Z.of_N].
    assert (bpow radix2 (Z.neg p) = / IZR (2 ^ Z.pos p))%R as ->.
    { change (Z.neg p) with (- Z.pos p)%Z. now rewrite bpow_opp. }
    fold (Rdiv (IZR (Z.pos m)) (IZR (2 ^ Z.pos p))). rewrite Zfloor_div by (apply Z.pow_nonzero; lia). reflexivity.
Qed.

Lemma floor_as_u8_val x : is_finite_SF x = true -> (0 <= SF2R radix2 x)%R ->
  floor_as_u8 x = Z.to_nat (Z.min 255 (Zfloor (SF2R radix2 x))).
Proof.
  intros F P. destruct x as [s|s| |s m e]; try discriminate.
  - cbn. now rewrite (Zfloor_IZR 0).
  - destruct s.
    + exfalso. change (0 <= F2R (Float radix2 (Z.neg m) e))%R in P.
      apply (Rlt_not_le _ _ (F2R_lt_0 radix2 (Float radix2 (Z.neg m) e) eq_refl)). exact P.
    + cbn [floor_as_u8 SF2R cond_Zopp]. rewrite <- floor_pos_spec. lia.
Qed.

Lemma prec24 : Prec_gt_0 24. Proof. reflexivity. Qed.
Lemma emax24 : Prec_lt_emax 24 128. Proof. reflexivity. Qed.

Lemma fval_len n : (N.of_nat n < 16777216)%N -> fval 24 128 (f32_of_nat n) (IZR (Z.of_nat n)).
Proof.
  intros H. unfold f32_of_nat, f32_of_N. rewrite <- nat_N_Z. apply fval_int; [exact prec24|exact emax24|].
  change (2 ^ 24)%Z with 16777216%Z. lia.
Qed.

Lemma rnd_nearest32 r : rnd 24 128 r = nearest32 r.
Proof. reflexivity. Qed.

Lemma floor_ratio len x : (N.of_nat len < 16777216)%N -> ratio x ->
  floor_as_u8 (f32mul (f32_of_nat len) x) = Z.to_nat (Z.min 255 (Zfloor (nearest32 (IZR (Z.of_nat len) * real x)))).
Proof.
  intros Hl (V & F & P). pose proof (fval_len len Hl) as HL.
  assert (fval 24 128 x (real x)) as HX by (now split).
  assert (0 <= IZR (Z.of_nat len))%R as PL by (apply IZR_le; lia).
  assert (0 <= rnd 24 128 (IZR (Z.of_nat len) * real x))%R as PR.
  { rewrite <- (rnd_0 24 128 prec24 emax24). apply rnd_mono; [exact prec24|exact emax24|]. now apply Rmult_le_pos. }
  destruct (Rlt_le_dec (Rabs (rnd 24 128 (IZR (Z.of_nat len) * real x))) (bpow radix2 128)) as [R|R].
  - destruct (fval_mul 24 128 prec24 emax24 _ _ _ _ HL HX R) as (_ & F' & E). unfold rval in E. unfold f32mul.
    rewrite <- rnd_nearest32. rewrite floor_as_u8_val; [now rewrite E|exact F'|now rewrite E].
  - unfold f32mul. rewrite (mul_overflow 24 128 prec24 emax24 _ _ _ _ HL HX PL P).
    2:{ unfold in_range. intros X. lra. }
    cbn [floor_as_u8]. rewrite <- rnd_nearest32. rewrite Rabs_pos_eq in R by exact PR.
    assert (255 <= Zfloor (rnd 24 128 (IZR (Z.of_nat len) * real x)))%Z as H255.
    { apply Zfloor_lub. eapply Rle_trans; [|exact R]. change (bpow radix2 128) with (IZR (2 ^ 128)). apply IZR_le. lia. }
    rewrite Z.min_l by exact H255. reflexivity.
Qed.

Lemma nearest32_mono a b : (a <= b)%R -> (nearest32 a <= nearest32 b)%R.
Proof. rewrite <- !rnd_nearest32. apply rnd_mono; [exact prec24|exact emax24]. Qed.

Lemma floor_half len : (N.of_nat len < 9007199254740992)%N -> floor_as_u8 (fdiv (f64_of_nat len) f2) = Nat.min 255 (len / 2).
Proof.
  intros Hl. assert (dv f2 2) as D2.
  { split; [reflexivity|]. split; [reflexivity|]. unfold rval. cbn. unfold F2R. cbn [Fnum Fexp].
    replace (bpow radix2 (-51)) with (/ IZR 2251799813685248)%R by reflexivity. lra. }
  assert (dv (f64_of_nat len) (IZR (Z.of_nat len))) as HL.
  { unfold f64_of_nat. rewrite <- nat_N_Z. now apply dv_of_N. }
  assert (0 <= IZR (Z.of_nat len))%R as PL by (apply IZR_le; lia).
  assert (drnd (IZR (Z.of_nat len) / 2) = IZR (Z.of_nat len) / 2)%R as E.
  { apply round_generic; [apply valid_rnd_N|]. apply generic_format_FLT.
    exists (Float radix2 (Z.of_nat len) (-1)).
    - unfold F2R. cbn. unfold Rdiv. reflexivity.
    - cbn [Fnum]. rewrite Z.abs_eq by lia. change (radix2 ^ 53)%Z with 9007199254740992%Z. lia.
    - cbn [Fexp]. unfold emin. lia. }
  destruct (between (IZR (Z.of_nat len) / 2) _ _ HL) as [R B]; [lra|].
  destruct (fval_div 53 1024 prec53 emax53 _ _ _ _ HL D2 ltac:(lra) R) as (_ & F & E'). unfold drnd in E. rewrite E in E'. unfold rval in E'.
  unfold fdiv. rewrite floor_as_u8_val; [|exact F|rewrite E'; lra]. rewrite E'.
  rewrite (Zfloor_div (Z.of_nat len) 2) by lia. pose proof (Nat2Z.inj_div len 2) as Hd. change (Z.of_nat 2) with 2%Z in Hd. rewrite <- Hd. lia.
Qed.

Lemma limit_absolute x len : (x <= 255)%nat -> (N.of_nat len < 9007199254740992)%N ->
  effective_limit (TAbsolute x) len = Nat.min x (len / 2).
Proof. intros Hx Hl. cbn [effective_limit]. rewrite (floor_half len Hl). lia. Qed.
Lemma limit_ratio x len : (N.of_nat len < 16777216)%N -> ratio x ->
  effective_limit (TRatio x) len = Nat.min (Z.to_nat (Zfloor (nearest32 (IZR (Z.of_nat len) * real x)))) 12.
Proof. intros Hl Hx. cbn [effective_limit]. rewrite (floor_ratio len x Hl Hx). lia. Qed.
Lemma limit_ratio_with x k len : (N.of_nat len < 16777216)%N -> ratio x -> (k <= 255)%nat ->
  effective_limit (TRatioWithLimit x k) len = Nat.min (Z.to_nat (Zfloor (nearest32 (IZR (Z.of_nat len) * real x)))) k.
Proof. intros Hl Hx Hk. cbn [effective_limit]. rewrite (floor_ratio len x Hl Hx). lia. Qed.

Lemma ratio_mono x y len len' : (N.of_nat len' < 16777216)%N -> ratio x -> ratio y -> (real x <= real y)%R -> (len <= len')%nat ->
  (Zfloor (nearest32 (IZR (Z.of_nat len) * real x)) <= Zfloor (nearest32 (IZR (Z.of_nat len') * real y)))%Z.
Proof.
  intros Hl (_ & _ & Px) (_ & _ & Py) Hxy Hll. apply Zfloor_le, nearest32_mono.
  apply Rmult_le_compat; [apply IZR_le; lia|exact Px|apply IZR_le; lia|exact Hxy].
Qed.
Lemma limits_monotone x y k k' len len' :
  (N.of_nat len' < 16777216)%N -> (len <= len')%nat -> ratio x -> ratio y -> (real x <= real y)%R -> (k <= k')%nat -> (k' <= 255)%nat ->
  (effective_limit (TAbsolute k) len <= effective_limit (TAbsolute k') len')%nat /\
  (effective_limit (TRatio x) len <= effective_limit (TRatio y) len')%nat /\
  (effective_limit (TRatioWithLimit x k) len <= effective_limit (TRatioWithLimit y k') len')%nat.
Proof.
  intros Hl Hll Hx Hy Hxy Hk Hk'. pose proof (ratio_mono x y len len' Hl Hx Hy Hxy Hll) as H.
  rewrite !limit_absolute, !limit_ratio, !limit_ratio_with by (assumption || lia).
  assert (len / 2 <= len' / 2)%nat by (apply Nat.div_le_mono; lia). lia.
Qed.
