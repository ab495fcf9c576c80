(** The computed score is close to the weighted mean. *)
From Coq Require Import ZArith Reals SpecFloat Lia Lra.
From Flocq Require Import Core BinarySingleNaN Relative.
From Verif Require Import M_Base M_Float M_Types M_Search S_Search S_Float P_Float P_Score.

Definition uu : R := (/ 9007199254740992)%R.
Definition eta : R := bpow radix2 (-1075).

Lemma eta_pos : (0 <= eta)%R. Proof. apply bpow_ge_0. Qed.
Lemma eta_small (S : R) : (bpow radix2 (-1000) <= S)%R -> (eta <= S * (uu / 1000))%R.
Proof.
  intros H. apply Rle_trans with (bpow radix2 (-1000) * (uu / 1000))%R.
  - unfold eta. change (-1075)%Z with (-1000 + -75)%Z. rewrite bpow_plus. apply Rmult_le_compat_l; [apply bpow_ge_0|].
    unfold uu. replace (bpow radix2 (-75)) with (/ IZR 37778931862957161709568)%R by reflexivity. lra.
  - apply Rmult_le_compat_r; [unfold uu; lra|exact H].
Qed.

Lemma drnd_err r : (0 <= r)%R -> (r - (uu * r + eta) <= drnd r <= r + (uu * r + eta))%R.
Proof.
  intros Hr.
  destruct (error_N_FLT radix2 (-1074) 53 eq_refl (fun z => negb (Z.even z)) r) as (e & h & He & Hh & _ & E).
  change (drnd r) with (round radix2 (FLT_exp (-1074) 53) (Znearest (fun z => negb (Z.even z))) r). rewrite E.
  assert (Rabs e <= uu)%R as He'.
  { eapply Rle_trans; [exact He|]. unfold uu.
    change (bpow radix2 (- (53) + 1)) with (/ IZR 4503599627370496)%R. lra. }
  assert (Rabs h <= eta)%R as Hh'.
  { eapply Rle_trans; [exact Hh|]. unfold eta. change (-1074)%Z with (1 + -1075)%Z. rewrite bpow_plus.
    change (bpow radix2 1) with 2%R. right. field. }
  apply Rabs_le_inv in He', Hh'.
  assert (- (uu * r) <= r * e <= uu * r)%R.
  { split.
    - replace (- (uu * r))%R with (r * - uu)%R by ring. now apply Rmult_le_compat_l.
    - rewrite (Rmult_comm uu r). now apply Rmult_le_compat_l. }
  lra.
Qed.

(** sums and products of non-negative numbers, with what was rounded *)
Lemma dv_add_le' x y p q a b c e :
  dv x a -> dv y b -> dv p c -> dv q e -> (0 <= a <= c)%R -> (0 <= b <= e)%R ->
  is_fin (fadd p q) -> dv (fadd x y) (drnd (a + b)) /\ dv (fadd p q) (drnd (c + e)) /\ (0 <= drnd (a + b) <= drnd (c + e))%R.
Proof.
  intros Hx Hy (Hp & Fp & Ep) (Hq & Fq & Eq) Ha Hb F.
  destruct (add_fin_inv 53 1024 prec53 emax53 p q Hp Hq F) as (_ & _ & Ht). rewrite Ep, Eq in Ht.
  assert (0 <= drnd (a + b))%R as L1 by (rewrite <- drnd_0; apply drnd_mono; lra).
  assert (drnd (a + b) <= drnd (c + e))%R as L2 by (apply drnd_mono; lra).
  assert (in_range 53 1024 (a + b)) as Hi.
  { unfold in_range. change (rnd 53 1024) with drnd. rewrite Rabs_pos_eq by exact L1.
    eapply Rle_lt_trans; [exact L2|]. pose proof (fval_lt 53 1024 prec53 emax53 _ _ Ht) as L3.
    eapply Rle_lt_trans; [|exact L3]. apply Rle_abs. }
  split; [now apply (fval_add 53 1024 prec53 emax53 x y a b)|]. now split; [exact Ht|].
Qed.
Lemma dv_mul_unit' w c a r : dv w a -> dv c r -> (0 <= a)%R -> (0 <= r <= 1)%R ->
  dv (fmul w c) (drnd (a * r)) /\ (0 <= drnd (a * r) <= a)%R.
Proof.
  intros Hw Hc Ha Hr. assert (0 <= a * r <= a)%R as B.
  { split; [apply Rmult_le_pos; lra|]. rewrite <- (Rmult_1_r a) at 2. apply Rmult_le_compat_l; lra. }
  destruct (between (a * r) w a Hw B) as [Hi Hb]. split; [|exact Hb].
  now apply (fval_mul 53 1024 prec53 emax53 w c a r).
Qed.

Lemma mul_near a r c (k : R) : (0 <= a)%R -> (c - k <= r <= c + k)%R -> (a * c - a * k <= a * r <= a * c + a * k)%R.
Proof.
  intros Ha [H1 H2]. split.
  - replace (a * c - a * k)%R with (a * (c - k))%R by ring. now apply Rmult_le_compat_l.
  - rewrite <- Rmult_plus_distr_l. now apply Rmult_le_compat_l.
Qed.
Lemma mul_unit_le a r : (0 <= a)%R -> (0 <= r <= 1)%R -> (0 <= a * r <= a)%R.
Proof. intros Ha Hr. split; [apply Rmult_le_pos; lra|]. rewrite <- (Rmult_1_r a) at 2. apply Rmult_le_compat_l; lra. Qed.

(** the accumulated error *)
Lemma accumulated a1 a2 a3 a4 a5 r1 r2 r3 r4 c1 c2 c3 c4 x5 :
  (0 <= a1)%R -> (0 <= a2)%R -> (0 <= a3)%R -> (0 <= a4)%R -> (0 <= x5 <= a5)%R ->
  (0 <= r1 <= 1)%R -> (0 <= r2 <= 1)%R -> (0 <= r3 <= 1)%R -> (0 <= r4 <= 1)%R ->
  (0 <= c1 <= 1)%R -> (0 <= c2 <= 1)%R -> (0 <= c3 <= 1)%R -> (0 <= c4 <= 1)%R ->
  (c1 - 22 / 10 * uu <= r1 <= c1 + 22 / 10 * uu)%R -> (c2 - 22 / 10 * uu <= r2 <= c2 + 22 / 10 * uu)%R ->
  (c3 - 22 / 10 * uu <= r3 <= c3 + 22 / 10 * uu)%R -> (c4 - 22 / 10 * uu <= r4 <= c4 + 22 / 10 * uu)%R ->
  (bpow radix2 (-1000) <= a1 + a2 + a3 + a4 + a5)%R ->
  let num := drnd (drnd (drnd (drnd (drnd (a1 * r1) + drnd (a2 * r2)) + drnd (a3 * r3)) + drnd (a4 * r4)) + x5) in
  let den := drnd (drnd (drnd (drnd (a1 + a2) + a3) + a4) + a5) in
  (0 <= num <= den)%R -> (0 < den)%R ->
  (Rabs (drnd (num / den) - (a1 * c1 + a2 * c2 + a3 * c3 + a4 * c4 + x5) / (a1 + a2 + a3 + a4 + a5)) <= 16 * uu)%R.
Proof.
  intros A1 A2 A3 A4 A5 R1 R2 R3 R4 C1 C2 C3 C4 N1 N2 N3 N4 HS. cbv zeta.
  set (S := (a1 + a2 + a3 + a4 + a5)%R) in *.
  assert (0 < S)%R as SP by (eapply Rlt_le_trans; [|exact HS]; apply bpow_gt_0).
  pose proof (eta_small S HS) as HE. pose proof eta_pos as HE0.
  assert (eta <= uu / 1000)%R as HE1.
  { apply Rle_trans with (1 * (uu / 1000))%R; [|lra]. apply eta_small. change 1%R with (bpow radix2 0). apply bpow_le. lia. }
  pose proof (mul_near _ _ _ _ A1 N1) as M1. pose proof (mul_near _ _ _ _ A2 N2) as M2.
  pose proof (mul_near _ _ _ _ A3 N3) as M3. pose proof (mul_near _ _ _ _ A4 N4) as M4.
  pose proof (mul_unit_le _ _ A1 R1) as U1. pose proof (mul_unit_le _ _ A2 R2) as U2.
  pose proof (mul_unit_le _ _ A3 R3) as U3. pose proof (mul_unit_le _ _ A4 R4) as U4.
  pose proof (mul_unit_le _ _ A1 C1) as V1. pose proof (mul_unit_le _ _ A2 C2) as V2.
  pose proof (mul_unit_le _ _ A3 C3) as V3. pose proof (mul_unit_le _ _ A4 C4) as V4.
  pose proof (drnd_err _ (proj1 U1)) as D1. pose proof (drnd_err _ (proj1 U2)) as D2.
  pose proof (drnd_err _ (proj1 U3)) as D3. pose proof (drnd_err _ (proj1 U4)) as D4.
  assert (0 <= drnd (a1 * r1))%R as P1 by (rewrite <- drnd_0; now apply drnd_mono).
  assert (0 <= drnd (a2 * r2))%R as P2 by (rewrite <- drnd_0; now apply drnd_mono).
  assert (0 <= drnd (a3 * r3))%R as P3 by (rewrite <- drnd_0; now apply drnd_mono).
  assert (0 <= drnd (a4 * r4))%R as P4 by (rewrite <- drnd_0; now apply drnd_mono).
  set (x1 := drnd (a1 * r1)) in *. set (x2 := drnd (a2 * r2)) in *. set (x3 := drnd (a3 * r3)) in *. set (x4 := drnd (a4 * r4)) in *.
  assert (0 <= x1 + x2)%R as Q1 by lra. pose proof (drnd_err _ Q1) as E1.
  assert (0 <= drnd (x1 + x2))%R as Q1' by (rewrite <- drnd_0; now apply drnd_mono).
  set (y1 := drnd (x1 + x2)) in *.
  assert (0 <= y1 + x3)%R as Q2 by lra. pose proof (drnd_err _ Q2) as E2.
  assert (0 <= drnd (y1 + x3))%R as Q2' by (rewrite <- drnd_0; now apply drnd_mono).
  set (y2 := drnd (y1 + x3)) in *.
  assert (0 <= y2 + x4)%R as Q3 by lra. pose proof (drnd_err _ Q3) as E3.
  assert (0 <= drnd (y2 + x4))%R as Q3' by (rewrite <- drnd_0; now apply drnd_mono).
  set (y3 := drnd (y2 + x4)) in *.
  assert (0 <= y3 + x5)%R as Q4 by lra. pose proof (drnd_err _ Q4) as E4.
  set (y4 := drnd (y3 + x5)) in *.
  assert (0 <= a1 + a2)%R as T1 by lra. pose proof (drnd_err _ T1) as G1.
  assert (0 <= drnd (a1 + a2))%R as T1' by (rewrite <- drnd_0; now apply drnd_mono).
  set (t1 := drnd (a1 + a2)) in *.
  assert (0 <= t1 + a3)%R as T2 by lra. pose proof (drnd_err _ T2) as G2.
  assert (0 <= drnd (t1 + a3))%R as T2' by (rewrite <- drnd_0; now apply drnd_mono).
  set (t2 := drnd (t1 + a3)) in *.
  assert (0 <= t2 + a4)%R as T3 by lra. pose proof (drnd_err _ T3) as G3.
  assert (0 <= drnd (t2 + a4))%R as T3' by (rewrite <- drnd_0; now apply drnd_mono).
  set (t3 := drnd (t2 + a4)) in *.
  assert (0 <= t3 + a5)%R as T4 by lra. pose proof (drnd_err _ T4) as G4.
  set (t4 := drnd (t3 + a5)) in *.
  intros B4 L4.
  assert (uu = / 9007199254740992)%R as EU by reflexivity.
  set (N := (a1 * c1 + a2 * c2 + a3 * c3 + a4 * c4 + x5)%R).
  assert (0 <= N <= S)%R as BN by (unfold N, S; lra).
  assert (N - 8 * uu * S <= y4 <= N + 8 * uu * S)%R as KN.
  { clear - A1 A2 A3 A4 A5 M1 M2 M3 M4 U1 U2 U3 U4 V1 V2 V3 V4 D1 D2 D3 D4 E1 E2 E3 E4 HE HE0 EU P1 P2 P3 P4 SP.
    clearbody x1 x2 x3 x4 y1 y2 y3 y4. unfold N. rewrite EU in *. unfold S in *. lra. }
  assert (S - 5 * uu * S <= t4 <= S + 5 * uu * S)%R as KT.
  { clear - A1 A2 A3 A4 A5 G1 G2 G3 G4 HE HE0 EU SP. clearbody t1 t2 t3 t4. rewrite EU in *. unfold S in *. lra. }
  set (y := (y4 / t4)%R). set (z := (N / S)%R).
  assert (y4 = y * t4)%R as Ey by (unfold y; field; lra).
  assert (N = z * S)%R as Ez by (unfold z; field; lra).
  assert (0 <= y <= 1)%R as By.
  { split; [unfold y; apply Rmult_le_pos; [lra|]; left; now apply Rinv_0_lt_compat|].
    apply Rmult_le_reg_r with t4; [lra|]. rewrite <- Ey. lra. }
  assert (- (5 * uu * S) <= y * (t4 - S) <= 5 * uu * S)%R as KY.
  { assert (0 <= uu * S)%R by (apply Rmult_le_pos; [rewrite EU; lra|lra]).
    split.
    - apply Rle_trans with (y * - (5 * uu * S))%R; [|apply Rmult_le_compat_l; lra].
      assert (y * (5 * uu * S) <= 1 * (5 * uu * S))%R by (apply Rmult_le_compat_r; lra). lra.
    - apply Rle_trans with (y * (5 * uu * S))%R; [apply Rmult_le_compat_l; lra|].
      assert (y * (5 * uu * S) <= 1 * (5 * uu * S))%R by (apply Rmult_le_compat_r; lra). lra. }
  assert ((y - z) * S = (y4 - N) - y * (t4 - S))%R as Ed by (rewrite Ey at 1; rewrite Ez; ring).
  assert (- (13 * uu) <= y - z <= 13 * uu)%R as Kd.
  { split; apply Rmult_le_reg_r with S; [lra| |lra|]; rewrite Ed; lra. }
  pose proof (drnd_err y (proj1 By)) as Dy.
  assert (uu * y <= uu)%R by (rewrite <- (Rmult_1_r uu) at 2; apply Rmult_le_compat_l; [rewrite EU; lra|lra]).
  assert (0 < uu)%R by (rewrite EU; lra).
  apply Rabs_le. fold y. fold z. lra.
Qed.

Lemma part_near n len : (n <= N.of_nat len)%N -> (0 < len)%nat -> (N.of_nat len < 9007199254740992)%N ->
  exists r, dv (fdiv (f64_of_N n) (f64_of_nat len)) r /\ (0 <= r <= 1)%R /\ (0 <= part n len <= 1)%R /\
    (part n len - 11 / 10 * uu <= r <= part n len + 11 / 10 * uu)%R.
Proof.
  intros Hn Hl Hb. unfold f64_of_nat.
  destruct (dv_of_frac n (N.of_nat len)) as (r & Hr & Br & E); [exact Hn|lia|exact Hb|].
  exists r. split; [exact Hr|]. split; [exact Br|].
  assert (part n len = IZR (Z.of_N n) / IZR (Z.of_N (N.of_nat len)))%R as EP by (unfold part; now rewrite nat_N_Z).
  assert (0 < IZR (Z.of_N (N.of_nat len)))%R as Hp by (apply IZR_lt; lia).
  assert (0 <= part n len <= 1)%R as BP.
  { rewrite EP. split; [apply Rmult_le_pos; [apply IZR_le; lia|left; now apply Rinv_0_lt_compat]|].
    apply Rmult_le_reg_r with (IZR (Z.of_N (N.of_nat len))); [exact Hp|]. unfold Rdiv. rewrite Rmult_assoc, Rinv_l by lra.
    rewrite Rmult_1_l, Rmult_1_r. apply IZR_le. lia. }
  split; [exact BP|]. rewrite E, <- EP. pose proof (drnd_err _ (proj1 BP)) as D.
  assert (eta <= uu / 1000)%R.
  { apply Rle_trans with (1 * (uu / 1000))%R; [|lra]. apply eta_small. change 1%R with (bpow radix2 0). apply bpow_le. lia. }
  assert (uu * part n len <= uu)%R.
  { rewrite <- (Rmult_1_r uu) at 2. apply Rmult_le_compat_l; [unfold uu; lra|lra]. }
  assert (0 < uu)%R by (unfold uu; lra). lra.
Qed.

Lemma score_close w len d : weights_ok w -> (bpow radix2 (-1000) <= total_weight w)%R ->
  (0 < len)%nat -> (N.of_nat len < 9007199254740992)%N -> measured len d ->
  (Rabs (real (distance_score w len d) - similarity w len d) <= bpow radix2 (-49))%R.
Proof.
  intros Hw HS Hl Hb (M2 & M3 & M4).
  replace (bpow radix2 (-49)) with (16 * uu)%R.
  2:{ unfold uu. replace (bpow radix2 (-49)) with (/ IZR 562949953421312)%R by reflexivity. lra. }
  destruct (part_near _ _ M2 Hl Hb) as (r2 & H2 & B2 & C2 & N2).
  destruct (part_near _ _ M3 Hl Hb) as (r3 & H3 & B3 & C3 & N3).
  destruct (part_near _ _ M4 Hl Hb) as (r4 & H4 & B4 & C4 & N4).
  assert (0 < uu)%R as HU by (unfold uu; lra).
  assert (exists r1, dv (if (len <? d_ld d)%nat then f0 else fsub f1 (fdiv (f64_of_nat (d_ld d)) (f64_of_nat len))) r1 /\
    (0 <= r1 <= 1)%R /\ (0 <= Rmax 0 (1 - part (N.of_nat (d_ld d)) len) <= 1)%R /\
    (Rmax 0 (1 - part (N.of_nat (d_ld d)) len) - 22 / 10 * uu <= r1 <= Rmax 0 (1 - part (N.of_nat (d_ld d)) len) + 22 / 10 * uu)%R)
    as (r1 & H1 & B1 & C1 & N1).
  { destruct (Nat.ltb_spec len (d_ld d)) as [L|L].
    - exists 0%R. split; [exact dv_f0|]. assert (1 < part (N.of_nat (d_ld d)) len)%R.
      { unfold part. rewrite nat_N_Z. assert (0 < IZR (Z.of_nat len))%R by (apply IZR_lt; lia).
        apply Rmult_lt_reg_r with (IZR (Z.of_nat len)); [assumption|]. unfold Rdiv. rewrite Rmult_assoc, Rinv_l by lra.
        rewrite Rmult_1_l, Rmult_1_r. apply IZR_lt. lia. }
      rewrite Rmax_left by lra. lra.
    - destruct (part_near (N.of_nat (d_ld d)) len ltac:(lia) Hl Hb) as (r & Hr & Br & Cr & Nr).
      destruct (between (1 - r) f1 1 dv_f1) as [Hi Hb1]; [lra|].
      exists (drnd (1 - r)). split; [now apply (fval_sub 53 1024 prec53 emax53 f1 _ 1 r dv_f1 Hr)|]. split; [exact Hb1|].
      rewrite Rmax_right by lra. split; [lra|].
      assert (0 <= 1 - r)%R as P by lra. pose proof (drnd_err _ P) as D.
      assert (eta <= uu / 1000)%R.
      { apply Rle_trans with (1 * (uu / 1000))%R; [|lra]. apply eta_small. change 1%R with (bpow radix2 0). apply bpow_le. lia. }
      assert (uu * (1 - r) <= uu)%R.
      { rewrite <- (Rmult_1_r uu) at 2. apply Rmult_le_compat_l; lra. }
      lra. }
  destruct (weight_doubles w Hw) as ((D1 & D2 & D3 & D4 & D5) & P1 & P2 & P3 & P4 & P5).
  destruct (sum_parts w Hw) as (F1 & F2 & F3 & Fs & G1 & G2 & G3 & G4 & G5).
  assert (forall x, double x -> is_fin x -> fle f0 x = true -> dv x (real x) /\ (0 <= real x)%R) as WV.
  { intros x D F P. assert (dv x (real x)) as H by (split; [exact D|split; [exact F|reflexivity]]). split; [exact H|].
    now apply (dv_fle f0 x 0 (real x) dv_f0 H). }
  destruct (WV _ D1 G1 P1) as [V1 Q1]. destruct (WV _ D2 G2 P2) as [V2 Q2]. destruct (WV _ D3 G3 P3) as [V3 Q3].
  destruct (WV _ D4 G4 P4) as [V4 Q4]. destruct (WV _ D5 G5 P5) as [V5 Q5].
  assert (dv (if d_samecase d then w_case w else f0) (if d_samecase d then real (w_case w) else 0%R)) as H5.
  { destruct (d_samecase d); [exact V5|exact dv_f0]. }
  assert (0 <= (if d_samecase d then real (w_case w) else 0) <= real (w_case w))%R as B5 by (destruct (d_samecase d); lra).
  destruct (dv_mul_unit' _ _ _ _ V1 H1 Q1 B1) as (X1 & Y1). destruct (dv_mul_unit' _ _ _ _ V2 H2 Q2 B2) as (X2 & Y2).
  destruct (dv_mul_unit' _ _ _ _ V3 H3 Q3 B3) as (X3 & Y3). destruct (dv_mul_unit' _ _ _ _ V4 H4 Q4 B4) as (X4 & Y4).
  destruct (dv_add_le' _ _ _ _ _ _ _ _ X1 X2 V1 V2 Y1 Y2 F1) as (A1 & T1 & L1).
  destruct (dv_add_le' _ _ _ _ _ _ _ _ A1 X3 T1 V3 L1 Y3 F2) as (A2 & T2 & L2).
  destruct (dv_add_le' _ _ _ _ _ _ _ _ A2 X4 T2 V4 L2 Y4 F3) as (A3 & T3 & L3).
  destruct (dv_add_le' _ _ _ _ _ _ _ _ A3 H5 T3 V5 L3 B5 Fs) as (A4 & T4 & L4).
  destruct Hw as (_ & Hpos & _).
  change (fadd (fadd (fadd (fadd (w_ld w) (w_lcs w)) (w_prefix w)) (w_suffix w)) (w_case w)) with (weights_sum w) in T4.
  apply (dv_flt _ _ _ _ dv_f0 T4) in Hpos.
  match type of A4 with dv _ ?n => match type of T4 with dv _ ?t =>
    assert (0 <= n / t <= 1)%R as BD; [|destruct (between (n / t) f1 1 dv_f1 BD) as [Hi _];
      assert (t <> 0)%R as Ht by lra; pose proof (fval_div 53 1024 prec53 emax53 _ _ _ _ A4 T4 Ht Hi) as (_ & _ & ER)] end end.
  { split; [apply Rmult_le_pos; [apply L4|left; now apply Rinv_0_lt_compat]|].
    match goal with |- (_ / ?t <= 1)%R => apply Rmult_le_reg_r with t; [exact Hpos|]; unfold Rdiv; rewrite Rmult_assoc, Rinv_l by lra end.
    rewrite Rmult_1_l, Rmult_1_r. apply L4. }
  unfold real at 1. unfold rval in ER. unfold distance_score. cbv zeta. unfold fdiv at 1. rewrite ER.
  unfold similarity, total_weight.
  apply (accumulated _ _ _ _ _ r1 r2 r3 r4); try assumption; try lra.
Qed.
