(** Proofs about the scores. *)
From Coq Require Import Lia Reals Lra.
From Verif Require Import M_Base M_Anahash M_Iter M_Distance M_Float M_Types M_Model M_Confusable M_Search.
From Verif Require Import S_Anahash S_Iter S_Distance S_Model S_Search P_Float.
From stdpp Require Import options.

Lemma prec53 : FLX.Prec_gt_0 53. Proof. done. Qed.
Lemma emax53 : BinarySingleNaN.Prec_lt_emax 53 1024. Proof. done. Qed.
#[export] Hint Resolve prec53 emax53 : core.

(** [dv x r]: the double [x] is finite and has the value [r]. *)
Definition dv (x : f64) (r : R) : Prop := fval 53 1024 x r.
Definition drnd (r : R) : R := rnd 53 1024 r.

Lemma dv_f1 : dv f1 1.
Proof. split; [done|]. split; [done|]. unfold rval. cbn. unfold Defs.F2R. cbn [Defs.Fnum Defs.Fexp].
  replace (Raux.bpow Zaux.radix2 (-52)) with (/ IZR 4503599627370496)%R by reflexivity. lra. Qed.
Lemma dv_f0 : dv f0 0.
Proof. by split. Qed.
Lemma drnd_1 : drnd 1 = 1%R.
Proof. by apply (rnd_fval 53 1024 prec53 emax53 f1), dv_f1. Qed.
Lemma drnd_0 : drnd 0 = 0%R.
Proof. apply rnd_0; done. Qed.
Lemma drnd_dv x r : dv x r -> drnd r = r.
Proof. apply rnd_fval; done. Qed.
Lemma drnd_mono a b : (a <= b)%R -> (drnd a <= drnd b)%R.
Proof. apply rnd_mono; done. Qed.

Lemma dv_fle x y a b : dv x a -> dv y b -> fle x y = true <-> (a <= b)%R.
Proof.
  intros (Hx & Nx & Ex)%(fval_ext _ _ prec53 emax53) (Hy & Ny & Ey)%(fval_ext _ _ prec53 emax53).
  unfold fle. rewrite (le_ext 53 1024 prec53 emax53) by done. by rewrite Ex, Ey.
Qed.
Lemma dv_flt x y a b : dv x a -> dv y b -> flt x y = true <-> (a < b)%R.
Proof.
  intros (Hx & Nx & Ex)%(fval_ext _ _ prec53 emax53) (Hy & Ny & Ey)%(fval_ext _ _ prec53 emax53).
  unfold flt. rewrite (lt_ext 53 1024 prec53 emax53) by done. by rewrite Ex, Ey.
Qed.
Lemma dv_double x r : dv x r -> double x.
Proof. by intros (? & _). Qed.
Lemma dv_inj x y r : dv x r -> dv y r -> r <> 0%R -> x = y.
Proof. apply fval_inj; done. Qed.

Lemma between r z u : dv z u -> (0 <= r <= u)%R -> in_range 53 1024 r /\ (0 <= drnd r <= u)%R.
Proof. apply in_range_between; done. Qed.

(** whole numbers *)
Lemma dv_of_N n : (n < 9007199254740992)%N -> dv (f64_of_N n) (IZR (Z.of_N n)).
Proof. intros H. apply fval_int; [done|done|]. change (2 ^ 53)%Z with 9007199254740992%Z. lia. Qed.

(** quotients of whole numbers *)
Lemma dv_div_unit x y a b : dv x a -> dv y b -> (0 <= a <= b)%R -> (0 < b)%R ->
  exists r, dv (fdiv x y) r /\ (0 <= r <= 1)%R /\ r = drnd (a / b).
Proof.
  intros Hx Hy Ha Hb. destruct (between (a / b) f1 1 dv_f1) as [Hr Hb1].
  { split; [apply Rmult_le_pos; [lra|]; left; by apply Rinv_0_lt_compat|].
    apply Rmult_le_reg_r with b; [done|]. unfold Rdiv. rewrite Rmult_assoc, Rinv_l by lra. lra. }
  eexists. split; [apply (fval_div 53 1024 prec53 emax53 x y a b); (done || lra)|]. done.
Qed.
Lemma dv_of_frac a b : (a <= b)%N -> (0 < b)%N -> (b < 9007199254740992)%N ->
  exists r, dv (fdiv (f64_of_N a) (f64_of_N b)) r /\ (0 <= r <= 1)%R /\ r = drnd (IZR (Z.of_N a) / IZR (Z.of_N b)).
Proof.
  intros H1 H2 H3. apply dv_div_unit.
  - apply dv_of_N. lia.
  - by apply dv_of_N.
  - split; apply IZR_le; lia.
  - apply IZR_lt. lia.
Qed.

(** products with a number from 0 to 1 *)
Lemma dv_mul_unit w c a r : dv w a -> dv c r -> (0 <= a)%R -> (0 <= r <= 1)%R ->
  exists x, dv (fmul w c) x /\ (0 <= x <= a)%R.
Proof.
  intros Hw Hc Ha Hr. destruct (between (a * r) w a Hw) as [Hi Hb].
  { split; [apply Rmult_le_pos; lra|]. rewrite <- (Rmult_1_r a) at 2. apply Rmult_le_compat_l; lra. }
  eexists. split; [by apply (fval_mul 53 1024 prec53 emax53 w c a r)|done].
Qed.

(** one more summand, below and above *)
Lemma dv_add_le x y p q a b c e :
  dv x a -> dv y b -> dv p c -> dv q e -> (0 <= a <= c)%R -> (0 <= b <= e)%R ->
  is_fin (fadd p q) -> exists s t, dv (fadd x y) s /\ dv (fadd p q) t /\ (0 <= s <= t)%R.
Proof.
  intros Hx Hy (Hp & Fp & Ep) (Hq & Fq & Eq) Ha Hb F.
  destruct (add_fin_inv 53 1024 prec53 emax53 p q Hp Hq F) as (_ & _ & Ht). rewrite Ep, Eq in Ht.
  assert (in_range 53 1024 (a + b) /\ (0 <= drnd (a + b) <= drnd (c + e))%R) as [Hi Hs].
  { assert (0 <= drnd (a + b))%R as L1 by (rewrite <- drnd_0; apply drnd_mono; lra).
    assert (drnd (a + b) <= drnd (c + e))%R as L2 by (apply drnd_mono; lra).
    split; [|done]. unfold in_range. change (rnd 53 1024) with drnd. rewrite Rabs_pos_eq by done.
    eapply Rle_lt_trans; [exact L2|]. pose proof (fval_lt 53 1024 prec53 emax53 _ _ Ht) as L3.
    eapply Rle_lt_trans; [|exact L3]. apply Rle_abs. }
  eexists _, _. split; [by apply (fval_add 53 1024 prec53 emax53 x y a b)|]. by split; [exact Ht|].
Qed.

Section weights.
  Context (w : weights) (Hw : weights_ok w).
  #[local] Set Default Proof Using "All".

  (** all weights and partial sums are finite *)
  Definition s1 := fadd (w_ld w) (w_lcs w).
  Definition s2 := fadd s1 (w_prefix w).
  Definition s3 := fadd s2 (w_suffix w).

  Lemma weight_doubles :
    (double (w_ld w) /\ double (w_lcs w) /\ double (w_prefix w) /\ double (w_suffix w) /\ double (w_case w)) /\
    fle f0 (w_ld w) = true /\ fle f0 (w_lcs w) = true /\ fle f0 (w_prefix w) = true /\
    fle f0 (w_suffix w) = true /\ fle f0 (w_case w) = true.
  Proof.
    destruct Hw as [H _]. repeat setoid_rewrite Forall_cons in H. destruct H as ([] & [] & [] & [] & [] & _). done.
  Qed.

  Lemma sum_parts :
    is_fin s1 /\ is_fin s2 /\ is_fin s3 /\ is_fin (weights_sum w) /\
    is_fin (w_ld w) /\ is_fin (w_lcs w) /\ is_fin (w_prefix w) /\ is_fin (w_suffix w) /\ is_fin (w_case w).
  Proof.
    destruct weight_doubles as ((D1 & D2 & D3 & D4 & D5) & _). destruct Hw as (_ & Hpos & Hinf).
    assert (is_fin (weights_sum w)) as F.
    { apply (pos_fin 53 1024 prec53 emax53); [|exact Hinf]. revert Hpos. unfold flt. by destruct (weights_sum w) as [|[]| |[]]. }
    assert (double s1) as E1 by (by apply valid_add). assert (double s2) as E2 by (by apply valid_add).
    assert (double s3) as E3 by (by apply valid_add).
    destruct (add_fin_inv 53 1024 prec53 emax53 s3 (w_case w) E3 D5 F) as (F3 & Fc & _).
    destruct (add_fin_inv 53 1024 prec53 emax53 s2 (w_suffix w) E2 D4 F3) as (F2 & Fs & _).
    destruct (add_fin_inv 53 1024 prec53 emax53 s1 (w_prefix w) E1 D3 F2) as (F1 & Fp & _).
    destruct (add_fin_inv 53 1024 prec53 emax53 (w_ld w) (w_lcs w) D1 D2 F1) as (Fl & Fcs & _). done.
  Qed.

  Lemma weight_value x : double x -> is_fin x -> fle f0 x = true -> exists r, dv x r /\ (0 <= r)%R.
  Proof.
    intros D F P. exists (rval x). assert (dv x (rval x)) as H by done. split; [done|].
    by apply (dv_fle f0 x 0 (rval x) dv_f0 H).
  Qed.

  Lemma score_parts c1 c2 c3 c4 c5 r1 r2 r3 r4 r5 :
    dv c1 r1 -> dv c2 r2 -> dv c3 r3 -> dv c4 r4 -> (0 <= r1 <= 1)%R -> (0 <= r2 <= 1)%R -> (0 <= r3 <= 1)%R ->
    (0 <= r4 <= 1)%R -> dv c5 r5 -> (0 <= r5 <= rval (w_case w))%R ->
    unit_score (fdiv (fadd (fadd (fadd (fadd (fmul (w_ld w) c1) (fmul (w_lcs w) c2)) (fmul (w_prefix w) c3))
         (fmul (w_suffix w) c4)) c5) (weights_sum w)).
  Proof.
    intros H1 H2 H3 H4 B1 B2 B3 B4 H5 B5.
    destruct weight_doubles as ((D1 & D2 & D3 & D4 & D5) & P1 & P2 & P3 & P4 & P5).
    destruct sum_parts as (F1 & F2 & F3 & Fs & G1 & G2 & G3 & G4 & G5).
    destruct (weight_value _ D1 G1 P1) as (v1 & V1 & Q1). destruct (weight_value _ D2 G2 P2) as (v2 & V2 & Q2).
    destruct (weight_value _ D3 G3 P3) as (v3 & V3 & Q3). destruct (weight_value _ D4 G4 P4) as (v4 & V4 & Q4).
    assert (dv (w_case w) (rval (w_case w))) as V5 by done.
    destruct (dv_mul_unit _ _ _ _ V1 H1 Q1 B1) as (x1 & X1 & Y1). destruct (dv_mul_unit _ _ _ _ V2 H2 Q2 B2) as (x2 & X2 & Y2).
    destruct (dv_mul_unit _ _ _ _ V3 H3 Q3 B3) as (x3 & X3 & Y3). destruct (dv_mul_unit _ _ _ _ V4 H4 Q4 B4) as (x4 & X4 & Y4).
    destruct (dv_add_le _ _ _ _ _ _ _ _ X1 X2 V1 V2 Y1 Y2 F1) as (a1 & t1 & A1 & T1 & L1).
    destruct (dv_add_le _ _ _ _ _ _ _ _ A1 X3 T1 V3 L1 Y3 F2) as (a2 & t2 & A2 & T2 & L2).
    destruct (dv_add_le _ _ _ _ _ _ _ _ A2 X4 T2 V4 L2 Y4 F3) as (a3 & t3 & A3 & T3 & L3).
    destruct (dv_add_le _ _ _ _ _ _ _ _ A3 H5 T3 V5 L3 B5 Fs) as (a4 & t4 & A4 & T4 & L4).
    destruct Hw as (_ & Hpos & _). fold (weights_sum w) in T4.
    apply (dv_flt _ _ _ _ dv_f0 T4) in Hpos.
    destruct (dv_div_unit _ _ _ _ A4 T4 L4 Hpos) as (r & Hr & Br & _).
    split; [by eapply dv_double|]. split.
    - apply (dv_fle _ _ _ _ dv_f0 Hr). lra.
    - apply (dv_fle _ _ _ _ Hr dv_f1). lra.
  Qed.

  Lemma score_unit len d : 0 < len -> (N.of_nat len < 9007199254740992)%N -> measured len d ->
    unit_score (distance_score w len d).
  Proof.
    intros Hl Hb (M1 & M2 & M3). unfold distance_score. cbv zeta. unfold f64_of_nat.
    assert (0 < N.of_nat len)%N as Hp by lia.
    destruct (dv_of_frac (d_lcs d) (N.of_nat len)) as (r2 & H2 & B2 & _); [done..|].
    destruct (dv_of_frac (d_prefixlen d) (N.of_nat len)) as (r3 & H3 & B3 & _); [done..|].
    destruct (dv_of_frac (d_suffixlen d) (N.of_nat len)) as (r4 & H4 & B4 & _); [done..|].
    assert (exists r1, dv (if (len <? d_ld d)%nat then f0
        else fsub f1 (fdiv (f64_of_N (N.of_nat (d_ld d))) (f64_of_N (N.of_nat len)))) r1 /\ (0 <= r1 <= 1)%R) as (r1 & H1 & B1).
    { destruct (Nat.ltb_spec len (d_ld d)); [exists 0%R; split; [exact dv_f0|lra]|].
      destruct (dv_of_frac (N.of_nat (d_ld d)) (N.of_nat len)) as (r & Hr & Br & _); [lia|done..|].
      destruct (between (1 - r) f1 1 dv_f1) as [Hi Hb1]; [lra|].
      eexists. split; [by apply (fval_sub 53 1024 prec53 emax53 f1 _ 1 r dv_f1 Hr)|]. exact Hb1. }
    assert (exists r5, dv (if d_samecase d then w_case w else f0) r5 /\ (0 <= r5 <= rval (w_case w))%R) as (r5 & H5 & B5).
    { destruct weight_doubles as ((_ & _ & _ & _ & D5) & _ & _ & _ & _ & P5).
      destruct sum_parts as (_ & _ & _ & _ & _ & _ & _ & _ & G5).
      destruct (weight_value _ D5 G5 P5) as (v5 & V5 & Q5). assert (rval (w_case w) = v5) as E by apply V5.
      destruct (d_samecase d); [exists v5; split; [exact V5|lra]|exists 0%R; split; [exact dv_f0|lra]]. }
    by eapply score_parts.
  Qed.

  (** ** exact matches *)
  Lemma fmul_1_r x : double x -> is_fin x -> fmul x f1 = x.
  Proof.
    intros D F. assert (dv x (rval x)) as H by done. destruct (Req_dec (rval x) 0) as [E|E].
    - destruct x as [s| | |s mx ex]; [by destruct s|done..|]. exfalso. unfold rval in E. cbn in E.
      apply Float_prop.eq_0_F2R in E. by destruct s.
    - apply (dv_inj _ _ (rval x)); [|done|done]. rewrite <- (drnd_dv x (rval x) H). rewrite <- (Rmult_1_r (rval x)) at 1.
      apply (fval_mul 53 1024 prec53 emax53 x f1 (rval x) 1 H dv_f1). rewrite Rmult_1_r. unfold in_range.
      change (rnd 53 1024) with drnd. rewrite (drnd_dv x _ H). exact (fval_lt 53 1024 prec53 emax53 _ _ H).
  Qed.
  Lemma fdiv_self x r : dv x r -> r <> 0%R -> fdiv x x = f1.
  Proof.
    intros H E. apply (dv_inj _ _ 1%R); [|exact dv_f1|lra]. rewrite <- drnd_1 at 1. rewrite <- (Rinv_r r E).
    apply (fval_div 53 1024 prec53 emax53 x x r r H H E). unfold Rdiv. rewrite Rinv_r by done. unfold in_range.
    change (rnd 53 1024) with drnd. rewrite drnd_1. rewrite Rabs_R1.
    pose proof (fval_lt 53 1024 prec53 emax53 _ _ dv_f1) as L. by rewrite Rabs_R1 in L.
  Qed.
  Lemma frac_self n : (0 < n)%N -> (n < 9007199254740992)%N -> fdiv (f64_of_N n) (f64_of_N n) = f1.
  Proof.
    intros H1 H2. eapply fdiv_self; [by apply dv_of_N|]. apply IZR_neq. lia.
  Qed.
  Lemma frac_zero n : (0 < n)%N -> (n < 9007199254740992)%N -> fdiv (f64_of_N 0) (f64_of_N n) = f0.
  Proof.
    intros H1 H2. change (f64_of_N 0) with f0. destruct (dv_of_N n H2) as (_ & F & E).
    destruct (f64_of_N n) as [s| | |s mx ex] eqn:En; [|done|done|].
    - exfalso. change (rval (S754_zero s)) with 0%R in E. symmetry in E. apply eq_IZR_R0 in E. lia.
    - destruct s; [|done]. exfalso.
      change (rval (S754_finite true mx ex)) with (Defs.F2R (Defs.Float Zaux.radix2 (Z.neg mx) ex)) in E.
      assert (Defs.F2R (Defs.Float Zaux.radix2 (Z.neg mx) ex) < 0)%R as L by (by apply Float_prop.F2R_lt_0).
      assert (0 < IZR (Z.of_N n))%R by (apply IZR_lt; lia). lra.
  Qed.

  (** a component is complete, or has no weight and was not computed *)
  Lemma component x c n : double x -> is_fin x -> fle f0 x = true -> (0 < n)%N -> (n < 9007199254740992)%N ->
    c = (if fgt x f0 then n else 0%N) -> fmul x (fdiv (f64_of_N c) (f64_of_N n)) = x.
  Proof.
    intros D F P H1 H2 ->. destruct (fgt x f0) eqn:G.
    - rewrite frac_self by done. by apply fmul_1_r.
    - rewrite frac_zero by done. revert P G. unfold fgt, fle. by destruct x as [[]|[]| |[]].
  Qed.

  Lemma exact_score len d : 0 < len -> (N.of_nat len < 9007199254740992)%N ->
    d_ld d = 0 -> d_lcs d = (if fgt (w_lcs w) f0 then N.of_nat len else 0%N) ->
    d_prefixlen d = (if fgt (w_prefix w) f0 then N.of_nat len else 0%N) ->
    d_suffixlen d = (if fgt (w_suffix w) f0 then N.of_nat len else 0%N) -> d_samecase d = true ->
    distance_score w len d = f1.
  Proof.
    intros Hl Hb E1 E2 E3 E4 E5. unfold distance_score. cbv zeta. unfold f64_of_nat. rewrite E1, E5.
    assert (0 < N.of_nat len)%N as Hp by lia.
    destruct weight_doubles as ((D1 & D2 & D3 & D4 & D5) & P1 & P2 & P3 & P4 & P5).
    destruct sum_parts as (F1 & F2 & F3 & Fs & G1 & G2 & G3 & G4 & G5).
    rewrite (component (w_lcs w) _ (N.of_nat len) D2 G2 P2 Hp Hb E2).
    rewrite (component (w_prefix w) _ (N.of_nat len) D3 G3 P3 Hp Hb E3).
    rewrite (component (w_suffix w) _ (N.of_nat len) D4 G4 P4 Hp Hb E4).
    destruct (Nat.ltb_spec len 0); [lia|]. change (N.of_nat 0) with 0%N. rewrite (frac_zero (N.of_nat len) Hp Hb).
    change (fsub f1 f0) with f1. rewrite (fmul_1_r _ D1 G1). fold (weights_sum w).
    change (fdiv (weights_sum w) (weights_sum w) = f1).
    destruct Hw as (_ & Hpos & _).
    assert (dv (weights_sum w) (rval (weights_sum w))) as HH.
    { split; [|done]. repeat apply valid_add; done. }
    eapply fdiv_self; [exact HH|]. apply (dv_flt _ _ _ _ dv_f0 HH) in Hpos. lra.
  Qed.
End weights.

(** A unit score is not NaN. *)
Lemma unit_not_nan x : unit_score x -> fis_nan x = false.
Proof. intros (_ & H & _). by destruct x. Qed.
