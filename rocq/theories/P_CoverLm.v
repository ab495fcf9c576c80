(** A search with a language model that leaves a word out. *)
From Coq Require Import ZArith Reals SpecFloat Lra Psatz.
From Flocq Require Import Core BinarySingleNaN.
From Coq Require String Ascii.
From Verif Require Import M_Base M_Utf8 M_Anahash M_Float M_Types M_Model M_Values M_Search M_Text M_Rules M_Matches M_Options M_Python M_Cli.
From Verif Require Import S_Model S_Search S_Matches S_Float S_SearchAll S_Cover.
From Verif Require Import P_Base P_Float P_Score P_Accuracy P_Limit P_Order P_Share P_Matches P_Solver P_Cover P_CoverCase.
From stdpp Require Import options.
Import String.StringSyntax Ascii.AsciiSyntax.
#[local] Arguments lit s%string_scope.

(** * Sums in sixteenths *)
Lemma grid k : (Z.abs k <= 10000)%Z -> drnd (IZR k / 16) = (IZR k / 16)%R.
Proof.
  intros H. unfold drnd. apply round_generic; [apply valid_rnd_N|].
  replace (IZR k / 16)%R with (F2R (Float radix2 k (-4))); [|unfold F2R; cbn [Fnum Fexp]; change (bpow radix2 (-4)) with (/ IZR 16)%R; lra].
  apply generic_format_FLT. exists (Float radix2 k (-4)); [done| |]; cbn [Fnum Fexp]; [change (radix2 ^ 53)%Z with 9007199254740992%Z; lia|unfold SpecFloat.emin; lia].
Qed.
Lemma near r lo hi : (Z.abs lo <= 10000)%Z -> (Z.abs hi <= 10000)%Z -> (IZR lo / 16 <= r <= IZR hi / 16)%R ->
  in_range 53 1024 r /\ (IZR lo / 16 <= drnd r <= IZR hi / 16)%R.
Proof.
  intros Hl Hh B. assert (IZR lo / 16 <= drnd r <= IZR hi / 16)%R as B'.
  { rewrite <- (grid lo Hl), <- (grid hi Hh) at 1. split; apply drnd_mono; lra. }
  split; [|done]. unfold in_range. fold (drnd r). apply Rle_lt_trans with 1000%R.
  - assert (-10000 <= IZR lo)%R by (apply IZR_le; lia). assert (IZR hi <= 10000)%R by (apply IZR_le; lia). apply Rabs_le. lra.
  - change 1000%R with (IZR 1000). apply Rlt_le_trans with (bpow radix2 10); [change (bpow radix2 10) with (IZR 1024); apply IZR_lt; lia|apply bpow_le; lia].
Qed.
Lemma add_near x y a b lo hi : dv x a -> dv y b -> (Z.abs lo <= 10000)%Z -> (Z.abs hi <= 10000)%Z -> (IZR lo / 16 <= a + b <= IZR hi / 16)%R ->
  exists c, dv (fadd x y) c /\ (IZR lo / 16 <= c <= IZR hi / 16)%R.
Proof. intros Hx Hy Hl Hh B. destruct (near _ _ _ Hl Hh B) as [I B']. exists (drnd (a + b)). split; [|done]. by apply (fval_add 53 1024 prec53 emax53). Qed.
Lemma mul_near x y a b lo hi : dv x a -> dv y b -> (Z.abs lo <= 10000)%Z -> (Z.abs hi <= 10000)%Z -> (IZR lo / 16 <= a * b <= IZR hi / 16)%R ->
  exists c, dv (fmul x y) c /\ (IZR lo / 16 <= c <= IZR hi / 16)%R.
Proof. intros Hx Hy Hl Hh B. destruct (near _ _ _ Hl Hh B) as [I B']. exists (drnd (a * b)). split; [|done]. by apply (fval_mul 53 1024 prec53 emax53). Qed.
Lemma div_near x y a b lo hi : dv x a -> dv y b -> (0 < b)%R -> (Z.abs lo <= 10000)%Z -> (Z.abs hi <= 10000)%Z ->
  (IZR lo / 16 * b <= a <= IZR hi / 16 * b)%R -> exists c, dv (fdiv x y) c /\ (IZR lo / 16 <= c <= IZR hi / 16)%R.
Proof.
  intros Hx Hy Pb Hl Hh B. assert (IZR lo / 16 <= a / b <= IZR hi / 16)%R as B1.
  { split; apply Rmult_le_reg_r with b; [done| |done|]; replace (a / b * b)%R with a by (field; lra); lra. }
  destruct (near _ _ _ Hl Hh B1) as [I B']. exists (drnd (a / b)). split; [|done]. apply (fval_div 53 1024 prec53 emax53); [done|done|lra|done].
Qed.
(** the weights 1, 3 and 1 *)
Lemma mean_near x1 x2 x3 a b c lo1 hi1 lo2 hi2 lo3 hi3 lo hi : dv x1 a -> dv x2 b -> dv x3 c ->
  (IZR lo1 / 16 <= a <= IZR hi1 / 16)%R -> (IZR lo2 / 16 <= 3 * b <= IZR hi2 / 16)%R -> (IZR lo3 / 16 <= c <= IZR hi3 / 16)%R ->
  Forall (fun k => Z.abs k <= 1000)%Z [lo1; hi1; lo2; hi2; lo3; hi3; lo; hi] -> (5 * lo <= lo1 + lo2 + lo3)%Z -> (hi1 + hi2 + hi3 <= 5 * hi)%Z ->
  exists r, dv (weighted_mean f32_1 (S754_finite false 12582912 (-22)) f32_1 x1 x2 x3) r /\ (IZR lo / 16 <= r <= IZR hi / 16)%R.
Proof.
  intros H1 H2 H3 B1 B2 B3 F L U. repeat (apply Forall_cons in F as [? F]). unfold weighted_mean.
  change (to_f64 f32_1) with f1. change (to_f64 (S754_finite false 12582912 (-22))) with (f64_of_N 3).
  change (fadd (fadd f1 (f64_of_N 3)) f1) with (f64_of_N 5).
  destruct (mul_near f1 x1 1 a lo1 hi1 dv_f1 H1) as (a' & Ha & Ba); [lia|lia|lra|].
  destruct (mul_near (f64_of_N 3) x2 3 b lo2 hi2 (dv_of_N 3 ltac:(lia)) H2) as (b' & Hb & Bb); [lia|lia|lra|].
  destruct (mul_near f1 x3 1 c lo3 hi3 dv_f1 H3) as (c' & Hc & Bc); [lia|lia|lra|].
  destruct (add_near _ _ _ _ (lo1 + lo2) (hi1 + hi2) Ha Hb) as (d & Hd & Bd); [lia|lia|rewrite !plus_IZR; lra|]. rewrite !plus_IZR in Bd.
  destruct (add_near _ _ _ _ (lo1 + lo2 + lo3) (hi1 + hi2 + hi3) Hd Hc) as (e & He & Be); [lia|lia|rewrite !plus_IZR; lra|].
  apply IZR_le in L, U. rewrite mult_IZR in L, U.
  apply (div_near _ _ e 5 lo hi He (dv_of_N 5 ltac:(lia))); [lra|lia|lia|]. split; lra.
Qed.

(** * Logarithms *)
Lemma log_ineq x : (0 < x)%R -> (1 - / x <= Rpower.ln x <= x - 1)%R.
Proof.
  intros P. assert (forall y, 0 < y -> Rpower.ln y <= y - 1)%R as U.
  { intros y Py. pose proof (exp_ineq1_le (Rpower.ln y)) as Q. rewrite exp_ln in Q by done. lra. }
  split; [|by apply U]. pose proof (U (/ x)%R ltac:(by apply Rinv_0_lt_compat)) as Q. rewrite ln_Rinv in Q by done. lra.
Qed.
Lemma ln2_near : (/ 8 + / 7 + / 6 + / 5 <= Rpower.ln 2 <= / 7 + / 6 + / 5 + / 4)%R.
Proof.
  replace 2%R with (8 / 7 * (7 / 6) * (6 / 5) * (5 / 4))%R by lra. rewrite !ln_mult by lra.
  pose proof (log_ineq (8 / 7) ltac:(lra)). pose proof (log_ineq (7 / 6) ltac:(lra)). pose proof (log_ineq (6 / 5) ltac:(lra)).
  pose proof (log_ineq (5 / 4) ltac:(lra)).
  replace (/ (8 / 7))%R with (7 / 8)%R in * by lra. replace (/ (7 / 6))%R with (6 / 7)%R in * by lra.
  replace (/ (6 / 5))%R with (5 / 6)%R in * by lra. replace (/ (5 / 4))%R with (4 / 5)%R in * by lra. lra.
Qed.
Lemma log_one ln : log_accurate ln -> exists r, dv (ln f1) r /\ (- / 16 <= r <= / 16)%R.
Proof.
  intros H. destruct dv_f1 as (N & F & E). change (real f1 = 1%R) in E. destruct (H f1 N F ltac:(lra)) as (D & Fi & A).
  rewrite E, ln_1 in A. apply Rabs_le_inv in A. exists (real (ln f1)). split; [by split|lra].
Qed.
Lemma log_between ln m e i j : log_accurate ln -> double (S754_finite false m e) ->
  (bpow radix2 i <= real (S754_finite false m e) <= bpow radix2 j)%R ->
  exists r, dv (ln (S754_finite false m e)) r /\ (IZR i * Rpower.ln 2 - / 100000 <= r <= IZR j * Rpower.ln 2 + / 100000)%R.
Proof.
  intros H D B. pose proof (bpow_gt_0 radix2 i). destruct (H _ D eq_refl ltac:(lra)) as (D' & Fi & A).
  destruct (log_bounds i j _ B) as [L U]. apply Rabs_le_inv in A. exists (real (ln (S754_finite false m e))). split; [by split|lra].
Qed.
(** a number with 53 bits *)
Lemma size_between m e : (4503599627370496 <= Zpos m <= 9007199254740992)%Z ->
  (bpow radix2 (52 + e) <= real (S754_finite false m e) <= bpow radix2 (53 + e))%R.
Proof.
  intros B. change (real (S754_finite false m e)) with (IZR (Zpos m) * bpow radix2 e)%R. rewrite !bpow_plus. pose proof (bpow_gt_0 radix2 e).
  change (bpow radix2 52) with (IZR 4503599627370496). change (bpow radix2 53) with (IZR 9007199254740992).
  destruct B as [L%IZR_le U%IZR_le].
  split; apply (Rmult_le_compat_r (bpow radix2 e)); try done; by apply Rlt_le.
Qed.

(** * Choice *)
Lemma mls_choice ln32 ln ws solve m p ms bs e f fs s0 ss arcs seqs best :
  final_states bs e = f :: fs -> all_arcs (p_freq_weight p) bs 1 0 ms = Ok (s0 :: ss, arcs) ->
  rmapM (path_sequence ln32 ws m p bs (dummy_symbol :: s0 :: ss)) (solve (Fst (S (length bs)) (f :: fs) (arcs ++ failsafe_arcs bs)) (p_max_seq p)) = Ok seqs ->
  choose (sequence_score ln m p (foldl (update_bests (use_lm m p)) (initial_bests (length bs)) seqs)) worst_score None seqs = Some best ->
  most_likely_sequence ln32 ln ws solve m p ms bs e = selected_matches ms best.
Proof. intros E1 E2 E3 E4. unfold most_likely_sequence. rewrite E1, E2. cbn [rbind]. rewrite E3. cbn [rbind]. rewrite E4. done. Qed.
(** the second of four is chosen if it alone scores high *)
Lemma choose_second score s1 s2 s3 s4 b0 :
  flt (score s1) (score s2) = true -> flt (score s2) (score s3) = false -> flt (score s2) (score s4) = false ->
  choose score b0 None [s1; s2; s3; s4] = Some s2.
Proof. intros H1 H2 H3. cbn [choose]. unfold fgt. rewrite orb_true_r. change SFltb with flt. rewrite H1. cbn [orb]. rewrite H2. cbn [orb]. rewrite H3. done. Qed.
