(** A solver and logarithms that are accurate, for the examples. *)
From Coq Require Import ZArith Reals SpecFloat Lra Psatz.
From Flocq Require Import Core BinarySingleNaN Relative.
From Verif Require Import M_Base M_Utf8 M_Float M_Types M_Model M_Search M_Text M_Matches S_Model S_Search S_Matches S_Float S_Cover.
From Verif Require Import P_Base P_Float P_Score P_Accuracy P_Limit P_Order P_Share P_Matches P_Solver P_Cover.
From stdpp Require Import options.

(** * A solver *)
(** the cheapest path first *)
Fixpoint front (x : list arc) (l : list (list arc)) : list (list arc) :=
  match l with
  | [] => [x]
  | y :: l' => match front y l' with
               | [] => [x]
               | z :: r => if flt (path_weight z) (path_weight x) then z :: x :: r else x :: z :: r
               end
  end.
Definition cheap_front (l : list (list arc)) : list (list arc) := match l with [] => [] | x :: l' => front x l' end.
Lemma front_perm l : forall x, Permutation (front x l) (x :: l).
Proof.
  induction l as [|y l IH]; intros x; [done|]. cbn [front]. specialize (IH y). destruct (front y l) as [|z r].
  - apply Permutation_nil in IH. done.
  - destruct (flt _ _); [rewrite Permutation_swap|]; by rewrite IH.
Qed.
Lemma cheap_front_order : some_order cheap_front.
Proof. intros [|x l]; [done|]. apply front_perm. Qed.
Lemma front_least l : forall x, Forall (fun l => weight_single (path_weight l)) (x :: l) ->
  exists z r, front x l = z :: r /\ Forall (fun y => (real (path_weight z) <= real (path_weight y))%R) (x :: l).
Proof.
  induction l as [|y l IH]; intros x F; [exists x, []; split; [done|]; repeat constructor; lra|]. apply Forall_cons in F as [Fx F].
  destruct (IH y F) as (z & r & Ez & Fz). cbn [front]. rewrite Ez.
  assert (weight_single (path_weight z)) as Wz.
  { rewrite Forall_forall in F. apply F. rewrite <- (front_perm l y), Ez. left. }
  destruct (flt (path_weight z) (path_weight x)) eqn:E.
  - exists z, (x :: r). split; [done|]. constructor; [|done]. apply weight_flt in E; [lra|done|done].
  - exists x, (z :: r). split; [done|]. constructor; [lra|]. eapply Forall_impl; [exact Fz|]. intros q Q. cbn beta in *.
    apply (weight_nlt _ _ Fx Wz) in E. lra.
Qed.
Lemma rnd32_rel x : (1 <= x)%R -> (Rabs (rnd 24 128 x - x) <= / 16777216 * x)%R.
Proof.
  intros Hx. assert (bpow radix2 (-149 + 24 - 1) <= Rabs x)%R as L.
  { rewrite Rabs_pos_eq by lra. apply Rle_trans with (bpow radix2 0); [apply bpow_le; lia|exact Hx]. }
  pose proof (relative_error_N_FLT radix2 (-149) 24 eq_refl (fun z => negb (Z.even z)) x L) as Q.
  rewrite (Rabs_pos_eq x) in Q by lra. change (bpow radix2 (- (24) + 1)) with (/ IZR 8388608)%R in Q.
  change (rnd 24 128 x) with (round radix2 (FLT_exp (-149) 24) (Znearest (fun z => negb (Z.even z))) x). lra.
Qed.
Lemma path_weight_about g s l t : ordinary g -> route (f_arcs g) s l t -> (N.of_nat (length l) <= 1000)%N ->
  weight_single (path_weight l) /\ (0 <= cost_of l <= 100 * IZR (Z.of_nat (length l)))%R /\
  (Rabs (real (path_weight l) - cost_of l) <= IZR (Z.of_nat (length l)) / 16700000 * cost_of l)%R.
Proof.
  intros Ho R. induction R as [s|a l t Hin R IH]; intros L.
  - split; [apply nought|]. change (cost_of []) with 0%R. change (length (@nil arc)) with 0. split; [change (Z.of_nat 0) with 0%Z; lra|].
    change (real (path_weight [])) with (real f0). rewrite (proj2 nought). rewrite Rminus_0_r, Rabs_R0. lra.
  - destruct IH as (W & B & A); [cbn [length] in L; lia|]. destruct (Ho a Hin) as (_ & _ & Wa & Ba).
    change (path_weight (a :: l)) with (f32add (a_cost a) (path_weight l)). change (cost_of (a :: l)) with (real (a_cost a) + cost_of l)%R.
    change (length (a :: l)) with (S (length l)) in *. rewrite Nat2Z.inj_succ. unfold Z.succ. rewrite plus_IZR.
    assert (0 <= IZR (Z.of_nat (length l)) <= 999)%R as Bn by (split; apply IZR_le; lia).
    set (n := IZR (Z.of_nat (length l))) in *. set (c := cost_of l) in *. set (w := real (path_weight l)) in *. set (x := real (a_cost a)) in *.
    assert (n / 16700000 * c <= c / 10000)%R as Sm by nra. apply Rabs_le_inv in A.
    assert (1 <= x + w <= 200000)%R as Bs by (split; nra).
    destruct (in_range_between 24 128 prec24 emax24 (x + w) (f32_of_nat (N.to_nat 200000)) 200000) as [I [I1 I2]].
    { pose proof (fval_len (N.to_nat 200000)) as V. rewrite N_nat_Z in V. apply V. lia. }
    { lra. }
    pose proof (fval_add 24 128 prec24 emax24 _ _ _ _ (single_val _ Wa) (single_val _ W) I) as V.
    change rval with real in V. fold x w in V. destruct (single_weight _ _ V I1) as [W' E]. split; [exact W'|]. split; [lra|].
    unfold f32add. rewrite E. pose proof (rnd32_rel (x + w) ltac:(lra)) as Q. apply Rabs_le_inv in Q.
    assert (x + w <= (x + c) * (1 + / 10000))%R as U by lra.
    assert (n / 16700000 * c <= n / 16700000 * (x + c))%R as M by (apply Rmult_le_compat_l; lra).
    apply Rabs_le. unfold Rdiv in *. split; nra.
Qed.
Lemma route_small g s l t : ordinary g -> route (f_arcs g) s l t -> (N.of_nat s <= 1000)%N -> (N.of_nat t <= 1000)%N.
Proof. intros Ho R. induction R as [s|a l t Hin R IH]; intros L; [done|]. apply IH. by destruct (Ho a Hin) as (_ & ? & _). Qed.
Lemma ordinary_path g n l : ordinary g -> l ∈ paths n (f_arcs g) (f_final g) 0 ->
  exists t, route (f_arcs g) 0 l t /\ t ∈ f_final g /\ weight_single (path_weight l) /\ about (real (path_weight l)) (cost_of l).
Proof.
  intros Ho H. apply paths_sound in H as (t & R & Ht). exists t. split; [done|]. split; [done|].
  assert (N.of_nat (length l) <= 1000)%N as L.
  { pose proof (forward_length (f_arcs g) 0 l t (fun a H => proj1 (Ho a H)) R) as Ll. pose proof (route_small g 0 l t Ho R ltac:(lia)). lia. }
  destruct (path_weight_about g 0 l t Ho R L) as (W & B & A). split; [done|]. unfold about.
  eapply Rle_trans; [exact A|]. assert (0 <= IZR (Z.of_nat (length l)) <= 1000)%R by (split; apply IZR_le; lia). nra.
Qed.
Lemma cheapest g l t : ordinary g -> route (f_arcs g) 0 l t -> t ∈ f_final g ->
  exists z r, cheap_front (paths (list_max (f_final g)) (f_arcs g) (f_final g) 0) = z :: r /\ (real (path_weight z) <= cost_of l * (1 + / 10000))%R.
Proof.
  intros Ho R Ht. assert (l ∈ paths (list_max (f_final g)) (f_arcs g) (f_final g) 0) as Hin.
  { apply (paths_complete _ _ _ _ t R Ht). pose proof (forward_length (f_arcs g) 0 l t (fun a H => proj1 (Ho a H)) R) as L.
    assert (t <= list_max (f_final g)); [|lia]. pose proof (proj1 (list_max_le (f_final g) (list_max (f_final g))) ltac:(lia)) as M.
    rewrite List.Forall_forall in M. apply M. by apply elem_of_list_In. }
  destruct (ordinary_path g _ l Ho Hin) as (_ & _ & _ & _ & A). apply Rabs_le_inv in A.
  assert (Forall (fun l => weight_single (path_weight l)) (paths (list_max (f_final g)) (f_arcs g) (f_final g) 0)) as F.
  { apply Forall_forall. intros y Hy. by destruct (ordinary_path g _ y Ho Hy) as (_ & _ & _ & W & _). }
  destruct (paths _ _ _ _) as [|x ls]; [by inversion Hin|]. destruct (front_least ls x F) as (z & r & Ez & Fz). exists z, r. split; [exact Ez|].
  rewrite Forall_forall in Fz. specialize (Fz l Hin). lra.
Qed.
Lemma cheap_solver_accurate : solver_accurate (some_solver cheap_front).
Proof.
  split.
  - intros g n labels w Ho H. unfold some_solver in H. apply elem_of_list_In, in_map_iff in H as (l & [= <- <-] & H).
    apply elem_of_list_In, elem_of_take in H as (i & H & _). apply elem_of_list_lookup_2 in H. rewrite (cheap_front_order (paths _ _ _ _)) in H.
    destruct (ordinary_path g _ l Ho H) as (t & R & Ht & W & A). by exists l, t.
  - intros g n l t Ho Hn R Ht. destruct (cheapest g l t Ho R Ht) as (z & r & Ez & Lz). exists (written z), (path_weight z). split; [|done].
    unfold some_solver. rewrite Ez. destruct n as [|n]; [lia|]. left.
Qed.
Lemma cheap_solver_first : cheapest_first (some_solver cheap_front).
Proof.
  intros g n x rest l t Ho E R Ht. destruct (cheapest g l t Ho R Ht) as (z & r & Ez & Lz). unfold some_solver in E. rewrite Ez in E.
  destruct n as [|n]; [done|]. injection E as <- _. done.
Qed.


(** * Logarithms *)
Definition near_log (prec emax : Z) (x : spec_float) : spec_float :=
  SpecFloat.binary_normalize prec emax (Zfloor (Rpower.ln (real x) * IZR (2 ^ 30))) (-30) false.
Lemma log_bounds (e k : Z) x : (bpow radix2 e <= x <= bpow radix2 k)%R -> (IZR e * Rpower.ln 2 <= Rpower.ln x <= IZR k * Rpower.ln 2)%R.
Proof.
  intros [L U]. pose proof (bpow_gt_0 radix2 e) as P. assert (forall z, Rpower.ln (bpow radix2 z) = IZR z * Rpower.ln 2)%R as E.
  { intros z. rewrite bpow_exp. rewrite ln_exp. done. }
  rewrite <- !E. split.
  - destruct (Req_dec x (bpow radix2 e)) as [->|N]; [lra|]. apply Rlt_le, ln_increasing; lra.
  - destruct (Req_dec x (bpow radix2 k)) as [->|N]; [lra|]. apply Rlt_le, ln_increasing; lra.
Qed.
Lemma ln2_bounds : (0 <= Rpower.ln 2 <= 1)%R.
Proof.
  split; [pose proof ln_lt_2; lra|]. rewrite <- (ln_exp 1). destruct (Req_dec 2 (exp 1)) as [->|N]; [lra|].
  apply Rlt_le, ln_increasing; [lra|]. pose proof (exp_ineq1_le 1). lra.
Qed.
Section near.
  Context (prec emax : Z) (Hprec : Prec_gt_0 prec) (Hmax : Prec_lt_emax prec emax) (Hlarge : (11 <= prec)%Z) (Hsmall : (emax + prec <= 2047)%Z).
  #[local] Set Default Proof Using "All".
  Lemma near_log_ok x r : fval prec emax x r -> (0 < r)%R -> exists r', fval prec emax (near_log prec emax x) r' /\
    (Rabs (r' - Rpower.ln r) <= bpow radix2 (-30) + bpow radix2 (- prec) * (IZR (emax + prec) + 1) + bpow radix2 (3 - emax - prec))%R.
  Proof.
    intros (Nx & Fx & Ex) Pr. change (real x = r) in Ex. unfold near_log. rewrite Ex.
    assert (Rabs (Rpower.ln r) <= IZR (emax + prec))%R as Bl.
    { apply (to_bf prec emax Hprec Hmax) in Nx as [b <-]. apply (bf_fin prec emax Hprec Hmax) in Fx. change (rval (B2SF b) = r) in Ex. rewrite (bf_rval prec emax Hprec Hmax) in Ex.
      pose proof (abs_B2R_lt_emax _ _ b) as U. assert (is_finite_strict b = true) as S.
      { destruct b; [cbn in Ex; lra|done|done|done]. }
      pose proof (abs_B2R_ge_emin _ _ b S) as L. rewrite Ex, Rabs_pos_eq in L, U by lra.
      destruct (log_bounds (SpecFloat.emin prec emax) emax r) as [L1 U1]; [lra|]. pose proof ln2_bounds as B2.
      unfold SpecFloat.emin in L1. unfold Prec_gt_0, Prec_lt_emax in *.
      assert (0 <= IZR emax)%R by (apply IZR_le; lia). assert (0 <= IZR prec)%R by (apply IZR_le; lia). rewrite !minus_IZR in L1. rewrite plus_IZR.
      apply Rabs_le. split; nra. }
    set (z := Zfloor (Rpower.ln r * IZR (2 ^ 30))). set (v := F2R (Float radix2 z (-30))).
    assert (v <= Rpower.ln r < v + bpow radix2 (-30))%R as Bv.
    { unfold v, F2R. cbn [Fnum Fexp]. pose proof (Zfloor_lb (Rpower.ln r * IZR (2 ^ 30))) as Q1. pose proof (Zfloor_ub (Rpower.ln r * IZR (2 ^ 30))) as Q2.
      fold z in Q1, Q2. change (bpow radix2 (-30)) with (/ IZR (2 ^ 30))%R. assert (0 < IZR (2 ^ 30))%R as Pp by (apply IZR_lt; lia).
      split.
      - apply Rmult_le_reg_r with (IZR (2 ^ 30)); [done|]. rewrite Rmult_assoc, Rinv_l by lra. lra.
      - apply Rmult_lt_reg_r with (IZR (2 ^ 30)); [done|]. rewrite Rmult_plus_distr_r, Rmult_assoc, Rinv_l by lra. lra. }
    assert (bpow radix2 (-30) <= / 1000000000)%R as T.
    { change (bpow radix2 (-30)) with (/ IZR 1073741824)%R. lra. }
    pose proof (bpow_gt_0 radix2 (-30)) as T0.
    assert (Rabs v <= IZR (emax + prec) + 1)%R as Bv'. { apply Rabs_le_inv in Bl. apply Rabs_le. lra. }
    assert (IZR (emax + prec) <= 2047)%R as B47 by (apply IZR_le; lia).
    assert (in_range prec emax v) as I.
    { unfold in_range. apply Rle_lt_trans with (bpow radix2 11).
      - apply abs_round_le_generic; [apply FLT_exp_valid; done|apply valid_rnd_N| |change (bpow radix2 11) with 2048%R; lra].
        apply generic_format_bpow. unfold SpecFloat.fexp, SpecFloat.emin. unfold Prec_lt_emax in *. lia.
      - apply bpow_lt. unfold Prec_lt_emax in *. lia. }
    pose proof (fval_normalize prec emax Hprec Hmax z (-30) false I) as V. exists (rnd prec emax v). split; [exact V|].
    destruct (error_N_FLT radix2 (3 - emax - prec) prec Hprec (fun z => negb (Z.even z)) v) as (e & h & He & Hh & _ & E).
    change (rnd prec emax v) with (round radix2 (FLT_exp (3 - emax - prec) prec) (Znearest (fun z => negb (Z.even z))) v). rewrite E.
    replace (/ 2 * bpow radix2 (- prec + 1))%R with (bpow radix2 (- prec)) in He.
    2: { rewrite bpow_plus. change (bpow radix2 1) with 2%R. field. }
    pose proof (bpow_gt_0 radix2 (- prec)) as T1. pose proof (bpow_gt_0 radix2 (3 - emax - prec)) as T2.
    assert (Rabs (v * e) <= bpow radix2 (- prec) * (IZR (emax + prec) + 1))%R as Q.
    { rewrite Rabs_mult, Rmult_comm. apply Rmult_le_compat; [apply Rabs_pos|apply Rabs_pos|exact He|exact Bv']. }
    apply Rabs_le_inv in Q, Hh. apply Rabs_le. replace (v * (1 + e) + h)%R with (v + v * e + h)%R by ring. lra.
  Qed.
End near.
Lemma near_log_accurate : log_accurate (near_log 53 1024).
Proof.
  intros x D F P. destruct (near_log_ok 53 1024 prec53 emax53 ltac:(lia) ltac:(lia) x (real x) ltac:(done) P) as (r & (N & F' & E) & B).
  split; [done|]. split; [done|]. change (rval (near_log 53 1024 x)) with (real (near_log 53 1024 x)) in E. rewrite E. eapply Rle_trans; [exact B|].
  assert (bpow radix2 (3 - 1024 - 53) <= bpow radix2 (-60))%R as L by (apply bpow_le; lia).
  change (bpow radix2 (-60)) with (/ IZR 1152921504606846976)%R in L.
  change (bpow radix2 (-30)) with (/ IZR 1073741824)%R. change (bpow radix2 (- (53))) with (/ IZR 9007199254740992)%R. change (1024 + 53)%Z with 1077%Z. lra.
Qed.
Lemma near_log32_accurate : log32_accurate (near_log 24 128).
Proof.
  intros x D F P. destruct (near_log_ok 24 128 prec24 emax24 ltac:(lia) ltac:(lia) x (real x) ltac:(done) P) as (r & (N & F' & E) & B).
  split; [done|]. split; [done|]. change (rval (near_log 24 128 x)) with (real (near_log 24 128 x)) in E. rewrite E. eapply Rle_trans; [exact B|].
  assert (bpow radix2 (3 - 128 - 24) <= bpow radix2 (-60))%R as L by (apply bpow_le; lia).
  change (bpow radix2 (-60)) with (/ IZR 1152921504606846976)%R in L.
  change (bpow radix2 (-30)) with (/ IZR 1073741824)%R. change (bpow radix2 (- (24))) with (/ IZR 16777216)%R. change (128 + 24)%Z with 152%Z. lra.
Qed.
