(** Proofs about conversions of numbers. *)
From Coq Require Import ZArith Reals SpecFloat Lia Lra.
From Flocq Require Import Core BinarySingleNaN.
From Verif Require Import M_Base M_Float M_Python S_Float S_Number P_Float.
From stdpp Require Import options.

#[local] Instance p53 : Prec_gt_0 53 := eq_refl.
#[local] Instance e53 : Prec_lt_emax 53 1024 := eq_refl.
#[local] Instance p24 : Prec_gt_0 24 := eq_refl.
#[local] Instance e24 : Prec_lt_emax 24 128 := eq_refl.

Section one.
  Context (prec emax : Z) (Hp : Prec_gt_0 prec) (He : Prec_lt_emax prec emax).
  #[local] Set Default Proof Using "All".
  (** what [binary_normalize] gives *)
  Lemma normalize_cases m e s : let r := F2R (Float radix2 m e) in let x := SpecFloat.binary_normalize prec emax m e s in
    let neg := match Rcompare r 0 with Eq => s | Lt => true | Gt => false end in
    is_num prec emax x /\
    ((Rabs (rnd prec emax r) < bpow radix2 emax)%R /\ is_finite_SF x = true /\ SF2R radix2 x = rnd prec emax r /\ sign_SF x = neg \/
     (bpow radix2 emax <= Rabs (rnd prec emax r))%R /\ x = S754_infinity (Rlt_bool r 0)).
  Proof.
    cbv zeta. split; [apply valid_normalize; assumption|]. rewrite (binary_normalize_equiv prec emax Hp He).
    generalize (binary_normalize_correct prec emax Hp He mode_NE m e s). cbv zeta.
    change (round radix2 (SpecFloat.fexp prec emax) (round_mode mode_NE)) with (rnd prec emax).
    destruct (Rlt_bool_spec (Rabs (rnd prec emax (F2R (Float radix2 m e)))) (bpow radix2 emax)) as [L|L].
    - intros (E & F & G). left. split; [exact L|]. rewrite is_finite_SF_B2SF, SF2R_B2SF. split; [exact F|]. split; [exact E|].
      rewrite <- G. by destruct (BinarySingleNaN.binary_normalize prec emax Hp He mode_NE m e s).
    - intros E. right. split; [exact L|]. exact E.
  Qed.
  Lemma same_float x y : is_num prec emax x -> is_num prec emax y -> is_finite_SF x = true -> is_finite_SF y = true ->
    SF2R radix2 x = SF2R radix2 y -> sign_SF x = sign_SF y -> x = y.
  Proof.
    intros Hx Hy Fx Fy E S. apply (to_bf prec emax Hp He) in Hx as [u <-]. apply (to_bf prec emax Hp He) in Hy as [v <-].
    f_equal. rewrite is_finite_SF_B2SF in Fx, Fy. rewrite !SF2R_B2SF in E. apply B2R_Bsign_inj; [done..|].
    by destruct u, v.
  Qed.
End one.

Lemma finite_value s m e : F2R (Float radix2 (cond_Zopp s (Zpos m)) e) = SF2R radix2 (S754_finite s m e).
Proof. done. Qed.
Lemma finite_sign s m e : Rcompare (SF2R radix2 (S754_finite s m e)) 0 = if s then Lt else Gt.
Proof.
  cbn. destruct s; [apply Rcompare_Lt, F2R_lt_0|apply Rcompare_Gt, F2R_gt_0]; done.
Qed.
Lemma finite_neg s m e : Rlt_bool (SF2R radix2 (S754_finite s m e)) 0 = s.
Proof. unfold Rlt_bool. rewrite finite_sign. by destruct s. Qed.

(** ** Narrowing *)
Lemma narrow_spec x y : to_f32 x = y <-> narrowed x y.
Proof.
  assert (forall s y, S754_zero s = y <-> narrowed (S754_zero s) y) as Zero.
  { intros s z. split.
    - intros <-. apply nw_near; try done. unfold nearest32, real. cbn. symmetry. by apply round_0, valid_rnd_N.
    - intros [F|_ V F E S|_ B E]; [done| |].
      + unfold nearest32, real in E. cbn in E. rewrite round_0 in E by apply valid_rnd_N. symmetry. apply (same_float 24 128 p24 e24); done.
      + unfold nearest32, real in B. cbn [SF2R] in B. rewrite round_0 in B by apply valid_rnd_N. rewrite Rabs_R0 in B. pose proof (bpow_gt_0 radix2 128). lra. }
  destruct x as [s|s| |s m e]; cbn [to_f32]; [apply Zero|split; [intros <-; by apply nw_special|by intros [F E|F|F]]..|].
  destruct (normalize_cases 24 128 p24 e24 (cond_Zopp s (Zpos m)) e s) as [V C]. rewrite finite_value in C. rewrite finite_sign, finite_neg in C.
  set (z := SpecFloat.binary_normalize 24 128 (cond_Zopp s (Zpos m)) e s) in *.
  set (x := S754_finite s m e) in *. change (rnd 24 128 (SF2R radix2 x)) with (nearest32 (real x)) in C.
  split.
  - intros <-. destruct C as [(L & F & E & S)|[L E]]; [apply nw_near; try done|by apply nw_over]. rewrite S. cbn. by destruct s.
  - intros H. destruct C as [(L & F & E & S)|[L E]].
    + destruct H as [G|_ V' F' E' S'|_ B E']; [done| |exfalso; lra].
      apply (same_float 24 128 p24 e24); try done; [by rewrite E|]. rewrite S, S'. cbn. by destruct s.
    + destruct H as [G|_ V' F' E' S'|_ B E']; [done| |by rewrite E, E'].
      exfalso. apply (to_bf 24 128 p24 e24) in V' as [b <-]. unfold real in E'. rewrite SF2R_B2SF in E'. change (SF2R radix2 x) with (real x) in E'. rewrite <- E' in L.
      pose proof (abs_B2R_lt_emax 24 128 b). lra.
Qed.
Lemma narrow_valid x : valid_binary 53 1024 x = true -> valid_binary 24 128 (to_f32 x) = true.
Proof. intros H. destruct x; try done. apply (valid_normalize 24 128 p24 e24). Qed.
(** ** Widening and narrowing *)
Lemma widen_exact x : valid_binary 24 128 x = true -> is_finite_SF x = true ->
  valid_binary 53 1024 (to_f64 x) = true /\ is_finite_SF (to_f64 x) = true /\ SF2R radix2 (to_f64 x) = SF2R radix2 x /\ sign_SF (to_f64 x) = sign_SF x.
Proof.
  intros Hs Fx. destruct x as [s|s| |s mx ex]; try done. cbn [to_f64].
  destruct (normalize_cases 53 1024 p53 e53 (cond_Zopp s (Zpos mx)) ex s) as [V C]. rewrite finite_value in C. rewrite finite_sign, finite_neg in C.
  set (r := SF2R radix2 (S754_finite s mx ex)) in *. split; [exact V|].
  change (bounded 24 128 mx ex = true) in Hs. pose proof (abs_B2R_lt_emax 24 128 (B754_finite s mx ex Hs)) as Hlt.
  change (B2R (B754_finite s mx ex Hs)) with r in Hlt.
  assert (rnd 53 1024 r = r) as Er.
  { apply round_generic; [apply valid_rnd_N|]. apply generic_format_FLT. exists (Float radix2 (cond_Zopp s (Z.pos mx)) ex); [done| |].
    - apply andb_prop in Hs as [Hc _]. unfold SpecFloat.canonical_mantissa in Hc. apply Zeq_bool_eq in Hc. unfold SpecFloat.fexp, SpecFloat.emin in Hc.
      cbn. change (Z.pow_pos 2 53) with (2 ^ 53)%Z. rewrite abs_cond_Zopp.
      pose proof (Zpower_gt_Zdigits radix2 53 (Z.pos mx)) as Z. cbn [Z.abs] in *. apply Z. rewrite <- Digits.Zpos_digits2_pos. lia.
    - apply andb_prop in Hs as [Hc _]. unfold SpecFloat.canonical_mantissa in Hc. apply Zeq_bool_eq in Hc. unfold SpecFloat.fexp, SpecFloat.emin in Hc. cbn. unfold SpecFloat.emin. lia. }
  rewrite Er in C. destruct C as [(L & F & E & S)|[L E]].
  - split; [done|]. split; [done|]. rewrite S. cbn. by destruct s.
  - exfalso. pose proof (bpow_lt radix2 128 1024 ltac:(lia)). lra.
Qed.
Lemma widen_valid x : valid_binary 24 128 x = true -> valid_binary 53 1024 (to_f64 x) = true.
Proof. intros H. destruct (is_finite_SF x) eqn:F; [by apply widen_exact|]. by destruct x. Qed.
Lemma narrow_widen x : valid_binary 24 128 x = true -> to_f32 (to_f64 x) = x.
Proof.
  intros H. apply narrow_spec. destruct (is_finite_SF x) eqn:F; [|apply nw_special; by destruct x].
  destruct (widen_exact x H F) as (_ & F' & E & S). apply nw_near; try done. unfold real, nearest32. rewrite E.
  apply (to_bf 24 128 p24 e24) in H as [b <-]. rewrite SF2R_B2SF. symmetry. apply round_generic; [apply valid_rnd_N|]. apply (generic_format_B2R 24 128 b).
Qed.

(** ** Whole numbers *)
Lemma int_spec z x : float_of_int z = Some x <-> double_of z x.
Proof.
  unfold float_of_int. destruct (normalize_cases 53 1024 p53 e53 z 0 false) as [V C].
  assert (F2R (Float radix2 z 0) = IZR z) as E0 by (unfold F2R; cbn; ring). rewrite E0 in C.
  change (rnd 53 1024 (IZR z)) with (nearest64 (IZR z)) in C. set (y := SpecFloat.binary_normalize 53 1024 z 0 false) in *.
  assert (match Rcompare (IZR z) 0 with Eq => false | Lt => true | Gt => false end = (z <? 0)%Z) as ES.
  { destruct (Rcompare_spec (IZR z) 0) as [L|L|L]; [apply lt_IZR in L|apply eq_IZR in L|apply lt_IZR in L]; symmetry; [by apply Z.ltb_lt|apply Z.ltb_ge; lia|apply Z.ltb_ge; lia]. }
  rewrite ES in C. split.
  - intros H. assert (y = x /\ is_finite_SF y = true) as [<- Fy].
    { destruct C as [(L & F & _)|[L E]]; [|by rewrite E in H]. split; [|done]. destruct y; try done; by injection H. }
    destruct C as [(L & F & E & S)|[L E]]; [by split|by rewrite E in Fy].
  - intros [V' F' E' S']. destruct C as [(L & F & E & S)|[L E]].
    + assert (y = x) as <-; [|by destruct y]. apply (same_float 53 1024 p53 e53); try done; [by rewrite E|by rewrite S].
    + exfalso. apply (to_bf 53 1024 p53 e53) in V' as [b <-]. unfold real in E'. rewrite SF2R_B2SF in E'. rewrite <- E' in L.
      pose proof (abs_B2R_lt_emax 53 1024 b). lra.
Qed.
Lemma int_valid z x : float_of_int z = Some x -> valid_binary 53 1024 x = true.
Proof. intros []%int_spec. done. Qed.
Lemma int_small z : (Z.abs z <= 2 ^ 1023)%Z -> exists x, float_of_int z = Some x.
Proof.
  intros Hz. unfold float_of_int. destruct (normalize_cases 53 1024 p53 e53 z 0 false) as [_ C].
  assert (F2R (Float radix2 z 0) = IZR z) as E0 by (unfold F2R; cbn; ring). rewrite E0 in C.
  assert (Rabs (rnd 53 1024 (IZR z)) <= bpow radix2 1023)%R as B.
  { apply abs_round_le_generic; [apply (fexp_correct 53 1024 p53)|apply valid_rnd_N|apply generic_format_bpow; by vm_compute|].
    rewrite <- abs_IZR. change (bpow radix2 1023) with (IZR (2 ^ 1023)). by apply IZR_le. }
  destruct C as [(_ & F & _)|[L _]]; [|pose proof (bpow_lt radix2 1023 1024 ltac:(lia)); lra].
  destruct (SpecFloat.binary_normalize 53 1024 z 0 false); try done; by eexists.
Qed.
