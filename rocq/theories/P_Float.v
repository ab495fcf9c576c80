(** Facts about the executable floating-point operations (Coq.Floats.SpecFloat),
    by way of Flocq. *)
From Coq Require Import ZArith Reals SpecFloat Lia Lra Psatz.
From Flocq Require Import Core BinarySingleNaN.

Section fl.
  Context (prec emax : Z) (Hprec : Prec_gt_0 prec) (Hmax : Prec_lt_emax prec emax).
  #[local] Set Default Proof Using "All".

  Notation fexp := (SpecFloat.fexp prec emax).
  Notation bf := (binary_float prec emax).
  #[local] Instance vexp : Valid_exp fexp := fexp_correct prec emax Hprec.

  Definition is_num (x : spec_float) : Prop := valid_binary prec emax x = true.
  Definition is_fin (x : spec_float) : Prop := is_finite_SF x = true.
  Definition rval (x : spec_float) : R := SF2R radix2 x.
  Definition rnd (r : R) : R := round radix2 fexp ZnearestE r.

  (** ** The operations are Flocq's *)
  Lemma round_nearest_even_equiv s m l : round_nearest_even m l = choice_mode mode_NE s m l.
  Proof. case l; [reflexivity|intro c]. case c; [|reflexivity..]. now simpl; unfold Round.cond_incr; case Z.even. Qed.
  Lemma binary_round_aux_equiv sx mx ex lx :
    SpecFloat.binary_round_aux prec emax sx mx ex lx = binary_round_aux prec emax mode_NE sx mx ex lx.
  Proof.
    unfold SpecFloat.binary_round_aux, binary_round_aux. set (mrse' := shr_fexp _ _ _).
    case mrse'; intros mrs' e'; simpl. now rewrite (round_nearest_even_equiv sx).
  Qed.
  Lemma binary_round_equiv s m e :
    SpecFloat.binary_round prec emax s m e = binary_round prec emax mode_NE s m e.
  Proof.
    unfold SpecFloat.binary_round, binary_round, shl_align_fexp. set (mez := shl_align _ _ _); case mez as [mz ez].
    apply binary_round_aux_equiv.
  Qed.
  Lemma binary_normalize_equiv m e szero :
    SpecFloat.binary_normalize prec emax m e szero = B2SF (binary_normalize prec emax Hprec Hmax mode_NE m e szero).
  Proof.
    case m as [|p|p]; [now simpl| |]; simpl; rewrite B2SF_SF2B; apply binary_round_equiv.
  Qed.
  Lemma mul_equiv (x y : bf) : SFmul prec emax (B2SF x) (B2SF y) = B2SF (Bmult mode_NE x y).
  Proof.
    destruct x as [sx|sx| |sx mx ex Bx], y as [sy|sy| |sy my ey By]; [now trivial..|].
    simpl. rewrite B2SF_SF2B. apply binary_round_aux_equiv.
  Qed.
  Lemma add_equiv (x y : bf) : SFadd prec emax (B2SF x) (B2SF y) = B2SF (Bplus mode_NE x y).
  Proof.
    destruct x as [sx|sx| |sx mx ex Bx], y as [sy|sy| |sy my ey By]; [now (trivial || simpl; case Bool.eqb)..|].
    apply binary_normalize_equiv.
  Qed.
  Lemma sub_equiv (x y : bf) : SFsub prec emax (B2SF x) (B2SF y) = B2SF (Bminus mode_NE x y).
  Proof.
    destruct x as [sx|sx| |sx mx ex Bx], y as [sy|sy| |sy my ey By]; [now (trivial || simpl; case Bool.eqb)..|].
    simpl. unfold Zminus. rewrite <- cond_Zopp_negb. apply binary_normalize_equiv.
  Qed.
  Lemma div_equiv (x y : bf) : SFdiv prec emax (B2SF x) (B2SF y) = B2SF (Bdiv mode_NE x y).
  Proof.
    destruct x as [sx|sx| |sx mx ex Bx], y as [sy|sy| |sy my ey By]; [now (trivial || simpl; case Bool.eqb)..|].
    simpl. rewrite B2SF_SF2B. set (melz := SFdiv_core_binary _ _ _ _ _ _). case melz as [[mz ez] lz].
    apply binary_round_aux_equiv.
  Qed.

  (** every is_num number comes from Flocq's type *)
  Lemma to_bf x : is_num x -> exists b : bf, B2SF b = x.
  Proof. intros H. exists (SF2B x H). apply B2SF_SF2B. Qed.
  Lemma bf_valid (b : bf) : is_num (B2SF b).
  Proof. apply valid_binary_B2SF. Qed.
  Lemma bf_fin (b : bf) : is_fin (B2SF b) <-> is_finite b = true.
  Proof. unfold is_fin. now rewrite is_finite_SF_B2SF. Qed.
  Lemma bf_rval (b : bf) : rval (B2SF b) = B2R b.
  Proof. unfold rval. apply SF2R_B2SF. Qed.

  Lemma valid_add x y : is_num x -> is_num y -> is_num (SFadd prec emax x y).
  Proof. intros [a <-]%to_bf [b <-]%to_bf. rewrite add_equiv. apply bf_valid. Qed.
  Lemma valid_sub x y : is_num x -> is_num y -> is_num (SFsub prec emax x y).
  Proof. intros [a <-]%to_bf [b <-]%to_bf. rewrite sub_equiv. apply bf_valid. Qed.
  Lemma valid_mul x y : is_num x -> is_num y -> is_num (SFmul prec emax x y).
  Proof. intros [a <-]%to_bf [b <-]%to_bf. rewrite mul_equiv. apply bf_valid. Qed.
  Lemma valid_div x y : is_num x -> is_num y -> is_num (SFdiv prec emax x y).
  Proof. intros [a <-]%to_bf [b <-]%to_bf. rewrite div_equiv. apply bf_valid. Qed.
  Lemma valid_normalize m e s : is_num (SpecFloat.binary_normalize prec emax m e s).
  Proof. rewrite binary_normalize_equiv. apply bf_valid. Qed.

  (** ** Values *)
  Definition fval (x : spec_float) (r : R) : Prop := is_num x /\ is_fin x /\ rval x = r.

  Definition in_range (r : R) : Prop := (Rabs (rnd r) < bpow radix2 emax)%R.

  Lemma fval_add x y a b : fval x a -> fval y b -> in_range (a + b) -> fval (SFadd prec emax x y) (rnd (a + b)).
  Proof.
    intros (Hx & Fx & <-) (Hy & Fy & <-) Hr. apply to_bf in Hx as [u <-]. apply to_bf in Hy as [v <-].
    rewrite !bf_rval in *. apply bf_fin in Fx, Fy. rewrite add_equiv.
    generalize (Bplus_correct prec emax Hprec Hmax mode_NE u v Fx Fy). rewrite Rlt_bool_true by exact Hr.
    intros (E & F & _). split; [apply bf_valid|]. split; [now apply bf_fin|]. rewrite bf_rval. exact E.
  Qed.
  Lemma fval_sub x y a b : fval x a -> fval y b -> in_range (a - b) -> fval (SFsub prec emax x y) (rnd (a - b)).
  Proof.
    intros (Hx & Fx & <-) (Hy & Fy & <-) Hr. apply to_bf in Hx as [u <-]. apply to_bf in Hy as [v <-].
    rewrite !bf_rval in *. apply bf_fin in Fx, Fy. rewrite sub_equiv.
    generalize (Bminus_correct prec emax Hprec Hmax mode_NE u v Fx Fy). rewrite Rlt_bool_true by exact Hr.
    intros (E & F & _). split; [apply bf_valid|]. split; [now apply bf_fin|]. rewrite bf_rval. exact E.
  Qed.
  Lemma fval_mul x y a b : fval x a -> fval y b -> in_range (a * b) -> fval (SFmul prec emax x y) (rnd (a * b)).
  Proof.
    intros (Hx & Fx & <-) (Hy & Fy & <-) Hr. apply to_bf in Hx as [u <-]. apply to_bf in Hy as [v <-].
    rewrite !bf_rval in *. apply bf_fin in Fx, Fy. rewrite mul_equiv.
    generalize (Bmult_correct prec emax Hprec Hmax mode_NE u v). rewrite Rlt_bool_true by exact Hr.
    intros (E & F & _). split; [apply bf_valid|]. split; [apply bf_fin; now rewrite F, Fx, Fy|]. rewrite bf_rval. exact E.
  Qed.
  Lemma fval_div x y a b : fval x a -> fval y b -> (b <> 0)%R -> in_range (a / b) -> fval (SFdiv prec emax x y) (rnd (a / b)).
  Proof.
    intros (Hx & Fx & <-) (Hy & Fy & <-) Hb Hr. apply to_bf in Hx as [u <-]. apply to_bf in Hy as [v <-].
    rewrite !bf_rval in *. apply bf_fin in Fx, Fy. rewrite div_equiv.
    generalize (Bdiv_correct prec emax Hprec Hmax mode_NE u v Hb). rewrite Rlt_bool_true by exact Hr.
    intros (E & F & _). split; [apply bf_valid|]. split; [apply bf_fin; now rewrite F, Fx|]. rewrite bf_rval. exact E.
  Qed.
  Lemma fval_normalize m e s :
    in_range (F2R (Float radix2 m e)) -> fval (SpecFloat.binary_normalize prec emax m e s) (rnd (F2R (Float radix2 m e))).
  Proof.
    intros Hr. rewrite binary_normalize_equiv.
    generalize (binary_normalize_correct prec emax Hprec Hmax mode_NE m e s). cbv zeta. rewrite Rlt_bool_true by exact Hr.
    intros (E & F & _). split; [apply bf_valid|]. split; [now apply bf_fin|]. rewrite bf_rval. exact E.
  Qed.

  Lemma fval_inj x y r : fval x r -> fval y r -> r <> 0%R -> x = y.
  Proof.
    intros (Hx & Fx & Ex) (Hy & Fy & Ey) Hr. apply to_bf in Hx as [u <-]. apply to_bf in Hy as [v <-].
    rewrite bf_rval in *. f_equal. apply B2R_inj; [..|congruence].
    - destruct u; try easy; now elim Hr.
    - destruct v; try easy; now elim Hr.
  Qed.

  Lemma rnd_mono a b : (a <= b)%R -> (rnd a <= rnd b)%R.
  Proof. apply round_le; [exact vexp|apply valid_rnd_N]. Qed.
  Lemma rnd_fval x r : fval x r -> rnd r = r.
  Proof.
    intros (Hx & Fx & <-). apply to_bf in Hx as [u <-]. rewrite bf_rval. apply round_generic; [apply valid_rnd_N|].
    apply generic_format_B2R.
  Qed.
  Lemma fval_lt x r : fval x r -> (Rabs r < bpow radix2 emax)%R.
  Proof. intros (Hx & Fx & <-). apply to_bf in Hx as [u <-]. rewrite bf_rval. now apply abs_B2R_lt_emax. Qed.
  Lemma rnd_0 : rnd 0 = 0%R.
  Proof. apply round_0. apply valid_rnd_N. Qed.

  (** between zero and a representable number nothing overflows *)
  Lemma in_range_between r z u : fval z u -> (0 <= r <= u)%R -> in_range r /\ (0 <= rnd r <= u)%R.
  Proof.
    intros Hz [H0 H1]. assert (0 <= rnd r)%R as L by (rewrite <- rnd_0; now apply rnd_mono).
    assert (rnd r <= u)%R as U by (rewrite <- (rnd_fval z u Hz); now apply rnd_mono).
    split; [|easy]. unfold in_range. rewrite Rabs_pos_eq by easy.
    apply Rle_lt_trans with (1 := U). pose proof (fval_lt z u Hz) as B. apply Rle_lt_trans with (2 := B). apply Rle_abs.
  Qed.

  Lemma fval_zero s : fval (S754_zero s) 0.
  Proof. now repeat split. Qed.

  (** ** Comparisons of all numbers but NaN, infinities included *)
  Definition ext (x : spec_float) : R :=
    match x with
    | S754_infinity s => if s then (- bpow radix2 emax)%R else bpow radix2 emax
    | _ => rval x
    end.
  Definition nonan (x : spec_float) : Prop := x <> S754_nan.

  Lemma ext_bound x : is_num x -> is_fin x -> (- bpow radix2 emax < ext x < bpow radix2 emax)%R.
  Proof.
    intros Hx Fx. assert (fval x (rval x)) as Hv by easy. apply fval_lt in Hv. apply Rabs_def2 in Hv.
    destruct x; unfold is_fin in Fx; try easy; simpl; lra.
  Qed.

  Lemma compare_ext x y :
    is_num x -> is_num y -> nonan x -> nonan y -> SFcompare x y = Some (Rcompare (ext x) (ext y)).
  Proof.
    intros Hx Hy Nx Ny. pose proof (bpow_gt_0 radix2 emax) as Hb.
    destruct (is_finite_SF x) eqn:Fx, (is_finite_SF y) eqn:Fy.
    - assert (ext x = rval x) as -> by (now destruct x). assert (ext y = rval y) as -> by (now destruct y).
      apply to_bf in Hx as [u <-]. apply to_bf in Hy as [v <-]. rewrite !bf_rval.
      rewrite is_finite_SF_B2SF in Fx, Fy. exact (Bcompare_correct prec emax u v Fx Fy).
    - pose proof (ext_bound x Hx Fx) as B. destruct y as [|s| |]; try easy; try (now elim Ny).
      cbn [ext]. destruct s.
      + rewrite Rcompare_Gt by lra. now destruct x.
      + rewrite Rcompare_Lt by lra. now destruct x.
    - pose proof (ext_bound y Hy Fy) as B. destruct x as [|s| |]; try easy; try (now elim Nx).
      cbn [ext]. destruct s.
      + rewrite Rcompare_Lt by lra. now destruct y.
      + rewrite Rcompare_Gt by lra. now destruct y.
    - destruct x as [|s| |]; try easy; try (now elim Nx). destruct y as [|s'| |]; try easy; try (now elim Ny).
      cbn [ext]. destruct s, s'; cbn [SFcompare]; f_equal; symmetry;
        [apply Rcompare_Eq|apply Rcompare_Lt|apply Rcompare_Gt|apply Rcompare_Eq]; lra.
  Qed.

  Lemma lt_ext x y : is_num x -> is_num y -> nonan x -> nonan y -> SFltb x y = true <-> (ext x < ext y)%R.
  Proof.
    intros Hx Hy Nx Ny. unfold SFltb. rewrite compare_ext by easy.
    destruct (Rcompare_spec (ext x) (ext y)); split; (easy || lra).
  Qed.
  Lemma le_ext x y : is_num x -> is_num y -> nonan x -> nonan y -> SFleb x y = true <-> (ext x <= ext y)%R.
  Proof.
    intros Hx Hy Nx Ny. unfold SFleb. rewrite compare_ext by easy.
    destruct (Rcompare_spec (ext x) (ext y)); split; (easy || lra).
  Qed.
  Lemma eq_ext x y : is_num x -> is_num y -> nonan x -> nonan y -> SFeqb x y = true <-> ext x = ext y.
  Proof.
    intros Hx Hy Nx Ny. unfold SFeqb. rewrite compare_ext by easy.
    destruct (Rcompare_spec (ext x) (ext y)); split; (easy || lra).
  Qed.
  Lemma fin_nonan x : is_fin x -> nonan x.
  Proof. now destruct x. Qed.
  Lemma fin_ext x : is_fin x -> ext x = rval x.
  Proof. now destruct x. Qed.
  Lemma fval_ext x r : fval x r -> is_num x /\ nonan x /\ ext x = r.
  Proof. intros (Hx & Fx & <-). now repeat split; [|apply fin_nonan|apply fin_ext]. Qed.
  Lemma fval_of x : is_num x -> is_fin x -> fval x (rval x).
  Proof. easy. Qed.

  (** Comparisons with a NaN are all false. *)
  Lemma nan_lt_l y : SFltb S754_nan y = false. Proof. easy. Qed.
  Lemma nan_lt_r x : SFltb x S754_nan = false. Proof. now destruct x as [|[]| |[]]. Qed.

  (** a finite sum has finite parts *)
  Lemma add_fin_inv x y : is_num x -> is_num y -> is_fin (SFadd prec emax x y) ->
    is_fin x /\ is_fin y /\ fval (SFadd prec emax x y) (rnd (rval x + rval y)).
  Proof.
    intros Hx Hy F. assert (is_fin x) as Fx by (now destruct x as [|[]| |], y as [|[]| |]).
    assert (is_fin y) as Fy by (now destruct x as [|[]| |], y as [|[]| |]).
    split; [easy|]. split; [easy|]. revert F. apply to_bf in Hx as [u <-]. apply to_bf in Hy as [v <-].
    rewrite !bf_rval in *. apply bf_fin in Fx, Fy. rewrite add_equiv. intros F. apply bf_fin in F.
    generalize (Bplus_correct prec emax Hprec Hmax mode_NE u v Fx Fy). destruct (Rlt_bool_spec (Rabs (rnd (B2R u + B2R v))) (bpow radix2 emax)) as [L|L].
    - rewrite Rlt_bool_true by exact L. intros (E & _). split; [apply bf_valid|]. split; [now apply bf_fin|].
      rewrite bf_rval. exact E.
    - rewrite Rlt_bool_false by exact L. intros (E & _). exfalso. apply bf_fin in F. revert F. rewrite E.
      unfold binary_overflow. unfold is_fin. simpl. easy.
  Qed.

  (** whole numbers of at most [prec] bits are exact *)
  Lemma fval_int (z : Z) s : (0 <= z < 2 ^ prec)%Z ->
    fval (SpecFloat.binary_normalize prec emax z 0 s) (IZR z).
  Proof.
    intros Hz.
    assert (F2R (Float radix2 z 0) = IZR z) as E by (unfold F2R; simpl; ring).
    assert (rnd (IZR z) = IZR z) as R.
    { apply round_generic; [apply valid_rnd_N|]. rewrite <- E. apply generic_format_FLT. exists (Float radix2 z 0); [easy| |].
      - simpl. rewrite Z.abs_eq by easy. easy.
      - simpl. unfold emin. unfold Prec_gt_0, Prec_lt_emax in *. lia. }
    rewrite <- R, <- E. apply fval_normalize. unfold in_range. rewrite E, R. rewrite Rabs_pos_eq by (apply IZR_le; easy).
    apply Rlt_le_trans with (bpow radix2 prec).
    - rewrite <- IZR_Zpower by (unfold Prec_gt_0 in *; lia). apply IZR_lt. simpl. easy.
    - apply bpow_le. unfold Prec_lt_emax in *. lia.
  Qed.

  (** a non-negative number below infinity is finite *)
  Lemma pos_fin x : SFleb (S754_zero false) x = true -> SFltb x (S754_infinity false) = true -> is_fin x.
  Proof. now destruct x as [|[]| |[]]. Qed.
End fl.
