(** A search leaves no letter out. *)
From Coq Require Import ZArith Reals SpecFloat Lra Psatz.
From Flocq Require Import Core BinarySingleNaN Relative.
From Verif Require Import M_Base M_Utf8 M_Anahash M_Float M_Types M_Model M_Values M_Confusable M_Search M_Text M_Rules M_Matches.
From Verif Require Import S_Anahash S_Text S_Model S_Search S_Lookup S_Rules S_Matches S_SearchAll S_Float S_Cover.
From Verif Require Import P_Base P_Float P_Score P_Accuracy P_Limit P_Order P_Rank P_Share P_PyNum P_Text P_Matches P_Results P_LookupAll P_SearchAll P_Solver P_Sequence.
From Verif Require P_Utf8 P_Gather P_Sequence P_Query S_Program.
From stdpp Require Import options.

(** * Numbers *)
Lemma log_tells ln x y : log_accurate ln -> double x -> double y -> is_finite_SF x = true -> is_finite_SF y = true -> (0 < real x)%R ->
  (real x * (1 + / 10000) <= real y)%R -> flt (ln x) (ln y) = true.
Proof.
  intros H Dx Dy Fx Fy P L. assert (0 < real y)%R as Py by nra.
  destruct (H x Dx Fx P) as (D1 & F1 & E1), (H y Dy Fy Py) as (D2 & F2 & E2).
  assert (dv (ln x) (real (ln x))) as V1 by done. assert (dv (ln y) (real (ln y))) as V2 by done.
  apply (dv_flt _ _ _ _ V1 V2). apply Rabs_le_inv in E1, E2.
  assert (Rpower.ln (real x) + / 20000 <= Rpower.ln (real y))%R; [|lra].
  apply Rle_trans with (Rpower.ln (real x * (1 + / 10000))).
  2:{ destruct L as [L|L]; [left; apply Rpower.ln_increasing; [nra|done]|right; by rewrite L]. }
  rewrite Rpower.ln_mult by lra. apply Rplus_le_compat_l.
  assert (Rpower.ln (/ (1 + / 10000)) <= - / 20000)%R as G.
  { apply Rle_trans with (/ (1 + / 10000) - 1)%R.
    - assert (0 < / (1 + / 10000))%R as Q by (apply Rinv_0_lt_compat; lra).
      pose proof (exp_ineq1_le (Rpower.ln (/ (1 + / 10000)))) as E. rewrite exp_ln in E by done. lra.
    - lra. }
  rewrite Rpower.ln_Rinv in G by lra. lra.
Qed.

Lemma single_weight x r : fval 24 128 x r -> (0 <= r)%R -> weight_single x /\ real x = r.
Proof.
  intros V H. pose proof V as (N & F & E). split; [|exact E]. split; [exact N|].
  destruct (fval_ext 24 128 prec24 emax24 x r V) as (Nx & Ux & Ex). split.
  - apply (le_ext 24 128 prec24 emax24); [done|done|done|done|]. rewrite Ex. done.
  - by destruct x.
Qed.
Lemma score_in_unit fw v : weight_single fw -> unit_score (vr_dist v) -> unit_score (vr_freq v) -> exists r, dv (final_score fw v) r /\ (0 <= r <= 1)%R.
Proof.
  intros Hw Hd Hf. rewrite (final_is fw v Hw). apply unit_dv in Hd as (a & Ha & Ba). apply unit_dv in Hf as (c & Hc & Bc).
  unfold vr_score. destruct (feq fw f0); [by exists a|].
  destruct (single_to_f64 fw Hw) as (w & Hw64 & Bw & _).
  destruct (dv_mul_unit _ _ _ _ Hw64 Hc) as (p & Hp & Bp); [lra|done|].
  assert (2 <= bpow radix2 129)%R as B2 by (change 2%R with (bpow radix2 1); apply bpow_le; lia).
  assert (bpow radix2 129 = 2 * IZR (2 ^ 128))%R as E1.
  { change 129%Z with (1 + 128)%Z. rewrite bpow_plus. done. }
  destruct (between (1 + w) (big 129) _ (dv_big 129 ltac:(lia))) as [R2 _].
  { assert (1 <= IZR (2 ^ 128))%R by (apply IZR_le; lia). lra. }
  destruct (between (a + p) (big 129) _ (dv_big 129 ltac:(lia))) as [R1 _].
  { assert (1 <= IZR (2 ^ 128))%R by (apply IZR_le; lia). lra. }
  pose proof (fval_add 53 1024 prec53 emax53 _ _ _ _ Ha Hp R1) as Hs.
  pose proof (fval_add 53 1024 prec53 emax53 _ _ _ _ dv_f1 Hw64 R2) as Ht.
  assert (1 <= drnd (1 + w))%R as L3 by (rewrite <- drnd_1 at 1; apply drnd_mono; lra).
  assert (0 <= drnd (a + p))%R as L4 by (rewrite <- drnd_0; apply drnd_mono; lra).
  assert (drnd (a + p) <= drnd (1 + w))%R as L5 by (apply drnd_mono; lra).
  destruct (dv_div_unit _ _ _ _ Hs Ht) as (r & Hr & Br & _); [done|unfold drnd in *; lra|]. by exists r.
Qed.
Lemma narrow_unit x r : dv x r -> (0 <= r <= 1)%R -> exists s, fval 24 128 (to_f32 x) s /\ (0 <= s <= 1)%R.
Proof.
  intros (N & F & E) B. change (real x = r) in E.
  assert (0 <= nearest32 r <= 1)%R as Bn.
  { rewrite <- rnd_nearest32. split.
    - rewrite <- (rnd_0 24 128 prec24 emax24). apply rnd_mono; [done|done|lra].
    - rewrite <- rnd32_1. apply rnd_mono; [done|done|lra]. }
  destruct (proj1 (narrow_spec x (to_f32 x)) eq_refl) as [G _|_ V' F' E' _|_ G _].
  - change (is_finite_SF x = true) in F. congruence.
  - exists (nearest32 r). split; [|done]. split; [done|]. split; [done|]. rewrite <- E. exact E'.
  - exfalso. rewrite E, Rabs_pos_eq in G by lra. assert (1 < bpow radix2 128)%R by (change 1%R with (bpow radix2 0); apply bpow_lt; lia). lra.
Qed.
Lemma reading_cost n x r : (N.of_nat n <= 99)%N -> dv x r -> (0 <= r <= 1)%R ->
  let c := f32add (f32_of_nat n) (f32sub f32_1 (to_f32 x)) in
  weight_single c /\ (IZR (Z.of_nat n) <= real c <= IZR (Z.of_nat (S n)))%R.
Proof.
  intros Hn Hx B. destruct (narrow_unit x r Hx B) as (s & Vs & Bs). cbv zeta.
  destruct (in_range_between 24 128 prec24 emax24 (1 - s) _ _ fval32_1) as [R1 B1]; [lra|].
  pose proof (fval_sub 24 128 prec24 emax24 _ _ _ _ fval32_1 Vs R1) as V1.
  assert (fval 24 128 (f32_of_nat n) (IZR (Z.of_nat n))) as Vn by (apply fval_len; lia).
  assert (fval 24 128 (f32_of_nat (S n)) (IZR (Z.of_nat (S n)))) as Vn1 by (apply fval_len; lia).
  assert (0 <= IZR (Z.of_nat n))%R as Pn by (apply IZR_le; lia).
  assert (IZR (Z.of_nat (S n)) = IZR (Z.of_nat n) + 1)%R as E1 by (rewrite <- plus_IZR; f_equal; lia).
  destruct (in_range_between 24 128 prec24 emax24 (IZR (Z.of_nat n) + rnd 24 128 (1 - s)) _ _ Vn1) as [R2 B2]; [lra|].
  pose proof (fval_add 24 128 prec24 emax24 _ _ _ _ Vn V1 R2) as V2.
  destruct (single_weight _ _ V2) as [W E]; [lra|]. split; [exact W|]. unfold f32add, f32sub in *. rewrite E. split; [|lra].
  rewrite <- (rnd_fval 24 128 prec24 emax24 _ _ Vn) at 1. apply rnd_mono; [done|done|lra].
Qed.
Lemma nought : weight_single f0 /\ real f0 = 0%R.
Proof. split; [by repeat split|reflexivity]. Qed.
Lemma hundred : weight_single (f32_of_nat 100) /\ real (f32_of_nat 100) = 100%R.
Proof. apply single_weight; [|lra]. apply (fval_len 100). lia. Qed.
Lemma two : weight_single (f32add f32_1 f32_1) /\ real (f32add f32_1 f32_1) = 2%R.
Proof. change (f32add f32_1 f32_1) with (f32_of_nat 2). apply single_weight; [|lra]. apply (fval_len 2). lia. Qed.

(** the shares of two costs *)
Lemma shares_apart best w w' : weight_single best -> weight_single w -> weight_single w' ->
  (0 < real best <= real w')%R -> (1 / 2 <= real best)%R -> (real w <= 200000)%R -> (real w' + 50 <= real w)%R ->
  exists q q', dv (fdiv (to_f64 best) (to_f64 w)) q /\ dv (fdiv (to_f64 best) (to_f64 w')) q' /\ (0 < q)%R /\ (q * (1 + / 10000) <= q')%R.
Proof.
  intros H1 H2 H3 B1 B2 B3 L. pose proof (single_exact _ H1) as V1. pose proof (single_exact _ H2) as V2. pose proof (single_exact _ H3) as V3.
  change rval with real in V1, V2, V3. set (b := real best) in *. set (c := real w) in *. set (c' := real w') in *.
  destruct (dv_div_unit _ _ _ _ V1 V2) as (q & Hq & _ & Eq); [lra|lra|]. destruct (dv_div_unit _ _ _ _ V1 V3) as (q' & Hq' & _ & Eq'); [lra|lra|].
  exists q, q'. split; [done|]. split; [done|].
  assert (0 < b / c)%R as P1 by (apply Rdiv_lt_0_compat; lra). assert (0 < b / c')%R as P2 by (apply Rdiv_lt_0_compat; lra).
  pose proof (drnd_err (b / c) ltac:(lra)) as D1. pose proof (drnd_err (b / c') ltac:(lra)) as D2. rewrite <- Eq in D1. rewrite <- Eq' in D2.
  assert (/ 400000 <= b / c)%R as L1.
  { apply Rmult_le_reg_r with c; [lra|]. unfold Rdiv. rewrite Rmult_assoc, Rinv_l by lra. lra. }
  assert (b / c * (1 + / 4000) <= b / c')%R as L2.
  { apply Rmult_le_reg_r with (c * c')%R; [nra|]. replace (b / c * (1 + / 4000) * (c * c'))%R with (b * c' * (1 + / 4000))%R by (field; lra).
    replace (b / c' * (c * c'))%R with (b * c)%R by (field; lra). rewrite Rmult_assoc. apply Rmult_le_compat_l; lra. }
  assert (eta <= / 10 ^ 20)%R as He.
  { unfold eta. apply Rle_trans with (bpow radix2 (-75)); [apply bpow_le; lia|].
    replace (bpow radix2 (-75)) with (/ IZR 37778931862957161709568)%R by reflexivity. cbn. lra. }
  pose proof eta_pos as He0. assert (eta <= / 1000000000000000)%R as He1 by (eapply Rle_trans; [exact He|]; cbn; lra).
  clear He Eq Eq' Hq Hq' V1 V2 V3 P1 P2. unfold uu in *. generalize dependent (b / c)%R. generalize dependent (b / c')%R. intros. split; lra.
Qed.

(** * Paths *)
Lemma route_join arcs s l u l' t : route arcs s l u -> route arcs u l' t -> route arcs s (l ++ l') t.
Proof. intros R R'. induction R as [s|a l u Hin R IH]; [done|]. cbn. constructor; [done|]. by apply IH. Qed.
Lemma route_crosses arcs s l t i : (forall a, a ∈ arcs -> a_from a < a_to a) -> route arcs s l t -> s <= i < t ->
  exists l1 a l2, l = l1 ++ a :: l2 /\ a ∈ arcs /\ a_from a <= i < a_to a /\ route arcs s l1 (a_from a) /\ route arcs (a_to a) l2 t.
Proof.
  intros H R. induction R as [s|a l t Hin R IH]; intros L; [lia|].
  destruct (decide (i < a_to a)) as [Hi|Hi].
  - exists [], a, l. split; [done|]. split; [done|]. split; [lia|]. split; [constructor|done].
  - destruct IH as (l1 & a' & l2 & -> & H1 & H2 & H3 & H4); [lia|]. exists (a :: l1), a', l2. split; [done|]. split; [done|]. split; [done|].
    split; [by constructor|done].
Qed.
Lemma cost_of_app l l' : cost_of (l ++ l') = (cost_of l + cost_of l')%R.
Proof. unfold cost_of. induction l as [|a l IH]; cbn [app fold_right]; [lra|]. rewrite IH. lra. Qed.
Lemma route_cost g l t : ordinary g -> route (f_arcs g) 0 l t -> (N.of_nat t <= 1000)%N -> 0 < t -> (1 <= cost_of l <= 100000)%R.
Proof.
  intros Ho R Lt Pt. pose proof (forward_length (f_arcs g) 0 l t (fun a H => proj1 (Ho a H)) R) as Ll.
  assert (forall s l t, route (f_arcs g) s l t -> (IZR (Z.of_nat (length l)) <= cost_of l <= 100 * IZR (Z.of_nat (length l)))%R) as B.
  { clear -Ho. intros s l t R. induction R as [s|a l t Hin R IH]; [change (0 <= 0 <= 100 * 0)%R; lra|].
    destruct (Ho a Hin) as (_ & _ & _ & B). change (cost_of (a :: l)) with (real (a_cost a) + cost_of l)%R.
    change (length (a :: l)) with (S (length l)). rewrite Nat2Z.inj_succ. unfold Z.succ. rewrite plus_IZR. lra. }
  specialize (B _ _ _ R). assert (0 < length l) as Pl by (inversion R; subst; cbn; lia).
  assert (1 <= IZR (Z.of_nat (length l)) <= 1000)%R by (split; apply IZR_le; lia). lra.
Qed.

Lemma weight_flt x y : weight_single x -> weight_single y -> flt x y = true <-> (real x < real y)%R.
Proof.
  intros Hx Hy. destruct (fval_ext 24 128 prec24 emax24 _ _ (single_val x Hx)) as (Nx & Ux & Ex).
  destruct (fval_ext 24 128 prec24 emax24 _ _ (single_val y Hy)) as (Ny & Uy & Ey).
  change flt with SFltb. rewrite (lt_ext 24 128 prec24 emax24) by done. by rewrite Ex, Ey.
Qed.
Lemma weight_nlt x y : weight_single x -> weight_single y -> flt y x = false -> (real x <= real y)%R.
Proof. intros Hx Hy H. apply Rnot_lt_le. intros L. apply (weight_flt _ _ Hy Hx) in L. congruence. Qed.
Lemma initial_cost k : 2 <= k -> (N.of_nat k <= 1000)%N ->
  let c := f32mul (f32_of_nat (k - 1)) (f32_of_nat 2) in weight_single c /\ (1 <= real c)%R.
Proof.
  intros Hk Lk. assert (fval 24 128 (f32_of_nat (k - 1)) (IZR (Z.of_nat (k - 1)))) as V1 by (apply fval_len; lia).
  assert (fval 24 128 (f32_of_nat 2) 2) as V2 by (apply (fval_len 2); lia).
  assert (fval 24 128 (f32_of_nat (2 * k)) (IZR (Z.of_nat (2 * k)))) as V3 by (apply fval_len; lia).
  assert (1 <= IZR (Z.of_nat (k - 1)) * 2 <= IZR (Z.of_nat (2 * k)))%R as B by (rewrite <- mult_IZR; split; apply IZR_le; lia).
  destruct (in_range_between 24 128 prec24 emax24 _ _ _ V3 (conj (Rle_trans _ _ _ Rle_0_1 (proj1 B)) (proj2 B))) as [I [L U]].
  pose proof (fval_mul 24 128 prec24 emax24 _ _ _ _ V1 V2 I) as V. destruct (single_weight _ _ V L) as [W E]. split; [exact W|].
  unfold f32mul. rewrite E. rewrite <- rnd32_1. apply rnd_mono; [done|done|lra].
Qed.

(** * Choices *)
Lemma first_of_least l x y : first_of flt l x -> y ∈ l -> flt y x = false.
Proof.
  intros (Hn & l1 & l2 & -> & F1 & F2) Hy. apply elem_of_app in Hy as [Hy|Hy].
  - rewrite Forall_forall in F1. destruct (F1 y Hy) as [E|E]; [apply nan_not_flt; by left|].
    apply not_true_is_false. intros E'. pose proof (flt_trans _ _ _ E E') as Q. by rewrite flt_irrefl in Q.
  - apply elem_of_cons in Hy as [->|Hy]; [apply flt_irrefl|]. rewrite Forall_forall in F2. by apply F2.
Qed.
Lemma first_of_in better l x : first_of better l x -> x ∈ l.
Proof. intros (_ & l1 & l2 & -> & _). apply elem_of_app. right. left. Qed.
Lemma preferred_highest {A} (score : A -> f64) l x y : preferred score l x -> y ∈ l -> flt (score x) (score y) = false.
Proof.
  intros (l1 & l2 & -> & [[-> Hn]|(Hn & F1 & F2 & _)]) Hy; [apply nan_not_flt; by left|].
  apply elem_of_app in Hy as [Hy|Hy].
  - rewrite Forall_forall in F1. destruct (F1 y Hy) as [E|E]; [apply nan_not_flt; by right|].
    apply not_true_is_false. intros E'. pose proof (flt_trans _ _ _ E E') as Q. by rewrite flt_irrefl in Q.
  - apply elem_of_cons in Hy as [->|Hy]; [apply flt_irrefl|]. rewrite Forall_forall in F2. by apply F2.
Qed.
Lemma preferred_in {A} (score : A -> f64) l x : preferred score l x -> x ∈ l.
Proof. intros (l1 & l2 & -> & _). apply elem_of_app. right. left. Qed.
Lemma preferred_same {A} (score : A -> f64) l x v : Forall (fun y => score y = v) l -> preferred score l x -> head l = Some x.
Proof.
  intros F (l1 & l2 & -> & H). assert (l1 = []) as ->; [|done]. destruct H as [[-> _]|(Hn & F1 & _)]; [done|].
  destruct l1 as [|y l1]; [done|]. apply Forall_app in F as [F F']. inversion F as [|? ? Ey _]; subst. inversion F' as [|? ? Ex _]; subst.
  inversion F1 as [|? ? [Q|Q] _]; subst; [congruence|]. rewrite Ex in Q. by rewrite flt_irrefl in Q.
Qed.

(** * One part *)
Lemma selected_in {A} (P : A -> Prop) l l' x : selects P l l' -> x ∈ l' -> x ∈ l /\ P x.
Proof.
  induction 1 as [|y l l' Hy H IH|y l l' Hy H IH]; intros Hx; [by inversion Hx| |].
  - apply elem_of_cons in Hx as [->|Hx]; [split; [left|done]|]. destruct (IH Hx). split; [by right|done].
  - destruct (IH Hx). split; [by right|done].
Qed.
Lemma selected_kept {A} (P : A -> Prop) l l' x : selects P l l' -> x ∈ l -> P x -> x ∈ l'.
Proof.
  induction 1 as [|y l l' Hy H IH|y l l' Hy H IH]; intros Hx Px; [by inversion Hx| |].
  - apply elem_of_cons in Hx as [->|Hx]; [left|right; by apply IH].
  - apply elem_of_cons in Hx as [->|Hx]; [done|by apply IH].
Qed.
Section part.
  Context (lc : N -> bool) (ses : str -> str -> list edit_instruction).
  Context (ln32 : f32 -> f32) (ln : f64 -> f64) (ws alpha : N -> bool) (solve : fst_graph -> nat -> list (list nat * f32)).
  Context (m : model) (p : search_parameters) (t : str) (ps : pieces).
  Hypothesis (Hseg : segmentation alpha t ps) (Hshort : short_stretches alpha p t).
  Hypothesis (Hngram : 0 < p_max_ngram p) (Hngrams : (N.of_nat (p_max_ngram p) <= 98)%N).
  Definition unit_result (v : variant_result) : Prop := exists r, dv (final_score (p_freq_weight p) v) r /\ (0 <= r <= 1)%R.
  Hypothesis (Hunit : forall s ks l, s <> [] -> length s <= 255 -> reads (m_alphabet m) s ks -> looked_up lc ses m s ks p l -> Forall unit_result l).
  Context (a k : nat) (bs : list tmatch) (e : nat).
  Hypothesis (Hb : part_bounds ps a k bs e) (Hk : (N.of_nat k <= 1000)%N).
  #[local] Set Default Proof Using "All".

  Lemma part_length : 0 < k /\ a + k <= length ps.
  Proof.
    pose proof Hb as (Hlen & Hi & b & El & _). assert (0 < k) as Pk by (destruct bs; [done|cbn in Hlen; lia]). split; [done|].
    rewrite last_lookup, Hlen in El. destruct (Hi _ _ El) as (w & s & E & _). apply lookup_lt_Some in E. lia.
  Qed.
  Lemma bounds_whole i : i < k -> bs !! i = boundaries_at 0 ps !! (a + i).
  Proof.
    intros L. pose proof Hb as (Hlen & Hi & _). destruct (lookup_lt_is_Some_2 bs i ltac:(lia)) as [b E]. rewrite E. symmetry.
    apply boundaries_at_lookup. destruct (Hi i b E) as (w & s & E' & ->). by exists w, s.
  Qed.
  Lemma bounds_line : in_line bs.
  Proof.
    destruct part_length as [Pk L]. pose proof (proj1 Hb) as Hlen.
    pose proof (proj1 (segmentation_cut _ _ _) Hseg) as (_ & _ & Hcut). destruct (part_in_line alpha true 0 ps Hcut) as [O1 O2]. split.
    - intros i b E. pose proof (lookup_lt_Some _ _ _ E). rewrite bounds_whole in E by lia. by eapply O1.
    - intros i j b c Lij E E'. pose proof (lookup_lt_Some _ _ _ E'). rewrite bounds_whole in E, E' by lia. eapply (O2 (a + i) (a + j)); [lia|done|done].
  Qed.
  Lemma stands_spans x i n : i + n < k -> stands 0 ps x (a + i) n -> spans bs x i (i + n).
  Proof.
    intros L Hx. destruct (stands_end 0 ps x (a + i) n Hx) as (b & Eb & Ee & Lb). destruct Hx as (_ & _ & _ & Es & _).
    destruct part_length as [Pk Lk]. split; [lia|]. split; [exists b; split; [rewrite bounds_whole by lia; rewrite <- Eb; f_equal; lia|done]|].
    destruct i as [|i].
    - intros q c Ec Q. pose proof (lookup_lt_Some _ _ _ Ec) as Lq. rewrite (proj1 Hb) in Lq. rewrite bounds_whole in Ec by done. rewrite !Nat.add_0_r in *.
      pose proof (boundary_between 0 ps _ _ Ec) as [Q1 Q2]. pose proof (proj1 (segmentation_cut _ _ _) Hseg) as (_ & _ & Hcut).
      destruct (decide (q < n)) as [Hq|Hq].
      + pose proof (separator_nonempty alpha true 0 ps Hcut (a + q) c Ec ltac:(lia)) as Sn.
        pose proof (start_mono 0 ps a (a + q) ltac:(lia)) as Sm. lia.
      + destruct (decide (q = n)) as [->|N].
        * assert (b = c) as -> by congruence. lia.
        * pose proof (begin_strict alpha true 0 ps Hcut (a + n) (a + q) b c ltac:(lia) Eb Ec). pose proof (boundary_between 0 ps _ _ Eb). lia.
    - destruct (lookup_lt_is_Some_2 bs i) as [c Ec]; [rewrite (proj1 Hb); lia|]. exists c. split; [done|]. rewrite bounds_whole in Ec by lia.
      pose proof (boundary_between 0 ps _ _ Ec) as [_ ->]. rewrite Es. f_equal. lia.
  Qed.

  (** the candidates *)
  Context (batch : list tmatch).
  Hypothesis (Ho : offers lc ses m p ps a k batch).
  Lemma batch_stands x : x ∈ batch -> exists i n, i + n < k /\ n < p_max_ngram p /\ stands 0 ps x (a + i) n /\
    forall vs, tm_variants x = Some vs -> Forall unit_result vs.
  Proof.
    pose proof Ho as (xss & Lx & Eb & H). intros Hx. rewrite Eb in Hx. apply elem_of_list_In, in_concat in Hx as (xs & Hxs & Hx). apply elem_of_list_In in Hxs, Hx.
    apply elem_of_list_lookup in Hxs as [n En]. destruct (H n xs En) as (words & cs & _ & (js & Hj & ->) & F).
    pose proof (lookup_lt_Some _ _ _ En) as Ln. apply elem_of_list_lookup in Hx as [q Eq].
    destruct (Forall2_lookup_r _ _ _ _ _ F Eq) as (c & Ec & Hc). apply list_lookup_fmap_inv in Ec as (j & -> & Ej).
    apply elem_of_list_lookup_2 in Ej. destruct (selected_in _ _ _ _ Hj Ej) as [Hin Hne]. apply elem_of_list_In, in_seq in Hin.
    destruct part_length as [Pk Lk]. exists (j - a), n. split; [lia|]. split; [lia|]. replace (a + (j - a)) with j by lia.
    assert (stands 0 ps (S_Text.candidate 0 ps (S n) j) j n) as St by (apply stands_candidate; [lia|done]).
    destruct Hc as [(_ & ks & l & R & Hl & ->)|(_ & ->)].
    - split; [by apply (stands_place _ _ (S_Text.candidate 0 ps (S n) j))|]. intros vs [= <-]. apply (Hunit _ _ _ Hne) in Hl; [done| |done].
      apply (Hshort ps j (S n)); [done|lia|lia].
    - split; [done|]. intros vs Ev. done.
  Qed.
  Lemma batch_word i w s : i < k -> ps !! (a + i) = Some (w, s) -> w <> [] -> exists x, x ∈ batch /\ stands 0 ps x (a + i) 0.
  Proof.
    intros L E Hw. pose proof Ho as (xss & Lx & Eb & H). rewrite Eb. destruct (lookup_lt_is_Some_2 xss 0 ltac:(lia)) as [xs Ex].
    destruct (H 0 xs Ex) as (words & cs & _ & (js & Hj & ->) & F).
    assert (S_Text.stretch (drop (a + i) ps) 1 = w) as Ew by (rewrite (drop_S _ _ _ E); done).
    assert (a + i ∈ js) as Hin.
    { eapply selected_kept; [exact Hj| |cbn beta; by rewrite Ew]. apply elem_of_list_In, in_seq. lia. }
    apply elem_of_list_lookup in Hin as [q Eq]. destruct (Forall2_lookup_l _ _ _ q (S_Text.candidate 0 ps 1 (a + i)) F) as (x & Exq & Hx).
    { change (map ?f ?l) with (f <$> l). rewrite list_lookup_fmap. by rewrite Eq. }
    exists x. split.
    - apply elem_of_list_In, in_concat. exists xs. split; apply elem_of_list_In; by eapply elem_of_list_lookup_2.
    - apply lookup_lt_Some in E. assert (stands 0 ps (S_Text.candidate 0 ps 1 (a + i)) (a + i) 0) as St by (apply stands_candidate; [lia|by rewrite Ew]).
      destruct Hx as [(_ & ks & l & _ & _ & ->)|(_ & ->)]; [by apply (stands_place _ _ (S_Text.candidate 0 ps 1 (a + i)))|done].
  Qed.

  (** the graph *)
  Lemma drawn_arcs symbols g : drawn p batch bs e symbols g ->
    (forall arc, arc ∈ f_arcs g -> (exists i, i < k /\ arc = Arc i 0 0 (f32_of_nat 100) (S i)) \/
       exists q x from next l oc kk, batch !! q = Some x /\ spans bs x from next /\ readings p q x from next l /\ oc ∈ l /\
         symbols !! kk = Some oc.1 /\ arc = Arc from (S q) (S kk) oc.2 (S next)) /\
    (forall q x, batch !! q = Some x -> exists from next l, spans bs x from next /\ readings p q x from next l /\
       forall oc, oc ∈ l -> exists kk, Arc from (S q) (S kk) oc.2 (S next) ∈ f_arcs g) /\
    (forall s, s ∈ f_final g <-> exists i b, s = S i /\ bs !! i = Some b /\ (tm_begin b = e \/ tm_end b = e)).
  Proof.
    intros (rs & fs & Lr & Hr & -> & Hf & ->). cbn [f_arcs f_final]. set (every := concat _).
    assert (forall q r, rs !! q = Some r -> exists x from next l, r = (q, from, next, l) /\ batch !! q = Some x /\ spans bs x from next /\ readings p q x from next l) as Hq.
    { intros q r E. pose proof (lookup_lt_Some _ _ _ E) as L. destruct (lookup_lt_is_Some_2 batch q) as [x Ex]; [lia|].
      destruct (Hr q x Ex) as (from & next & l & E' & ? & ?). exists x, from, next, l. split; [congruence|done]. }
    split; [|split].
    - intros arc Ha. apply elem_of_app in Ha as [Ha|Ha].
      + right. apply elem_of_lookup_imap in Ha as (kk & [[[q' from'] next'] oc] & -> & E).
        pose proof E as E0. apply elem_of_list_lookup_2 in E. unfold every in E. apply elem_of_list_In, in_concat in E as (y & Hy & Hin).
        apply in_map_iff in Hy as (r & <- & Hrs). apply elem_of_list_In, elem_of_list_lookup in Hrs as [q Er].
        destruct (Hq q r Er) as (x & from & next & l & -> & Ex & Hs & Hl). apply in_map_iff in Hin as (oc' & [= <- <- <- <-] & Hoc).
        exists q, x, from, next, l, oc', kk. split; [done|]. split; [done|]. split; [done|]. split; [by apply elem_of_list_In|]. split; [|done].
        change (map ?f ?l) with (f <$> l). rewrite list_lookup_fmap. rewrite E0. done.
      + left. apply elem_of_list_In, in_map_iff in Ha as (i & <- & Hi). apply in_seq in Hi. rewrite (proj1 Hb) in Hi. exists i. split; [lia|done].
    - intros q x Ex. destruct (Hr q x Ex) as (from & next & l & Er & Hs & Hl). exists from, next, l. split; [done|]. split; [done|].
      intros oc Hoc. assert ((q, from, next, oc) ∈ every) as Hin.
      { unfold every. apply elem_of_list_In, in_concat. exists (map (fun oc => (q, from, next, oc)) l). split.
        - apply in_map_iff. exists (q, from, next, l). split; [done|]. apply elem_of_list_In. by eapply elem_of_list_lookup_2.
        - apply in_map_iff. exists oc. split; [done|]. by apply elem_of_list_In. }
      apply elem_of_list_lookup in Hin as [kk Ek]. exists kk. apply elem_of_app. left. apply elem_of_lookup_imap. by exists kk, (q, from, next, oc).
    - intros s. split.
      + intros Hs. apply elem_of_list_In, in_map_iff in Hs as ([i b] & <- & Hi). apply elem_of_list_In in Hi.
        destruct (selected_in _ _ _ _ Hf Hi) as [Hin HP]. apply elem_of_lookup_imap in Hin as (i' & b' & [= -> ->] & Eb). by exists i', b'.
      + intros (i & b & -> & Eb & HP). apply elem_of_list_In, in_map_iff. exists (i, b). split; [done|]. apply elem_of_list_In.
        eapply selected_kept; [exact Hf| |exact HP]. apply elem_of_lookup_imap. by exists i, b.
  Qed.
  Lemma final_state symbols g s : drawn p batch bs e symbols g -> s ∈ f_final g <-> s = k.
  Proof.
    intros D. destruct (drawn_arcs _ _ D) as (_ & _ & Hf). rewrite Hf. destruct part_length as [Pk Lk]. pose proof Hb as (Hlen & _ & b & El & Ee).
    rewrite last_lookup, Hlen in El. destruct bounds_line as [O1 O2]. split.
    - intros (i & c & -> & Ec & Hc). pose proof (lookup_lt_Some _ _ _ Ec) as L. destruct (decide (i < Nat.pred k)) as [Hi|Hi]; [|lia].
      pose proof (O2 _ _ _ _ Hi Ec El). pose proof (O1 _ _ Ec). lia.
    - intros ->. exists (Nat.pred k), b. split; [lia|]. split; [done|]. left. done.
  Qed.
  Lemma graph_ordinary symbols g : drawn p batch bs e symbols g -> ordinary g.
  Proof.
    intros D arc Ha. destruct (drawn_arcs _ _ D) as (H & _ & _). destruct (H arc Ha) as [(i & Li & ->)|(q & x & from & next & l & oc & kk & Ex & Hs & Hl & Hoc & _ & ->)].
    - cbn [a_from a_to a_cost]. split; [lia|]. split; [lia|]. destruct hundred as [W E]. split; [exact W|]. rewrite E. lra.
    - cbn [a_from a_to a_cost]. apply elem_of_list_lookup_2 in Ex. destruct (batch_stands x Ex) as (i & n & L & Ln & St & Hv).
      destruct (spans_det bs x from next i (i + n) bounds_line Hs (stands_spans x i n L St)) as [-> ->].
      split; [lia|]. split; [lia|]. destruct Hl as [vs Ev Hne|Ev E1|Ev E1].
      + apply elem_of_lookup_imap in Hoc as (j & v & -> & Ej). cbn [snd]. specialize (Hv vs Ev). rewrite Forall_forall in Hv.
        destruct (Hv v) as (r & Hr & Br); [by eapply elem_of_list_lookup_2|].
        replace (S (i + n) - i) with (S n) by lia. destruct (reading_cost (S n) (final_score (p_freq_weight p) v) r) as [W B]; [lia|done|done|]. split; [exact W|].
        assert (1 <= IZR (Z.of_nat (S n)))%R by (apply IZR_le; lia). assert (IZR (Z.of_nat (S (S n))) <= 100)%R by (apply IZR_le; lia). lra.
      + apply elem_of_list_singleton in Hoc as ->. cbn [snd]. destruct two as [W E]. split; [exact W|]. rewrite E. lra.
      + by inversion Hoc.
  Qed.
  (** a word has a reading of its own *)
  Lemma word_arc symbols g i w s : drawn p batch bs e symbols g -> i < k -> ps !! (a + i) = Some (w, s) -> w <> [] ->
    exists arc, arc ∈ f_arcs g /\ a_from arc = i /\ a_to arc = S i /\ (real (a_cost arc) <= 2)%R.
  Proof.
    intros D Li E Hw. destruct (drawn_arcs _ _ D) as (_ & H & _). destruct (batch_word i w s Li E Hw) as (x & Hx & St).
    destruct (batch_stands x Hx) as (i' & n & L & Ln & St' & Hv). apply elem_of_list_lookup in Hx as [q Eq].
    destruct (H q x Eq) as (from & next & l & Hs & Hl & Hin).
    destruct (spans_det bs x from next i (i + 0) bounds_line Hs (stands_spans x i 0 ltac:(lia) St)) as [-> ->].
    rewrite Nat.add_0_r in *. destruct Hl as [vs Ev Hne|Ev E1|Ev E1]; [| |lia].
    - destruct vs as [|v vs]; [done|]. edestruct (Hin _ (elem_of_list_here _ _)) as (kk & Ha). eexists. split; [exact Ha|].
      cbn [a_from a_to a_cost snd]. split; [done|]. split; [done|]. specialize (Hv _ Ev). rewrite Forall_forall in Hv.
      destruct (Hv v) as (r & Hr & Br); [left|]. replace (S i - i) with 1 by lia.
      destruct (reading_cost 1 (final_score (p_freq_weight p) v) r) as [W B]; [lia|done|done|]. apply B.
    - destruct (Hin _ (elem_of_list_here _ _)) as (kk & Ha). eexists. split; [exact Ha|]. cbn [a_from a_to a_cost snd]. split; [done|]. split; [done|].
      destruct two as [_ ->]. lra.
  Qed.

  (** the choice *)
  Hypothesis (Hacc : solver_accurate solve) (Hln : log_accurate ln) (Hseq : 0 < p_max_seq p).
  Hypothesis (Hlm : m_have_lm m = false \/ feq (p_lm_weight p) f0 = true).
  Hypothesis (Hrules : m_context_rules m = [] \/ feq (p_contextrules_weight p) f0 = true).
  Hypothesis (Hfirst : 2 <= k \/ cheapest_first solve).
  Lemma path_of symbols g labels w : drawn p batch bs e symbols g -> (labels, w) ∈ solve g (p_max_seq p) ->
    exists l, route (f_arcs g) 0 l k /\ labels = written l /\ weight_single w /\ about (real w) (cost_of l) /\ (1 <= cost_of l <= 100000)%R.
  Proof.
    intros D Hin. destruct (sa_paths _ Hacc g _ _ _ (graph_ordinary _ _ D) Hin) as (l & f & R & Hf & -> & W & A).
    apply (final_state _ _ _ D) in Hf as ->. exists l. split; [done|]. split; [done|]. split; [done|]. split; [done|].
    eapply route_cost; [by eapply graph_ordinary|done|done|]. apply part_length.
  Qed.
  (** no other path is cheaper by fifty *)
  Lemma best_cheap symbols g seqs best perplexity cost context labels w :
    drawn p batch bs e symbols g -> Forall2 (path_scored ln32 ws m p bs symbols) (solve g (p_max_seq p)) seqs ->
    first_of flt (f32mul (f32_of_nat (length bs - 1)) (f32_of_nat 2) :: map sq_cost seqs) cost ->
    preferred (combined ln m p perplexity cost context) seqs best ->
    path_scored ln32 ws m p bs symbols (labels, w) best ->
    forall l', route (f_arcs g) 0 l' k -> (cost_of l' * (1 + / 10000) + 50 <= real w)%R -> (labels, w) ∈ solve g (p_max_seq p) -> False.
  Proof.
    intros D F Hc Hp Hs l' R' L Hin. pose proof (graph_ordinary _ _ D) as Ord.
    destruct (path_of _ _ _ _ D Hin) as (l & R & -> & W & A & B). apply Rabs_le_inv in A.
    assert (forall y, y ∈ seqs -> exists lab wy, (lab, wy) ∈ solve g (p_max_seq p) /\ sq_cost y = wy /\ weight_single wy /\ (1 / 2 <= real wy)%R) as Hy.
    { intros y Hy. apply elem_of_list_lookup in Hy as [i Ei]. destruct (Forall2_lookup_r _ _ _ _ _ F Ei) as ([lab wy] & Ep & Hsc).
      apply elem_of_list_lookup_2 in Ep. exists lab, wy. split; [done|]. split; [by rewrite (ps_cost _ _ _ _ _ _ _ _ Hsc)|].
      destruct (path_of _ _ _ _ D Ep) as (ly & _ & _ & Wy & Ay & By). apply Rabs_le_inv in Ay. split; [done|lra]. }
    assert (forall y, combined ln m p perplexity cost context y = variant_part ln cost y) as Ec.
    { intros y. unfold combined. destruct (decide _) as [_|N]; [done|]. exfalso. apply N. done. }
    pose proof (ps_cost _ _ _ _ _ _ _ _ Hs) as Ew. cbn [snd] in Ew. pose proof Hb as (Hlen & _). destruct part_length as [Pk Lk].
    destruct (decide (2 <= k)) as [Hk2|Hk2].
    - destruct (sa_least _ Hacc g (p_max_seq p) l' k Ord Hseq R') as (lab' & w' & Hin' & Lw'); [by apply (final_state _ _ _ D)|].
      destruct (path_of _ _ _ _ D Hin') as (l2 & _ & _ & W' & A' & B').
      apply elem_of_list_lookup in Hin' as [i' Ei']. destruct (Forall2_lookup_l _ _ _ _ _ F Ei') as (s' & Es' & Hs').
      apply elem_of_list_lookup_2 in Es'. pose proof (ps_cost _ _ _ _ _ _ _ _ Hs') as Ew'. cbn [snd] in Ew'.
      pose proof (preferred_highest _ _ _ s' Hp Es') as Hn. rewrite !Ec in Hn. unfold variant_part in Hn. rewrite Ew, Ew' in Hn.
      rewrite Hlen in Hc. destruct (initial_cost k Hk2 Hk) as [Wi Bi].
      assert (weight_single cost /\ (1 / 2 <= real cost)%R) as [Wc Bc].
      { pose proof (first_of_in _ _ _ Hc) as Hin2. apply elem_of_cons in Hin2 as [E2|Hin2].
        - rewrite E2. split; [exact Wi|lra].
        - apply elem_of_list_fmap in Hin2 as (y & -> & Hy2). destruct (Hy y Hy2) as (_ & wy & _ & -> & ? & ?). done. }
      assert (real cost <= real w')%R as Lc.
      { apply weight_nlt; [done|done|]. apply (first_of_least _ _ _ Hc). right. rewrite <- Ew'. apply elem_of_list_fmap. by exists s'. }
      destruct (shares_apart cost w w') as (q & q' & Vq & Vq' & Pq & Lq); [done|done|done|lra|lra|lra|lra|].
      assert (flt (ln (fdiv (to_f64 cost) (to_f64 w))) (ln (fdiv (to_f64 cost) (to_f64 w'))) = true) as Hlt; [|congruence].
      destruct Vq as (N1 & F1 & E1), Vq' as (N2 & F2 & E2). change (real (fdiv (to_f64 cost) (to_f64 w)) = q) in E1.
      change (real (fdiv (to_f64 cost) (to_f64 w')) = q') in E2.
      apply (log_tells ln); [done|done|done|done|done|by rewrite E1|by rewrite E1, E2].
    - destruct Hfirst as [?|Hch]; [lia|]. assert (k = 1) as K1 by lia. rewrite Hlen, K1 in Hc.
      assert (cost = f0) as ->.
      { pose proof (first_of_in _ _ _ Hc) as Hin2. apply elem_of_cons in Hin2 as [E2|Hin2]; [exact E2|]. exfalso.
        apply elem_of_list_fmap in Hin2 as (y & -> & Hy2). destruct (Hy y Hy2) as (_ & wy & _ & E3 & Wy & By). rewrite E3 in Hc.
        pose proof (first_of_least _ _ f0 Hc ltac:(left)) as Hn. destruct nought as [W0 E0].
        apply (weight_nlt wy f0) in Hn; [|done|done]. rewrite E0 in Hn. lra. }
      assert (head seqs = Some best) as Hh.
      { apply (preferred_same (combined ln m p perplexity f0 context) seqs best (ln f0)); [|done]. apply Forall_forall. intros y Hyin. rewrite Ec.
        unfold variant_part. destruct (Hy y Hyin) as (_ & wy & _ & -> & Wy & By). change (to_f64 f0) with f0. rewrite zero_share; [done|done|].
        change (fgt wy f0) with (flt f0 wy). destruct nought as [W0 E0].
        apply (weight_flt f0 wy); [done|done|]. rewrite E0. lra. }
      destruct seqs as [|s0 seqs]; [done|]. injection Hh as ->. apply Forall2_cons_inv_r in F as ([lab0 w0] & rest & Hs0 & _ & E0).
      pose proof (ps_cost _ _ _ _ _ _ _ _ Hs0) as Ew0. cbn [snd] in Ew0.
      pose proof (Hch g (p_max_seq p) (lab0, w0) rest l' k Ord E0 R' ltac:(by apply (final_state _ _ _ D))) as Q. cbn [snd] in Q.
      rewrite <- Ew0, Ew in Q. lra.
  Qed.

  Lemma part_covered out i w s : chosen ln32 ln ws solve m p bs e batch out -> i < k -> ps !! (a + i) = Some (w, s) -> w <> [] ->
    exists x, x ∈ out /\ tm_begin x <= byte_len (joined (take (a + i) ps)) /\ byte_len (joined (take (a + i) ps) ++ w) <= tm_end x.
  Proof.
    intros Hch Li E Hw. destruct (batch_word i w s Li E Hw) as (xw & Hxw & Stw).
    destruct Hch as [N|M Eb|symbols g seqs best perplexity cost context out M Nb D F Hpp Hc Hcx Hp Hpk].
    - exists (set_selected xw (Some 0)). split; [apply elem_of_list_fmap; by exists xw|]. destruct Stw as (_ & _ & _ & E1 & E2).
      cbn [tm_begin tm_end set_selected]. rewrite E1, E2. unfold start_of. rewrite byte_len_app, (drop_S _ _ _ E). cbn [stretch]. lia.
    - rewrite Eb in Hxw. by inversion Hxw.
    - pose proof (preferred_in _ _ _ Hp) as Hbest. apply elem_of_list_lookup in Hbest as [ib Eb].
      destruct (Forall2_lookup_r _ _ _ _ _ F Eb) as ([labels wt] & Ep & Hs). apply elem_of_list_lookup_2 in Ep.
      destruct (path_of _ _ _ _ D Ep) as (l & R & El & W & A & B). apply Rabs_le_inv in A. pose proof (graph_ordinary _ _ D) as Ord.
      destruct (route_crosses (f_arcs g) 0 l k i (fun a H => proj1 (Ord a H)) R ltac:(lia)) as (l1 & arc & l2 & El2 & Ha & Hi & R1 & R2).
      destruct (drawn_arcs _ _ D) as (Harcs & _ & _). destruct (Harcs arc Ha) as [(i' & Li' & Ea)|(q & x & from & next & rl & oc & kk & Ex & Hsp & Hl & Hoc & Ek & Ea)].
      + exfalso. rewrite Ea in Hi, R1, R2. cbn [a_from a_to] in *. assert (i' = i) as -> by lia.
        destruct (word_arc _ _ i w s D Li E Hw) as (arc' & Ha' & Ef & Et & Lc).
        assert (route (f_arcs g) 0 (l1 ++ arc' :: l2) k) as R'.
        { eapply route_join; [exact R1|]. rewrite <- Ef. constructor; [done|]. by rewrite Et. }
        eapply (best_cheap _ _ _ _ _ _ _ _ _ D F Hc Hp Hs _ R'); [|done]. rewrite El2, Ea in A, B. rewrite cost_of_app in A, B |- *.
        change (cost_of (?x :: ?y)) with (real (a_cost x) + cost_of y)%R in *. cbn [a_cost] in A, B. rewrite (proj2 hundred) in A, B. lra.
      + assert (S kk ∈ labels) as Hlab.
        { rewrite El, El2, Ea. unfold written. rewrite map_app. cbn [map a_out]. apply elem_of_list_In, filter_In. split; [|done].
          apply in_or_app. right. by left. }
        apply elem_of_list_lookup in Hlab as [n0 En]. destruct (Forall2_lookup_l _ _ _ _ _ (ps_symbols _ _ _ _ _ _ _ _ Hs) En) as (o & Eo & k1 & [= <-] & Ek1).
        assert (o = oc.1) as -> by congruence. destruct (proj2 Hpk n0 _ Eo) as (y & Ey & Eout).
        assert (os_match oc.1 = q) as Eq.
        { destruct Hl as [vs Ev Hne|Ev E1|Ev E1]; [|by apply elem_of_list_singleton in Hoc as ->|by inversion Hoc].
          apply elem_of_lookup_imap in Hoc as (j & v & -> & _). done. }
        rewrite Eq in Ey. assert (y = x) as -> by congruence. eexists. split; [by eapply elem_of_list_lookup_2|].
        assert (forall z o, tm_begin (with_tags z o) = tm_begin z /\ tm_end (with_tags z o) = tm_end z) as WT by (intros z [?|]; done).
        rewrite (proj1 (WT _ _)), (proj2 (WT _ _)). cbn [tm_begin tm_end set_selected].
        apply elem_of_list_lookup_2 in Ex. destruct (batch_stands x Ex) as (i0 & n & L & Ln & St & _).
        destruct (spans_det bs x from next i0 (i0 + n) bounds_line Hsp (stands_spans x i0 n L St)) as [-> ->].
        rewrite Ea in Hi. cbn [a_from a_to] in Hi. destruct (stands_end 0 ps x (a + i0) n St) as (b & Ebd & Ee & _).
        destruct St as (_ & _ & _ & Eb0 & _). rewrite Eb0. split; [apply (start_mono 0 ps (a + i0) (a + i)); lia|]. rewrite Ee.
        apply boundaries_at_lookup in Ebd as (wn & sn & En2 & ->). cbn [tm_begin new_empty].
        destruct (decide (i = i0 + n)) as [Q|Q].
        * replace (a + i0 + n) with (a + i) in * by lia. assert (wn = w) as -> by congruence. rewrite byte_len_app. lia.
        * pose proof (start_mono 0 ps (S (a + i)) (a + i0 + n) ltac:(lia)) as Sm. unfold start_of in Sm.
          rewrite (take_S_r ps (a + i) _ E), joined_app, joined_1, !byte_len_app in Sm. rewrite !byte_len_app. lia.
  Qed.
End part.

(** * The whole text *)
Lemma split_letter {A} (u v pre : list A) c post : u ++ v = pre ++ c :: post ->
  (exists u', u = pre ++ c :: u') \/ (exists x, pre = u ++ x /\ v = x ++ c :: post).
Proof.
  intros E. apply app_eq_inv in E as [(x & Eu & Ex)|(x & Ep & E)]; [|right; by exists x].
  destruct x as [|c' x]; [right; exists []; rewrite app_nil_r in *; done|]. injection Ex as -> _. left. by exists x.
Qed.
Lemma letter_piece alpha c : alpha c = true -> forall (ps : pieces) pre post, Forall (fun wb : str * str => Forall (fun c => alpha c = false) wb.2) ps ->
  joined ps = pre ++ c :: post ->
  exists j w b w1 w2, ps !! j = Some (w, b) /\ w = w1 ++ c :: w2 /\ pre = joined (take j ps) ++ w1.
Proof.
  intros Hc. induction ps as [|[w b] ps IH]; intros pre post F E; [by destruct pre|]. apply Forall_cons in F as [Fb F]. rewrite joined_cons in E.
  cbn [snd] in Fb. apply split_letter in E as [(u & ->)|(x & -> & E)]; [by exists 0, (pre ++ c :: u), b, pre, u|].
  apply split_letter in E as [(u & ->)|(y & -> & E)].
  - apply Forall_app in Fb as [_ Fb]. apply Forall_cons in Fb as [Q _]. congruence.
  - destruct (IH y post F E) as (j & w' & b' & w1 & w2 & Ej & E1 & ->). exists (S j), w', b', w1, w2. split; [done|]. split; [done|].
    cbn [take]. rewrite joined_cons, <- !app_assoc. done.
Qed.
Lemma in_some_part ps a parts j w b : parts_from ps a parts -> a <= j -> ps !! j = Some (w, b) -> w <> [] ->
  exists a' k, (a', k) ∈ parts /\ a' <= j < a' + k.
Proof.
  induction 1 as [a Hn|a k l Hn He H IH]; intros L E Hw.
  - pose proof (lookup_lt_Some _ _ _ E) as Lj. destruct (lookup_lt_is_Some_2 ps (length ps - 1) ltac:(lia)) as [[w' b'] E'].
    exfalso. apply (Hn (length ps - 1) ltac:(lia)). exists w', b'. split; [done|]. split; [right; lia|]. intros Q.
    assert (j = 0) as -> by lia. rewrite Q in E'. congruence.
  - destruct (decide (j < a + S k)) as [Lj|Lj].
    + exists a, (S k). split; [left|lia].
    + destruct IH as (a' & k' & Hin & ?); [lia|done|done|]. exists a', k'. split; [by right|done].
Qed.
Lemma part_inside ps a parts : parts_from ps a parts -> forall a' k, (a', k) ∈ parts -> a' + k <= length ps.
Proof.
  induction 1 as [a Hn|a k l Hn He H IH]; intros a' k' Hin; [by inversion Hin|]. apply elem_of_cons in Hin as [[= -> ->]|Hin]; [|by apply IH].
  destruct He as (w & b & E & _). apply lookup_lt_Some in E. lia.
Qed.

Section whole.
  Context (lc : N -> bool) (ses : str -> str -> list edit_instruction).
  Context (ln32 : f32 -> f32) (ln : f64 -> f64) (ws alpha : N -> bool) (solve : fst_graph -> nat -> list (list nat * f32)).
  Context (m m' : model) (p : search_parameters) (t : str) (ms : list tmatch).
  Hypothesis (B : built m m') (T : tame m p) (Hconf : m_confusables m = []).
  Hypothesis (Hacc : solver_accurate solve) (Hln : log_accurate ln) (Hseq : 0 < p_max_seq p) (Hcosts : costs_decide m' p).
  Hypothesis (Hshort : short_stretches alpha p t) (Hfew : few_words alpha t).
  Hypothesis (Hngram : 0 < p_max_ngram p) (Hngrams : (N.of_nat (p_max_ngram p) <= 98)%N).
  #[local] Set Default Proof Using "All".

  Lemma units s ks l : s <> [] -> length s <= 255 -> reads (m_alphabet m') s ks -> looked_up lc ses m' s ks p l -> Forall (unit_result p) l.
  Proof.
    intros Hne Hl R H. pose proof (same_model m m' B) as Sm. pose proof (P_Query.same_contents_sym _ _ Sm) as Sm'.
    apply (P_Query.looked_up_same _ _ _ _ _ _ _ _ Sm') in H. rewrite (S_Program.sc_alphabet _ _ Sm) in R.
    pose proof (P_Sequence.reads_shorter _ _ _ R) as Lk.
    assert (query m s ks) as Q by (split; [done|by apply (P_Gather.reads_nonempty _ _ _ R)|lia]).
    apply (lookup_exact lc ses m m') in H; [|done|done|lia|done].
    pose proof (P_Results.unit_scores lc ses m m' s ks B Q p l T Hconf H) as U. pose proof (P_Results.freq_unit lc ses m m' s ks B Q p l T H) as V.
    rewrite Forall_forall in U, V |- *. intros v Hv. apply score_in_unit; [apply (tm_weight _ _ T)|by apply U|by apply V].
  Qed.
  Lemma letter_covered pre c post : t = pre ++ c :: post -> alpha c = true -> searchable m' -> searched lc ses ln32 ln ws alpha solve m' p t ms ->
    cheapest_first solve \/ in_company alpha t pre -> exists x, x ∈ ms /\ tm_begin x <= place (p_unicodeoffsets p) pre < tm_end x.
  Proof.
    intros Et Hc Hs H Hfirst. destruct H as [[Q|Q] _|ps parts outs Hne _ Hseg Hp F Hrel]; [by rewrite Q in Et; destruct pre|done|].
    assert (exists j w b w1 w2, ps !! j = Some (w, b) /\ w = w1 ++ c :: w2 /\ pre = joined (take j ps) ++ w1) as (j & w & b & w1 & w2 & Ej & Ew & Ep).
    { apply (letter_piece alpha c Hc ps pre post); [|rewrite <- Et; symmetry; apply Hseg].
      apply Forall_forall. intros [w b] Hin. apply elem_of_list_lookup in Hin as [i Ei]. by destruct (proj2 (proj2 Hseg) i w b Ei) as (_ & ? & _). }
    destruct (in_some_part ps 0 parts j w b Hp ltac:(lia) Ej) as (a & k & Hin & Lj); [by rewrite Ew; destruct w1|].
    assert (2 <= k \/ cheapest_first solve) as Hf.
    { destruct Hfirst as [?|Hcomp]; [by right|left]. rewrite Ew in Ej. by apply (Hcomp ps parts a k j w1 (c :: w2) b). }
    apply elem_of_list_lookup in Hin as [q Eq]. destruct (Forall2_lookup_l _ _ _ _ _ F Eq) as (out & Eo & bs & e & batch & Hb & Ho & Hch).
    cbn [fst snd] in *. replace j with (a + (j - a)) in * by lia.
    assert (N.of_nat k <= 1000)%N as Hk.
    { pose proof (Hfew ps Hseg). pose proof (part_inside _ _ _ Hp a k ltac:(by eapply elem_of_list_lookup_2)). lia. }
    destruct (part_covered lc ses ln32 ln ws alpha solve m' p t ps Hseg Hshort Hngram Hngrams units a k bs e Hb Hk batch Ho Hacc Hln Hseq
      (proj1 Hcosts) (proj2 Hcosts) Hf out (j - a) w b Hch) as (x & Hx & L1 & L2); [lia|done|by rewrite Ew; destruct w1|].
    assert (x ∈ concat outs) as Hxo by (apply elem_of_list_In, in_concat; exists out; split; apply elem_of_list_In; [by eapply elem_of_list_lookup_2|done]).
    assert (tm_begin x <= byte_len pre) as M1 by (rewrite Ep, byte_len_app; lia).
    assert (byte_len (pre ++ [c]) <= tm_end x) as M2.
    { rewrite Ep. rewrite Ew in L2. rewrite !byte_len_app in *. rewrite byte_len_cons in L2. rewrite byte_len_1. lia. }
    destruct Hrel as [[Eu Hrel]|[Eu ->]].
    - rewrite Eu. apply elem_of_list_lookup in Hxo as [r Er]. destruct (Forall2_lookup_l _ _ _ _ _ Hrel Er) as (x' & Er' & bx & ex & Cb & Ce & ->).
      eexists. split; [by eapply elem_of_list_lookup_2|]. cbn [tm_begin tm_end set_offset place].
      destruct Cb as (p1 & s1 & T1 & B1 & ->), Ce as (p2 & s2 & T2 & B2 & ->). rewrite byte_len_app, byte_len_1 in M2. pose proof (P_Utf8.utf8_len_pos c).
      split.
      + destruct (decide (length pre < length p1)) as [Q|Q]; [|lia]. exfalso.
        destruct (decide (byte_len p1 = byte_len pre)) as [Z|Z]; [|pose proof (prefix_lengths t p1 pre s1 (c :: post) T1 Et ltac:(lia)); lia].
        destruct (byte_len_inj p1 pre s1 (c :: post) ltac:(congruence) Z) as [-> _]. lia.
      + apply (prefix_lengths t pre p2 (c :: post) s2); [done|done|lia].
    - exists x. assert (p_unicodeoffsets p = false) as -> by (by destruct (p_unicodeoffsets p)). cbn [place]. split; [done|].
      rewrite byte_len_app, byte_len_1 in M2. pose proof (P_Utf8.utf8_len_pos c). lia.
  Qed.
End whole.

Section statement.
  Context (lc : N -> bool) (ses : str -> str -> list edit_instruction).
  Context (ln32 : f32 -> f32) (ln : f64 -> f64) (ws alpha : N -> bool) (solve : fst_graph -> nat -> list (list nat * f32)).
  Context (m m' : model) (p : search_parameters) (t : str).
  Lemma found_covered :
    built m m' -> tame m p -> scorable m' -> m_confusables m = [] -> searchable m' -> costs_decide m' p ->
    solver_sound solve -> solver_complete solve -> solver_accurate solve -> log_accurate ln ->
    alpha 32%N = false -> (N.of_nat (length t) < 65281)%N -> short_stretches alpha p t -> few_words alpha t ->
    0 < p_max_seq p -> 0 < p_max_ngram p -> (N.of_nat (p_max_ngram p) <= 98)%N ->
    exists F, forall lookup, looks_up lc ses F m' p lookup ->
      exists ms, find_all_matches ln32 ln ws solve alpha lookup m' t p = Ok ms /\
        forall pre c post, t = pre ++ c :: post -> alpha c = true -> cheapest_first solve \/ in_company alpha t pre ->
          exists x, x ∈ ms /\ tm_begin x <= place (p_unicodeoffsets p) pre < tm_end x.
  Proof.
    intros B T Hsc Hconf Hs Hcosts Hsound Hcomp Hacc Hln Hsp Hlen Hshort Hfew Hseq Hn Hn'.
    destruct (search_exact lc ses ln32 ln ws alpha solve m m' p t B T Hsc Hsound Hsp Hlen Hshort Hcomp Hseq) as (F1 & H1).
    destruct (search_succeeds lc ses ln32 ln ws solve alpha m m' t p B T Hsc Hsound Hcomp Hseq Hsp Hlen) as (F2 & ms & H2).
    exists (F1 + F2). intros lookup Hk. exists ms.
    assert (find_all_matches ln32 ln ws solve alpha lookup m' t p = Ok ms) as E.
    { apply H2. intros s. destruct (Hk s) as (f & order & L & ? & ?). exists f, order. split; [lia|done]. }
    split; [exact E|]. assert (searched lc ses ln32 ln ws alpha solve m' p t ms) as S.
    { apply (H1 lookup); [|done]. intros s. destruct (Hk s) as (f & order & L & ? & ?). exists f, order. split; [lia|done]. }
    intros pre c post Et Hc Hf. by apply (letter_covered lc ses ln32 ln ws alpha solve m m' p t ms B T Hconf Hacc Hln Hseq Hcosts Hshort Hfew Hn Hn' pre c post).
  Qed.
  Lemma all_covered :
    built m m' -> tame m p -> scorable m' -> m_confusables m = [] -> searchable m' -> costs_decide m' p ->
    solver_sound solve -> solver_complete solve -> solver_accurate solve -> cheapest_first solve -> log_accurate ln ->
    alpha 32%N = false -> (N.of_nat (length t) < 65281)%N -> short_stretches alpha p t -> few_words alpha t ->
    0 < p_max_seq p -> 0 < p_max_ngram p -> (N.of_nat (p_max_ngram p) <= 98)%N ->
    exists F, forall lookup, looks_up lc ses F m' p lookup ->
      exists ms, find_all_matches ln32 ln ws solve alpha lookup m' t p = Ok ms /\ covered alpha (p_unicodeoffsets p) t ms.
  Proof.
    intros B T Hsc Hconf Hs Hcosts Hsound Hcomp Hacc Hfirst Hln Hsp Hlen Hshort Hfew Hseq Hn Hn'.
    destruct found_covered as [F H]; [done..|]. exists F. intros lookup Hk. destruct (H lookup Hk) as (ms & E & Hc). exists ms. split; [exact E|].
    intros pre c post Et Ha. apply (Hc pre c post Et Ha). by left.
  Qed.
  Lemma company_covered :
    built m m' -> tame m p -> scorable m' -> m_confusables m = [] -> searchable m' -> costs_decide m' p ->
    solver_sound solve -> solver_complete solve -> solver_accurate solve -> log_accurate ln ->
    alpha 32%N = false -> (N.of_nat (length t) < 65281)%N -> short_stretches alpha p t -> few_words alpha t ->
    0 < p_max_seq p -> 0 < p_max_ngram p -> (N.of_nat (p_max_ngram p) <= 98)%N ->
    exists F, forall lookup, looks_up lc ses F m' p lookup ->
      exists ms, find_all_matches ln32 ln ws solve alpha lookup m' t p = Ok ms /\
        forall pre c post, t = pre ++ c :: post -> alpha c = true -> in_company alpha t pre ->
          exists x, x ∈ ms /\ tm_begin x <= place (p_unicodeoffsets p) pre < tm_end x.
  Proof.
    intros B T Hsc Hconf Hs Hcosts Hsound Hcomp Hacc Hln Hsp Hlen Hshort Hfew Hseq Hn Hn'.
    destruct found_covered as [F H]; [done..|]. exists F. intros lookup Hk. destruct (H lookup Hk) as (ms & E & Hc). exists ms. split; [exact E|].
    intros pre c post Et Ha Hco. apply (Hc pre c post Et Ha). by right.
  Qed.
End statement.
