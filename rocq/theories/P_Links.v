(** Variant links. *)
From Coq Require Import Lia.
From Verif Require Import M_Base M_Anahash M_Iter M_Float M_Types M_Model S_Model P_Model.
From stdpp Require Import options.

Definition refs_of (vs : option (list variant_ref)) : list (vocab_id * f64) :=
  omap (fun r => match r with ReferenceFor y s => Some (y, s) | _ => None end) (default [] vs).
Definition vars_of (vs : option (list variant_ref)) : list (vocab_id * f64) :=
  omap (fun r => match r with VariantOf y s => Some (y, s) | _ => None end) (default [] vs).

Lemma push_reference x s vs :
  refs_of (push_link (is_reference_for x) (ReferenceFor x s) vs) =
    (if decide (x ∈ map fst (refs_of vs)) then refs_of vs else refs_of vs ++ [(x, s)]) /\
  vars_of (push_link (is_reference_for x) (ReferenceFor x s) vs) = vars_of vs.
Proof.
  unfold refs_of, vars_of, push_link. destruct vs as [l|]; [|split; [|done]; cbn; by rewrite decide_False by apply not_elem_of_nil].
  cbn [default]. destruct (existsb (is_reference_for x) l) eqn:E.
  - rewrite decide_True; [done|]. apply existsb_exists in E as (r & Hin & Hr).
    destruct r as [y s'|]; [|done]. cbn in Hr. apply Nat.eqb_eq in Hr as <-.
    apply elem_of_list_fmap. exists (x, s'). split; [done|]. apply elem_of_list_omap. exists (ReferenceFor x s').
    by rewrite elem_of_list_In.
  - rewrite decide_False.
    + cbn. rewrite !omap_app. cbn. by rewrite app_nil_r.
    + intros Hin. apply elem_of_list_fmap in Hin as ([y s'] & -> & Hin).
      apply elem_of_list_omap in Hin as (r & Hin & Hr). destruct r as [z s''|]; [|done]. injection Hr as -> ->.
      assert (existsb (is_reference_for y) l = true) as E'; [|cbn in E; congruence].
      apply existsb_exists. eexists. split; [by apply elem_of_list_In|]. cbn. apply Nat.eqb_refl.
Qed.
Lemma push_variant x y s vs :
  x ∉ map fst (vars_of vs) ->
  vars_of (push_link (is_variant_of x) (VariantOf y s) vs) = vars_of vs ++ [(y, s)] /\
  refs_of (push_link (is_variant_of x) (VariantOf y s) vs) = refs_of vs.
Proof.
  unfold refs_of, vars_of, push_link. destruct vs as [l|]; [|done]. cbn [default]. intros Hx.
  destruct (existsb (is_variant_of x) l) eqn:E.
  - destruct Hx. apply existsb_exists in E as (r & Hin & Hr).
    destruct r as [|z s']; [done|]. cbn in Hr. apply Nat.eqb_eq in Hr as <-.
    apply elem_of_list_fmap. exists (x, s'). split; [done|]. apply elem_of_list_omap. exists (VariantOf x s').
    by rewrite elem_of_list_In.
  - cbn. rewrite !omap_app. cbn. by rewrite app_nil_r.
Qed.

Lemma first_mentions_app l x s : forall seen,
  first_mentions seen (l ++ [(x, s)]) =
  first_mentions seen l ++ (if decide (x ∈ seen \/ x ∈ map fst l) then [] else [(x, s)]).
Proof.
  induction l as [|[y s'] l IH]; intros seen; cbn.
  - destruct (decide (x ∈ seen)) as [H|H]; [by rewrite decide_True by auto|].
    rewrite decide_False; [done|]. rewrite elem_of_nil. tauto.
  - destruct (decide (y ∈ seen)) as [H|H]; rewrite IH; cbn; repeat f_equal; apply decide_ext; set_solver.
Qed.
Lemma first_mentions_fst l x : forall seen,
  x ∈ map fst (first_mentions seen l) <-> x ∉ seen /\ x ∈ map fst l.
Proof.
  induction l as [|[y s'] l IH]; intros seen; cbn.
  - rewrite elem_of_nil. tauto.
  - destruct (decide (y ∈ seen)) as [H|H]; cbn; rewrite ?elem_of_cons, IH; [set_solver|].
    destruct (decide (x = y)) as [->|]; set_solver.
Qed.

Lemma with_variants_again v v' x y : v' = with_variants v x -> with_variants v' y = with_variants v y.
Proof. by intros ->. Qed.

Definition links_of (m : model) (l : list link) (m' : model) : Prop :=
  forall id v, m_decoder m !! id = Some v -> exists v', m_decoder m' !! id = Some v' /\
    stored_variants v' = first_mentions [] (declared_variants id l) /\
    stored_references v' = declared_references id l /\
    v' = with_variants v (vv_variants v').

Lemma declared_variants_app id l x :
  declared_variants id (l ++ [x]) = declared_variants id l ++
  (if decide (x.1.1 = id /\ x.1.2 <> id) then [(x.1.2, x.2)] else []).
Proof.
  unfold declared_variants. rewrite filter_app, map_app, filter_cons. by destruct (decide _).
Qed.
Lemma declared_references_app id l x :
  declared_references id (l ++ [x]) = declared_references id l ++
  (if decide (x.1.2 = id /\ x.1.1 <> id) then [(x.1.1, x.2)] else []).
Proof.
  unfold declared_references. rewrite filter_app, map_app, filter_cons. by destruct (decide _).
Qed.
Lemma declared_references_self id l : id ∉ map fst (declared_references id l).
Proof.
  unfold declared_references. intros H. apply elem_of_list_fmap in H as ([y s] & -> & H).
  apply elem_of_list_fmap in H as (x & [= -> ->] & [[_ H] _]%elem_of_list_filter). done.
Qed.

Lemma links_run m l :
  (forall id v, m_decoder m !! id = Some v -> vv_variants v = None) -> links_of m l (run_links m l).
Proof.
  intros H0. induction l as [|x l IH] using rev_ind.
  { intros id v D. exists v. split; [done|]. unfold stored_variants, stored_references. rewrite (H0 _ _ D).
    split; [done|]. split; [done|]. destruct v; cbn in *. by rewrite <- (H0 _ _ D). }
  intros id v D. unfold run_links. rewrite foldl_app. cbn. fold (run_links m l).
  destruct (IH id v D) as (v' & D' & SV & SR & Ev). destruct x as [[r y] s]. cbn [fst snd].
  rewrite declared_variants_app, declared_references_app. cbn [fst snd].
  unfold add_variant_by_id. destruct (Nat.eqb_spec y r) as [->|Hyr]; cbn [negb fst m_decoder with_vocab].
  - exists v'. rewrite !decide_False by tauto. rewrite !app_nil_r. done.
  - destruct (decide (r = id)) as [->|Hr].
    + set (v2 := with_variants v' (push_link (is_reference_for y) (ReferenceFor y s) (vv_variants v'))).
      exists v2. split; [|split; [|split]].
      * apply update_decoder_lookup. right. split; [congruence|]. apply update_decoder_lookup. left. split; [done|].
        exists v'. done.
      * rewrite decide_True by done. rewrite first_mentions_app.
        change (stored_variants v2) with (refs_of (vv_variants v2)). cbn [v2 with_variants vv_variants].
        destruct (push_reference y s (vv_variants v')) as [-> _].
        change (refs_of (vv_variants v')) with (stored_variants v'). rewrite SV.
        assert (y ∈ map fst (first_mentions [] (declared_variants id l)) <-> y ∈ map fst (declared_variants id l)) as Hf.
        { rewrite first_mentions_fst, elem_of_nil. tauto. }
        destruct (decide (y ∈ map fst (first_mentions [] (declared_variants id l)))) as [Hin|Hin].
        -- rewrite decide_True; [by rewrite app_nil_r|]. right. by apply Hf.
        -- rewrite decide_False; [done|]. rewrite elem_of_nil. tauto.
      * rewrite decide_False by tauto. rewrite app_nil_r, <- SR.
        change (stored_references v2) with (vars_of (vv_variants v2)). cbn [v2 with_variants vv_variants].
        by destruct (push_reference y s (vv_variants v')) as [_ ->].
      * exact (with_variants_again v v' _ _ Ev).
    + destruct (decide (y = id)) as [->|Hy].
      * set (v2 := with_variants v' (push_link (is_variant_of id) (VariantOf r s) (vv_variants v'))).
        destruct (push_variant id r s (vv_variants v')) as [P1 P2].
        { change (vars_of (vv_variants v')) with (stored_references v'). rewrite SR. apply declared_references_self. }
        exists v2. split; [|split; [|split]].
        -- apply update_decoder_lookup. left. split; [done|]. exists v'. split; [|done]. apply update_decoder_lookup. auto.
        -- rewrite decide_False by tauto. rewrite app_nil_r, <- SV. exact P2.
        -- rewrite decide_True by (split; congruence). rewrite <- SR. exact P1.
        -- exact (with_variants_again v v' _ _ Ev).
      * exists v'. rewrite !decide_False by tauto. rewrite !app_nil_r. split; [|done].
        apply update_decoder_lookup. right. split; [done|]. apply update_decoder_lookup. auto.
Qed.

Lemma links_mutual m l r y :
  (forall id v, m_decoder m !! id = Some v -> vv_variants v = None) ->
  forall vr vy, m_decoder (run_links m l) !! r = Some vr -> m_decoder (run_links m l) !! y = Some vy ->
  r < length (m_decoder m) -> y < length (m_decoder m) ->
  (y ∈ map fst (stored_variants vr) <-> r ∈ map fst (stored_references vy)).
Proof.
  intros H0 vr vy Dr Dy Lr Ly. pose proof (links_run m l H0) as L.
  apply lookup_lt_is_Some in Lr as [wr Wr], Ly as [wy Wy].
  destruct (L r wr Wr) as (vr' & Dr' & SV & _). destruct (L y wy Wy) as (vy' & Dy' & _ & SR & _).
  assert (vr' = vr) as -> by congruence. assert (vy' = vy) as -> by congruence.
  rewrite SV, SR, first_mentions_fst. unfold declared_variants, declared_references.
  rewrite !elem_of_list_fmap. setoid_rewrite elem_of_list_fmap. setoid_rewrite elem_of_list_filter. split.
  - intros [_ (p & -> & x & -> & [Hx Hne] & Hin)]. exists (x.1.1, x.2). split; [done|]. exists x. cbn in *. naive_solver.
  - intros (p & -> & x & -> & [Hx Hne] & Hin). split; [apply not_elem_of_nil|]. exists (x.1.2, x.2). split; [done|].
    exists x. cbn in *. naive_solver.
Qed.

Lemma first_mentions_nodup l : forall seen, NoDup (map fst (first_mentions seen l)).
Proof.
  induction l as [|[y s] l IH]; intros seen; cbn; [constructor|]. destruct (decide _); [apply IH|]. cbn.
  apply NoDup_cons. split; [|apply IH]. rewrite first_mentions_fst. set_solver.
Qed.
Lemma links_unique m l id v :
  (forall id v, m_decoder m !! id = Some v -> vv_variants v = None) -> id < length (m_decoder m) ->
  m_decoder (run_links m l) !! id = Some v -> NoDup (map fst (stored_variants v)).
Proof.
  intros H0 L D. apply lookup_lt_is_Some in L as [w Hw].
  destruct (links_run m l H0 id w Hw) as (v' & D' & SV & _). assert (v' = v) as -> by congruence.
  rewrite SV. apply first_mentions_nodup.
Qed.
