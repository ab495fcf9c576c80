(** Properties C96 and C97: the reverse index and how parameters are shown. *)
From Coq Require String Ascii.
From Verif Require Import M_Base M_Anahash M_Float M_Types M_Model M_Cli M_Options M_Reverse S_Model S_Search S_Reverse P_Base.
From Verif Require P_Json C_Find C_Learn.
Import String.StringSyntax Ascii.AsciiSyntax.
From stdpp Require Import options.
#[local] Arguments lit s%string_scope.

Lemma selects_snoc {A} (P : A -> Prop) l l' x : selects P l l' -> (P x -> selects P (l ++ [x]) (l' ++ [x])) /\ (~ P x -> selects P (l ++ [x]) l').
Proof. induction 1 as [|y l l' Hy H [I1 I2]|y l l' Hy H [I1 I2]]; split; intros Hx; cbn [app]; try (by repeat constructor); constructor; auto. Qed.
Lemma selects_det {A} (P : A -> Prop) l l1 : selects P l l1 -> forall l2, selects P l l2 -> l2 = l1.
Proof. induction 1; intros l2 H2; inversion H2; subst; try done; try (f_equal); auto. Qed.
Lemma stands_det m t v v' : lookups_inverse m -> stands_for m t v -> stands_for m t v' -> v' = v.
Proof.
  intros W [id x H E|H] [id' x' H' E'|H']; [|exfalso|exfalso|done].
  - f_equal. assert (m_encoder m !! t = Some id) as E1 by (apply W; eauto). assert (m_encoder m !! t = Some id') as E2 by (apply W; eauto). congruence.
  - eapply H'; [by eapply elem_of_list_lookup_2|done].
  - eapply H; [by eapply elem_of_list_lookup_2|done].
Qed.
Lemma stands_ex m t : lookups_inverse m -> exists v, stands_for m t v /\ v = match m_encoder m !! t with Some k => Known k | None => Unknown t end.
Proof.
  intros W. destruct (m_encoder m !! t) as [k|] eqn:E; eexists; (split; [|done]).
  - apply W in E as (v & Hv & Ht). by eapply stands_known.
  - apply stands_unknown. intros v [i Hi]%elem_of_list_lookup Ht. assert (m_encoder m !! t = Some i) by (apply W; eauto). congruence.
Qed.
Lemma exact_encoder m x : lookups_inverse m -> exact m x <-> m_encoder m !! x.1.1 = Some x.1.2.
Proof. intros W. unfold exact. by rewrite (W _ _). Qed.

Lemma stands_list m (xs : list addition) vs : lookups_inverse m -> Forall2 (fun x (v : rvariant * f64) => stands_for m x.1.1 v.1 /\ v.2 = x.2) xs vs ->
  forall vs', Forall2 (fun x (v : rvariant * f64) => stands_for m x.1.1 v.1 /\ v.2 = x.2) xs vs' -> vs = vs'.
Proof.
  intros W. induction 1 as [|x [v1 s1] xs vs [H1 H2] _ IH]; intros vs' F'; inversion F' as [|? [v2 s2] ? vs2 [H3 H4] ?]; subst; [done|]. cbn in *. f_equal; [|by apply IH].
  f_equal; [|congruence]. by eapply stands_det.
Qed.

(** ** C96 *)
(** However many inputs are added to an empty reverse index. *)
Theorem C96_reverse_index m l : lookups_inverse m -> reverse_of m l (foldl (fun r x => add_to_reverse_index m r x.1.1 x.1.2 x.2) ∅ l).
Proof.
  intros W. induction l as [|x l IH] using rev_ind.
  - intros id vs. cbn [foldl]. split; [by rewrite lookup_empty|]. intros (Hn & xs & S & F). inversion S; subst. by inversion F.
  - rewrite foldl_app. cbn [foldl]. set (r := foldl _ _ _) in *. destruct x as [[t id0] s]. cbn [fst snd].
    destruct (stands_ex m t W) as (v0 & S0 & E0).
    assert (forall id, exists xs, selects (fun x : addition => x.1.2 = id /\ ~ exact m x) l xs) as Ex.
    { intros id. clear -W. induction l as [|x l [xs IH]]; [exists []; constructor|].
      destruct (decide (x.1.2 = id /\ m_encoder m !! x.1.1 <> Some x.1.2)) as [[H1 H2]|H].
      - exists (x :: xs). constructor; [|done]. split; [done|]. by rewrite exact_encoder.
      - exists xs. constructor; [|done]. rewrite exact_encoder; done. }
    assert (forall id, id <> id0 \/ exact m (t, id0, s) -> forall vs,
      (r !! id = Some vs <-> vs <> [] /\ exists xs, selects (fun x : addition => x.1.2 = id /\ ~ exact m x) (l ++ [(t, id0, s)]) xs /\
        Forall2 (fun x v => stands_for m x.1.1 v.1 /\ v.2 = x.2) xs vs)) as Same.
    { intros id Hid vs. rewrite (IH id vs). apply and_iff_compat_l. split; intros (xs & S & F).
      - exists xs. split; [|done]. apply (selects_snoc _ _ _ (t, id0, s) S). cbn. intros [-> H]. by destruct Hid.
      - destruct (Ex id) as (xs' & S'). assert (selects (fun x : addition => x.1.2 = id /\ ~ exact m x) (l ++ [(t, id0, s)]) xs') as S2.
        { apply (selects_snoc _ _ _ (t, id0, s) S'). cbn. intros [-> H]. by destruct Hid. }
        rewrite (selects_det _ _ _ S2 _ S) in F. by exists xs'. }
    assert (~ exact m (t, id0, s) -> reverse_of m (l ++ [(t, id0, s)]) (<[id0 := match r !! id0 with Some l => l ++ [(v0, s)] | None => [(v0, s)] end]> r)) as Push.
    { intros Hx id vs. destruct (decide (id = id0)) as [->|Hid]; [|rewrite lookup_insert_ne by done; by apply Same; left].
      rewrite lookup_insert. destruct (Ex id0) as (xs & S). pose proof (proj1 (selects_snoc _ _ _ (t, id0, s) S) (conj eq_refl Hx)) as S2.
      set (ws := match r !! id0 with Some l => l | None => [] end).
      assert (Forall2 (fun x v => stands_for m x.1.1 v.1 /\ v.2 = x.2) xs ws) as F.
      { subst ws. destruct (r !! id0) as [vs'|] eqn:Er.
        - apply IH in Er as (_ & xs' & S' & F'). by rewrite (selects_det _ _ _ S _ S') in F'.
        - assert (forall vs, Forall2 (fun (x : addition) (v : rvariant * f64) => stands_for m x.1.1 v.1 /\ v.2 = x.2) xs vs -> vs = []) as Hn.
          { intros [|v vs'] F; [done|]. assert (r !! id0 = Some (v :: vs')) as H; [|congruence]. apply IH. split; [done|]. by exists xs. }
          assert (exists vs, Forall2 (fun (x : addition) (v : rvariant * f64) => stands_for m x.1.1 v.1 /\ v.2 = x.2) xs vs) as (vs' & F).
          { clear -W. induction xs as [|x xs [vs IHx]]; [exists []; constructor|]. destruct (stands_ex m x.1.1 W) as (v & Hv & _).
            exists ((v, x.2) :: vs). by constructor. }
          rewrite (Hn _ F) in F. exact F. }
      replace (match r !! id0 with Some l0 => l0 ++ [(v0, s)] | None => [(v0, s)] end) with (ws ++ [(v0, s)]) by (subst ws; by destruct (r !! id0)).
      assert (Forall2 (fun x v => stands_for m x.1.1 v.1 /\ v.2 = x.2) (xs ++ [(t, id0, s)]) (ws ++ [(v0, s)])) as F2 by (apply Forall2_app; [done|]; by repeat constructor).
      split.
      - intros [= <-]. split; [by destruct ws|]. by exists (xs ++ [(t, id0, s)]).
      - intros (_ & xs' & S' & F'). rewrite (selects_det _ _ _ S2 _ S') in F'. f_equal. exact (stands_list _ _ _ W F2 _ F'). }
    unfold add_to_reverse_index. destruct (m_encoder m !! t) as [k|] eqn:Et.
    + destruct (Nat.eqb_spec k id0) as [->|Hk].
      * intros id vs. apply Same. right. by apply exact_encoder.
      * rewrite <- E0. apply Push. rewrite exact_encoder by done. cbn. congruence.
    + rewrite <- E0. apply Push. rewrite exact_encoder by done. cbn. congruence.
Qed.
Print Assumptions C96_reverse_index.
(** Two inputs for an entry, one of them another entry, and the entry itself. *)
Example C96_ex : lookups_inverse (C_Find.idx C_Find.exG) /\
  map_to_list (foldl (fun r (x : addition) => add_to_reverse_index (C_Find.idx C_Find.exG) r x.1.1 x.1.2 x.2) ∅
    [(lit "baax", 3, f1); (lit "baab", 3, f0); (lit "baaa", 3, f1); (lit "baax", 4, f0)]) =
    [(3, [(Unknown (lit "baax"), f1); (Known 5, f0)]); (4, [(Unknown (lit "baax"), f0)])].
Proof. split; [exact (proj1 C_Learn.C38_ex)|by vm_compute]. Qed.

(** ** C97 *)
Lemma cut_line (a b x y : str) : 10%N ∉ a -> 10%N ∉ b -> a ++ newline ++ x = b ++ newline ++ y -> a = b /\ x = y.
Proof.
  revert b. induction a as [|c a IH]; intros [|d b] Ha Hb E; cbn in E.
  - by injection E.
  - injection E as <- _. by destruct Hb; left.
  - injection E as -> _. by destruct Ha; left.
  - injection E as -> E. apply IH in E as [-> ->]; [done| |]; intros H; [apply Ha|apply Hb]; by right.
Qed.
Lemma cut_field s (a b x y : str) : 10%N ∉ a -> 10%N ∉ b -> field s a ++ x = field s b ++ y -> a = b /\ x = y.
Proof.
  intros Ha Hb E. unfold field in E. rewrite <- !app_assoc in E. apply app_inv_head in E. apply app_inv_head in E. apply app_inv_head in E. by apply cut_line.
Qed.
Lemma show_digits n c : c ∈ show n -> (48 <= c <= 57)%N.
Proof.
  destruct (P_Json.show_spec n) as (d & s & -> & Hd & Hs & _). intros H. apply elem_of_cons in H as [->|H]; [exact Hd|]. rewrite Forall_forall in Hs. exact (Hs _ H).
Qed.
Lemma show_inj n k : show n = show k -> n = k.
Proof.
  intros E. destruct (P_Json.show_spec n) as (? & ? & _ & _ & _ & _ & _ & P1). destruct (P_Json.show_spec k) as (? & ? & _ & _ & _ & _ & _ & P2). congruence.
Qed.
Lemma whole_inj n k : show (N.of_nat n) = show (N.of_nat k) -> n = k.
Proof. intros E%show_inj. lia. Qed.
Lemma truth_inj a b : truth a = truth b -> a = b.
Proof. by destruct a, b. Qed.
Section show.
  Context (fmt : f64 -> str) (fmt32 debug32 : f32 -> str) (W : written double fmt) (W32 : written single fmt32) (WD : written single debug32).
  Lemma whole_line n : 10%N ∉ show n.
  Proof. intros H%show_digits. lia. Qed.
  Lemma threshold_line t : threshold_number t -> 10%N ∉ debug_threshold debug32 t.
  Proof using WD.
    assert (forall s : str, bool_decide (10%N ∈ s) = false -> 10%N ∉ s) as D by (intros s H; by apply bool_decide_eq_false in H).
    intros Ht; destruct t as [x|x n|n]; cbn in Ht; unfold debug_threshold; rewrite ?not_elem_of_app; repeat split; try (apply D; by vm_compute); try apply whole_line; by apply (wr_plain _ _ WD).
  Qed.
  Lemma threshold_inj t t' : threshold_number t -> threshold_number t' -> debug_threshold debug32 t = debug_threshold debug32 t' -> t = t'.
  Proof using WD.
    destruct t as [x|x n|n], t' as [x'|x' n'|n']; unfold debug_threshold; intros Ht Ht' E; cbn in Ht, Ht'; try (cbn in E; discriminate E).
    - apply app_inv_head, app_inv_tail in E. f_equal. by apply (wr_one _ _ WD).
    - apply app_inv_head in E.
      assert (forall a b c d : str, 44%N ∉ a -> 44%N ∉ b -> a ++ 44%N :: c = b ++ 44%N :: d -> a = b /\ c = d) as K.
      { clear. induction a as [|u a IH]; intros [|v b] c d Ha Hb E; cbn in E.
        - by injection E.
        - injection E as <- _. by destruct Hb; left.
        - injection E as -> _. by destruct Ha; left.
        - injection E as -> E. apply IH in E as [-> ->]; [done| |]; intros H; [apply Ha|apply Hb]; by right. }
      apply K in E as [E1 E2]; [|by apply (wr_plain _ _ WD)..]. apply (wr_one _ _ WD) in E1 as ->; [|done..]. injection E2 as E2. apply app_inv_tail, whole_inj in E2. by rewrite E2.
    - apply app_inv_head, app_inv_tail, whole_inj in E. by rewrite E.
  Qed.
  Lemma truth_line b : 10%N ∉ truth b.
  Proof. destruct b; apply (bool_decide_eq_false (10%N ∈ _)); by vm_compute. Qed.

  (** Parameters that are shown alike differ at most in the stop criterion and
      the context weight. *)
  Theorem C97_shown P P' : numbers P -> numbers P' -> display_parameters fmt fmt32 debug32 P = display_parameters fmt fmt32 debug32 P' ->
    P' = ToolParameters
      (SearchParameters (p_max_anagram_distance (tp_search P)) (p_max_edit_distance (tp_search P)) (p_max_matches (tp_search P)) (p_score_threshold (tp_search P))
        (p_cutoff_threshold (tp_search P)) (p_stop_criterion (tp_search P')) (p_max_ngram (tp_search P)) (p_max_seq (tp_search P)) (p_variantmodel_weight (tp_search P))
        (p_lm_weight (tp_search P)) (p_contextrules_weight (tp_search P)) (p_freq_weight (tp_search P)) (p_unicodeoffsets (tp_search P)))
      (tp_single_thread P) (tp_consolidate_matches P) (tp_lm_order P) (tp_context_weight P').
  Proof using W W32 WD.
    destruct P as [[a1 a2 a3 a4 a5 a6 a7 a8 a9 a10 a11 a12 a13] a14 a15 a16 a17], P' as [[b1 b2 b3 b4 b5 b6 b7 b8 b9 b10 b11 b12 b13] b14 b15 b16 b17].
    cbv [display_parameters]. cbn [tp_search tp_single_thread tp_consolidate_matches tp_lm_order tp_context_weight p_max_anagram_distance p_max_edit_distance p_max_matches
      p_score_threshold p_cutoff_threshold p_stop_criterion p_max_ngram p_max_seq p_variantmodel_weight p_lm_weight p_contextrules_weight p_freq_weight p_unicodeoffsets].
    intros [Ha1 Ha2 Ha4 Ha5 Ha12 Ha9 Ha10 Ha11] [Hb1 Hb2 Hb4 Hb5 Hb12 Hb9 Hb10 Hb11] E. cbn [tp_search p_max_anagram_distance p_max_edit_distance p_score_threshold p_cutoff_threshold p_freq_weight p_variantmodel_weight p_lm_weight p_contextrules_weight] in Ha1, Ha2, Ha4, Ha5, Ha12, Ha9, Ha10, Ha11, Hb1, Hb2, Hb4, Hb5, Hb12, Hb9, Hb10, Hb11.
    apply cut_field in E as [E1 E]; [|by apply threshold_line..]. apply threshold_inj in E1 as ->; [|done..].
    apply cut_field in E as [E1 E]; [|by apply threshold_line..]. apply threshold_inj in E1 as ->; [|done..].
    apply cut_field in E as [->%whole_inj E]; [|apply whole_line..].
    apply cut_field in E as [E1 E]; [|by apply (wr_plain _ _ W)..]. apply (wr_one _ _ W) in E1 as ->; [|done..].
    apply cut_field in E as [E1 E]; [|by apply (wr_plain _ _ W)..]. apply (wr_one _ _ W) in E1 as ->; [|done..].
    apply cut_field in E as [->%whole_inj E]; [|apply whole_line..].
    apply cut_field in E as [->%whole_inj E]; [|apply whole_line..].
    apply cut_field in E as [->%truth_inj E]; [|apply truth_line..].
    apply cut_field in E as [->%whole_inj E]; [|apply whole_line..].
    do 4 (apply cut_field in E as [E1 E]; [|by apply (wr_plain _ _ W32)..]; apply (wr_one _ _ W32) in E1 as ->; [|done..]).
    apply cut_field in E as [->%truth_inj E]; [|apply truth_line..].
    rewrite <- (app_nil_r (field _ _)) in E. rewrite <- (app_nil_r (field _ (truth b13))) in E.
    apply cut_field in E as [->%truth_inj E]; [|apply truth_line..]. done.
  Qed.
End show.
Print Assumptions C97_shown.

(** Whatever the way of writing numbers: the stop criterion and the context
    weight are not shown. *)
Theorem C97_refuted : exists P P', numbers P /\ numbers P' /\ P <> P' /\ p_stop_criterion (tp_search P) <> p_stop_criterion (tp_search P') /\
  forall fmt fmt32 debug32, display_parameters fmt fmt32 debug32 P = display_parameters fmt fmt32 debug32 P'.
Proof.
  exists (ToolParameters (SearchParameters (TAbsolute 3) (TRatio f0) 20 f0 f1 Exhaustive 3 250 f0 f0 f0 f0 false) true true 3 f0).
  exists (ToolParameters (SearchParameters (TAbsolute 3) (TRatio f0) 20 f0 f1 StopAtExactMatch 3 250 f0 f0 f0 f0 false) true true 3 f0).
  split; [by split|]. split; [by split|]. split; [discriminate|]. split; [discriminate|]. reflexivity.
Qed.
Print Assumptions C97_refuted.

(** a way of writing numbers: the parts of a number *)
Definition parts (x : f64) : str :=
  match x with
  | S754_zero s => truth s ++ lit " zero"
  | S754_infinity s => truth s ++ lit " infinity"
  | S754_nan => lit "NaN"
  | S754_finite s m e => truth s ++ lit " " ++ show (Npos m) ++ (if (e <? 0)%Z then lit "-" else lit "+") ++ show (Z.to_N (Z.abs e))
  end.
Lemma cut_digits (a b : N) (x y : str) c d : ~ (48 <= c <= 57)%N -> ~ (48 <= d <= 57)%N -> show a ++ c :: x = show b ++ d :: y -> a = b /\ c = d /\ x = y.
Proof.
  intros Hc Hd E. enough (show a = show b /\ c :: x = d :: y) as [H1%show_inj [= -> ->]] by done.
  assert (forall u v : str, (forall k, k ∈ u -> (48 <= k <= 57)%N) -> (forall k, k ∈ v -> (48 <= k <= 57)%N) -> u ++ c :: x = v ++ d :: y -> u = v /\ c :: x = d :: y) as K.
  { clear -Hc Hd. induction u as [|k u IH]; intros [|l v] Hu Hv E; cbn in E; [done| | |].
    - injection E as -> _. destruct Hc. apply Hv. by left.
    - injection E as <- _. destruct Hd. apply Hu. by left.
    - injection E as -> E. apply IH in E as [-> ->]; [done| |]; intros z Hz; [apply Hu|apply Hv]; by right. }
  apply K; [apply show_digits..|done].
Qed.
Lemma parts_written ok : written ok parts.
Proof.
  split.
  - intros x y _ _. assert (forall a s b t, truth s ++ 32%N :: a = truth t ++ 32%N :: b -> s = t /\ a = b) as K.
    { intros a [] b [] E; cbn in E; try discriminate E; split; try done; by injection E. }
    assert (forall n a c, show n ++ a = c :: tail (lit "zero") \/ show n ++ a = c :: tail (lit "infinity") -> (48 <= c <= 57)%N) as D.
    { intros n a c H. apply (show_digits n). destruct (P_Json.show_spec n) as (k & r & En & _). rewrite En in *. destruct H as [[= -> _]|[= -> _]]; by left. }
    destruct x as [s|s| |s m e], y as [t|t| |t n k]; unfold parts; intros E; try done;
      try (destruct s; discriminate E); try (destruct t; discriminate E);
      try (apply (K (lit "zero") s (lit "zero") t) in E as [-> _]; done);
      try (apply (K (lit "infinity") s (lit "infinity") t) in E as [-> _]; done);
      try (apply (K (lit "zero") s (lit "infinity") t) in E as [_ E]; discriminate E);
      try (apply (K (lit "infinity") s (lit "zero") t) in E as [_ E]; discriminate E).
    + apply (K (lit "zero") s _ t) in E as [_ E]. symmetry in E. specialize (D _ _ 122%N (or_introl E)). lia.
    + apply (K (lit "infinity") s _ t) in E as [_ E]. symmetry in E. specialize (D _ _ 105%N (or_intror E)). lia.
    + apply (K _ s (lit "zero") t) in E as [_ E]. specialize (D _ _ 122%N (or_introl E)). lia.
    + apply (K _ s (lit "infinity") t) in E as [_ E]. specialize (D _ _ 105%N (or_intror E)). lia.
    + apply (K _ s _ t) in E as [-> E].
      assert (exists c d, (if (e <? 0)%Z then lit "-" else lit "+") = [c] /\ (if (k <? 0)%Z then lit "-" else lit "+") = [d] /\ ~ (48 <= c <= 57)%N /\ ~ (48 <= d <= 57)%N /\
        (c = d -> (e <? 0)%Z = (k <? 0)%Z)) as (c & d & Ec & Ed & Hc & Hd & Hs).
      { destruct (e <? 0)%Z, (k <? 0)%Z; [exists 45%N, 45%N|exists 45%N, 43%N|exists 43%N, 45%N|exists 43%N, 43%N]; (split; [reflexivity|]); (split; [reflexivity|]); (split; [lia|]); (split; [lia|]); intros H; first [done|lia]. }
      rewrite Ec, Ed in E. cbn [app] in E. apply cut_digits in E as (E1 & E2 & E3); [|done..]. injection E1 as ->. apply show_inj in E3. specialize (Hs E2).
      f_equal. destruct (Z.ltb_spec e 0), (Z.ltb_spec k 0); try done; lia.
  - assert (forall c : N, (c = 10 \/ c = 44)%N -> forall x, c ∉ parts x) as K; [|intros x _; split; apply K; auto].
    intros c Hc x. assert (forall s : str, bool_decide (10%N ∈ s) = false -> bool_decide (44%N ∈ s) = false -> c ∉ s) as D.
    { intros s H1%bool_decide_eq_false H2%bool_decide_eq_false. by destruct Hc as [-> | ->]. }
    assert (forall n, c ∉ show n) as S by (intros n H%show_digits; lia).
    destruct x as [s|s| |s m e]; unfold parts; rewrite ?not_elem_of_app; repeat split; try apply S; try (destruct s; apply D; by vm_compute); try (apply D; by vm_compute).
    destruct (e <? 0)%Z; apply D; by vm_compute.
Qed.
Example C97_ex : written double parts /\ written single parts /\
  numbers (ToolParameters (SearchParameters (TAbsolute 3) (TRatioWithLimit f0 2) 20 f1 f0 Exhaustive 3 250 f0 f0 f0 f0 false) true false 3 f0) /\
  display_parameters parts parts parts (ToolParameters (SearchParameters (TAbsolute 3) (TRatioWithLimit f0 2) 20 f1 f0 Exhaustive 3 250 f0 f0 f0 f0 false) true false 3 f0) =
  lit " max_anagram_distance=Absolute(3)
 max_edit_distance=RatioWithLimit(false zero, 2)
 max_matches=20
 score_threshold=false 4503599627370496-52
 cutoff_threshold=false zero
 max_ngram=3
 lm_order=3
 single_thread=true
 max_seq=250
 freq_weight=false zero
 variantmodel_weight=false zero
 lm_weight=false zero
 contextrules_weight=false zero
 consolidate_matches=false
 unicodeoffsets=false
".
Proof. split; [apply parts_written|]. split; [apply parts_written|]. split; [by split|by vm_compute]. Qed.
