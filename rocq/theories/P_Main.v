(** Alphabet files, start-up, and conversions to text. *)
From Coq Require Import Lia Sorted.
From Verif Require Import M_Base M_Anahash M_Float M_Types M_Model M_Confusable M_ConfList M_Rules M_Text M_Cli M_Main.
From Verif Require Import S_Anahash S_Model S_Confusable S_Rules S_Main P_Base P_Model P_Vocab P_Links P_Parse P_Confusable P_Files.
From stdpp Require Import options.

(** * Alphabet files *)
Section alphabet.
  Context (ws : N -> bool).
  #[local] Set Default Proof Using "All".
  Lemma trim_cases x : (trim ws x = [] /\ blank ws x) \/
    (exists l f r, x = l ++ f ++ r /\ blank ws l /\ blank ws r /\ f <> [] /\ trimmed ws f /\ trim ws x = f).
  Proof.
    destruct (split_ws ws x) as [H|(l & c & r & -> & Hl & Hc)].
    - left. split; [|done]. rewrite (trim_unfold ws), (trim_start_all ws) by done. done.
    - right. destruct (split_ws ws (reverse (c :: r))) as [H|(r' & d & f & E & Hr & Hd)].
      { exfalso. apply Forall_reverse in H. rewrite reverse_involutive in H. inversion H. congruence. }
      apply (f_equal reverse) in E. rewrite reverse_involutive, reverse_app, reverse_cons in E.
      assert (T : trimmed ws (reverse f ++ [d])).
      { split; intros e He; [|rewrite last_snoc in He; congruence].
        destruct (reverse f) as [|e' f'] eqn:Ef; cbn in He; [congruence|]. cbn in E. congruence. }
      exists l, (reverse f ++ [d]), (reverse r'). split_and!; [by rewrite E|done|by apply Forall_reverse|by destruct (reverse f)|done|].
      rewrite E, (trim_pad ws); [by apply (trim_fixed ws)|done|by apply Forall_reverse].
  Qed.
  Lemma escapes_keys x : x ∉ map fst escapes <-> x <> [92; 115]%N /\ x <> [92; 116]%N /\ x <> [92; 110]%N.
  Proof. unfold escapes. cbn [map fst]. rewrite !not_elem_of_cons. split; [tauto|]. intros (?&?&?). split_and!; [done..|apply not_elem_of_nil]. Qed.
  Lemma field_spec x o : field_says ws x o <-> alphabet_field ws x = o.
  Proof.
    split.
    - intros H. unfold alphabet_field. destruct H as [f H|l f r Hx -> Hl Hr Hf T|Hx Hb].
      + unfold escapes in H. rewrite !elem_of_cons in H. destruct H as [[= -> ->]|[[= -> ->]|[[= -> ->]|H]]]; [done..|].
        by apply elem_of_nil in H.
      + apply escapes_keys in Hx as (H1 & H2 & H3). rewrite !bool_decide_eq_false_2 by done.
        rewrite (trim_pad ws), (trim_fixed ws) by done. by destruct f.
      + apply escapes_keys in Hx as (H1 & H2 & H3). rewrite !bool_decide_eq_false_2 by done.
        rewrite (trim_unfold ws), (trim_start_all ws) by done. done.
    - unfold alphabet_field. case_bool_decide as H1; [intros <-; subst; apply field_escape; unfold escapes; by repeat constructor|].
      case_bool_decide as H2; [intros <-; subst; apply field_escape; unfold escapes; by repeat constructor|].
      case_bool_decide as H3; [intros <-; subst; apply field_escape; unfold escapes; by repeat constructor|].
      assert (Hx : x ∉ map fst escapes) by (by apply escapes_keys).
      destruct (trim_cases x) as [[-> Hb]|(l & f & r & Ex & Hl & Hr & Hf & T & E)].
      + intros <-. by apply field_blank.
      + rewrite E. destruct f as [|c f]; [done|]. intros <-. by eapply (field_text ws x l (c :: f) r).
  Qed.
  Lemma forms_spec xs fs : forms_say ws xs fs <-> omap (alphabet_field ws) xs = fs.
  Proof.
    split.
    - induction 1 as [|x f xs fs H _ IH|x xs fs H _ IH]; [done|..]; apply field_spec in H; cbn; rewrite H; by rewrite IH.
    - intros <-. induction xs as [|x xs IH]; cbn; [constructor|]. destruct (alphabet_field ws x) as [f|] eqn:E.
      + constructor; [by apply field_spec|done].
      + constructor; [by apply field_spec|done].
  Qed.
  Lemma alphabet_spec lines A : alphabet_says ws lines A <-> read_alphabet ws lines = A.
  Proof.
    unfold read_alphabet. split.
    - induction 1 as [|ls A _ IH|ls A _ IH|l xs fs ls A Hl F G _ IH]; [done..|].
      apply fields_det in F as ->. apply forms_spec in G. destruct l as [|c l]; [done|]. cbn [omap list_omap]. unfold alphabet_line at 1.
      rewrite G. by rewrite <- IH.
    - intros <-. induction lines as [|[l|] ls IH]; [constructor| |by constructor].
      destruct l as [|c l]; [by constructor|]. cbn [omap list_omap]. unfold alphabet_line at 1.
      eapply alphabet_char; [done|apply split_on_fields|by apply forms_spec|exact IH].
  Qed.

  (** what can be written *)
  Lemma field_writable x f : 9%N ∉ x -> 10%N ∉ x -> alphabet_field ws x = Some f -> writable ws f.
  Proof.
    intros H9 H10 H. apply field_spec in H. inversion H as [? He|l ? r Hx -> Hl Hr Hf T|]; subst.
    - left. apply elem_of_list_fmap. exists (x, f). done.
    - right. rewrite !elem_of_app in *. split_and!; [done..| |]; tauto.
  Qed.
  Definition write_form (f : str) : str :=
    if bool_decide (f = [32]%N) then [92; 115]%N else if bool_decide (f = [9]%N) then [92; 116]%N
    else if bool_decide (f = [10]%N) then [92; 110]%N else 32%N :: f.
  Lemma write_form_ok f : ws 32%N = true -> writable ws f -> alphabet_field ws (write_form f) = Some f /\ 9%N ∉ write_form f /\ 10%N ∉ write_form f.
  Proof.
    intros H32 Hw. unfold write_form. repeat case_bool_decide; subst; [split; [done|split; rewrite !not_elem_of_cons; split_and!; first [done|apply not_elem_of_nil]]..|].
    destruct Hw as [Hw|(Hf & T & H9 & H10)].
    { exfalso. unfold escapes in Hw. cbn [map snd] in Hw. rewrite !elem_of_cons in Hw. destruct Hw as [->|[->|[->|Hw]]]; [done..|by apply elem_of_nil in Hw]. }
    split; [|split; by apply not_elem_of_cons].
    apply field_spec. eapply (field_text ws _ [32%N] f []); [|by rewrite app_nil_r|by constructor|constructor|done|done].
    apply escapes_keys. split_and!; congruence.
  Qed.
  Fixpoint tabs (xs : list str) : str := match xs with [] => [] | [x] => x | x :: xs => x ++ 9%N :: tabs xs end.
  Lemma split_tabs xs : xs <> [] -> Forall (fun x => 9%N ∉ x) xs -> split_on 9 (tabs xs) = xs.
  Proof.
    induction xs as [|x xs IH]; [done|]. intros _ [H1 H2]%Forall_cons. destruct xs as [|y xs]; [by apply split_on_none|].
    change (tabs (x :: y :: xs)) with (x ++ 9%N :: tabs (y :: xs)). rewrite split_on_cons by done. by rewrite IH.
  Qed.
  Lemma tabs_elem c xs : c ∈ tabs xs -> c = 9%N \/ exists x, x ∈ xs /\ c ∈ x.
  Proof.
    induction xs as [|x xs IH]; [by intros ?%elem_of_nil|]. destruct xs as [|y xs]; [intros H; right; exists x; set_solver|].
    change (tabs (x :: y :: xs)) with (x ++ 9%N :: tabs (y :: xs)). rewrite elem_of_app, elem_of_cons.
    intros [H|[->|H]]; [right; exists x; set_solver|by left|]. destruct (IH H) as [->|(z & Hz & ?)]; [by left|].
    right. exists z. split; [|done]. by apply elem_of_cons; right.
  Qed.
  Definition write_line (fs : list str) : str := match fs with [] => [32%N] | _ => tabs (map write_form fs) end.
  Lemma write_line_ok fs : ws 32%N = true -> Forall (writable ws) fs -> alphabet_line ws (Some (write_line fs)) = Some fs /\ 10%N ∉ write_line fs.
  Proof.
    intros H32 W. destruct fs as [|f fs].
    { split; [|cbn; set_solver]. unfold write_line, alphabet_line. f_equal. apply forms_spec.
      assert (split_on 9 [32]%N = [[32%N]]) as -> by done. apply forms_skip; [|constructor].
      apply field_blank; [apply escapes_keys; split_and!; done|]. by repeat constructor. }
    set (xs := map write_form (f :: fs)). assert (Nl : write_line (f :: fs) = tabs xs) by done. rewrite Nl.
    assert (E : split_on 9 (tabs xs) = xs).
    { apply split_tabs; [done|]. unfold xs. apply Forall_map. eapply Forall_impl; [exact W|]. intros g Hg. by apply write_form_ok. }
    split.
    - assert (tabs xs <> []) as Hn.
      { unfold xs. cbn [map]. assert (write_form f <> []) by (unfold write_form; by repeat case_bool_decide).
        destruct (map write_form fs); cbn [tabs]; [done|]. by destruct (write_form f). }
      destruct (tabs xs) as [|c l] eqn:Et; [done|]. unfold alphabet_line. rewrite E. f_equal. unfold xs. clear -W H32.
      induction W as [|g gs Hg _ IH]; [done|]. cbn [map omap list_omap]. destruct (write_form_ok g H32 Hg) as [-> _]. by rewrite IH.
    - intros H. apply tabs_elem in H as [H|(x & Hx & H)]; [done|]. unfold xs in Hx. apply elem_of_list_fmap in Hx as (g & -> & Hg).
      rewrite Forall_forall in W. by apply (write_form_ok g H32 (W g Hg)).
  Qed.
  Lemma writable_spec A : ws 32%N = true ->
    (exists lines, Forall (fun l => 10%N ∉ l) lines /\ read_alphabet ws (map Some lines) = A) <-> Forall (Forall (writable ws)) A.
  Proof.
    intros H32. split.
    - intros (lines & F & <-). unfold read_alphabet. induction F as [|l lines Hl _ IH]; [constructor|]. cbn [map omap list_omap].
      unfold alphabet_line at 1. destruct l as [|c l]; [done|]. constructor; [|done].
      apply Forall_forall. intros f Hf. apply elem_of_list_omap in Hf as (x & Hx & Hf).
      assert (X : forall sep s fs y d, fields_of sep s fs -> y ∈ fs -> d ∈ y -> d ∈ s /\ d <> sep).
      { clear. induction 1 as [g Hg|g rest fs Hg _ IH]; intros Hy Hd.
        - apply elem_of_list_singleton in Hy as ->. split; [done|]. by intros ->.
        - apply elem_of_cons in Hy as [->|Hy].
          + split; [set_solver|]. by intros ->.
          + destruct (IH Hy Hd). split; [set_solver|done]. }
      apply (field_writable x f); [| |done].
      + intros H9. by destruct (X 9%N _ _ _ 9%N (split_on_fields 9 (c :: l)) Hx H9).
      + intros H10. apply Hl. by destruct (X 9%N _ _ _ 10%N (split_on_fields 9 (c :: l)) Hx H10).
    - intros W. exists (map write_line A). unfold read_alphabet. induction W as [|fs A Hf _ IH]; [split; [constructor|done]|]. destruct IH as [I1 I2].
      destruct (write_line_ok fs H32 Hf) as [E1 E2]. split; [by constructor|]. cbn [map omap list_omap]. rewrite E1. by rewrite I2.
  Qed.
  Lemma read_alphabet_ok lines : length (filter (fun l => l <> None /\ l <> Some []) lines) <= 167 -> alphabet_ok (read_alphabet ws lines).
  Proof.
    intros H. unfold read_alphabet. split.
    - etransitivity; [|exact H]. clear H. apply Nat.eq_le_incl. induction lines as [|o ls IH]; [done|]. rewrite filter_cons. cbn [omap list_omap].
      destruct o as [[|c l]|]; cbn [alphabet_line]; destruct (decide _) as [D|D]; cbn; try rewrite IH; try done; naive_solver.
    - intros fs f Hf Hg. apply elem_of_list_omap in Hf as (o & _ & E). destruct o as [[|c l]|]; try done. injection E as <-.
      apply elem_of_list_omap in Hg as (x & _ & E). apply field_spec in E. inversion E as [? He| |]; subst; [|done].
      unfold escapes in He. rewrite !elem_of_cons in He. destruct He as [[= _ ->]|[[= _ ->]|[[= _ ->]|He]]]; [done..|by apply elem_of_nil in He].
  Qed.
End alphabet.

(** * Files *)
Lemma as_u8_small n : n < 256 -> as_u8 n = n.
Proof. intros H. unfold as_u8. apply Nat.mod_small. lia. Qed.
Section files.
  Context (pf : str -> option f64).
  #[local] Set Default Proof Using "All".
  Definition load_source (m : model) (s : source) : res model :=
    match s with
    | Given r => load_resource pf m r
    | Lm f => read_vocabulary m (f_name f) (f_lines f) lm_params
    end.
  Lemma read_source m0 adds lt m s m' : length (m_lexicons m) < 256 ->
    st m0 adds lt m -> load_source m s = Ok m' ->
    exists a l, source_says pf (length (m_lexicons m)) s a l /\ st m0 (adds ++ a) (lt ++ l) m' /\ m_lexicons m' = m_lexicons m ++ [source_name s].
  Proof.
    intros Hi S H. destruct s as [[f|f|f]|f]; cbn in H.
    - destruct (read_lexicon _ _ _ _ _ _ _ _ S H) as (l & F & S' & L). rewrite as_u8_small in F by done.
      exists l, []. rewrite app_nil_r. split; [by constructor|]. done.
    - destruct (read_list pf _ _ _ _ _ _ _ _ _ S H) as (es & F & S' & L). rewrite as_u8_small in S' by done.
      eexists _, _. split; [by apply says_variants|]. done.
    - destruct (read_list pf _ _ _ _ _ _ _ _ _ S H) as (es & F & S' & L). rewrite as_u8_small in S' by done.
      eexists _, _. split; [by apply says_errors|]. done.
    - destruct (read_lexicon _ _ _ _ _ _ _ _ S H) as (l & F & S' & L). rewrite as_u8_small in F by done.
      exists l, []. rewrite app_nil_r. split; [by constructor|]. done.
  Qed.
  Lemma write_source m0 adds lt m s a l rest r' : length (m_lexicons m) < 256 ->
    st m0 adds lt m -> source_says pf (length (m_lexicons m)) s a l -> run_adds m0 (adds ++ a ++ rest) = Ok r' ->
    exists m', load_source m s = Ok m'.
  Proof.
    intros Hi S Hs H. destruct Hs as [f a F|f a F|f es F|f es F]; cbn.
    - eapply write_lexicon; [exact S| |exact H]. by rewrite as_u8_small.
    - eapply write_lexicon; [exact S| |exact H]. by rewrite as_u8_small.
    - eapply (write_list pf _ _ _ _ _ _ (Some vocab_params_default) false); [exact S|exact F|]. rewrite as_u8_small by done. exact H.
    - eapply (write_list pf _ _ _ _ _ _ (Some vocab_params_default) true); [exact S|exact F|]. rewrite as_u8_small by done. exact H.
  Qed.
  Lemma says_same i s a l a' l' : source_says pf i s a l -> source_says pf i s a' l' -> a' = a /\ l' = l.
  Proof.
    assert (LD : forall p x y y', line_adds p x y -> line_adds p x y' -> y' = y).
    { intros p x y y' (fs & t & F & Ht & f & -> & Hf) (fs' & t' & F' & Ht' & f' & -> & Hf').
      apply fields_det in F, F'. subst fs'. rewrite <- F in *. rewrite Ht in Ht'. injection Ht' as <-.
      assert (f' = f) as ->; [|done]. destruct (vp_freq_column p) as [c|]; [|congruence].
      destruct (fs !! c); [|congruence]. apply parse_uint_spec in Hf, Hf'. congruence. }
    assert (FD : forall p xs ys ys', Forall2 (line_adds p) xs ys -> Forall2 (line_adds p) xs ys' -> ys' = ys).
    { intros p xs ys ys' F. revert ys'. induction F as [|x y xs ys H _ IH]; intros ys' F'; inversion F'; subst; [done|].
      f_equal; [by eapply LD|by apply IH]. }
    intros H H'. destruct H; inversion H'; subst; split; try done; try (by eapply FD);
      match goal with A : list_says pf _ ?x, B : list_says pf _ ?y |- _ => by rewrite (list_says_det pf _ _ _ A B) end.
  Qed.
  Lemma read_sources m0 : forall ss adds lt m m', length (m_lexicons m) + length ss <= 256 ->
    st m0 adds lt m -> rfoldl load_source m ss = Ok m' ->
    exists a l, sources_say pf (length (m_lexicons m)) ss a l /\ st m0 (adds ++ a) (lt ++ l) m' /\ m_lexicons m' = m_lexicons m ++ map source_name ss.
  Proof.
    induction ss as [|s ss IH]; intros adds lt m m' Hi S H; cbn [rfoldl] in H.
    - injection H as <-. exists [], []. rewrite !app_nil_r. split; [constructor|done].
    - cbn in Hi. apply rbind_ok in H as (m1 & E & H). destruct (read_source m0 adds lt m s m1 ltac:(lia) S E) as (a & l & Hs & S1 & L1).
      assert (length (m_lexicons m1) = 1 + length (m_lexicons m)) as E1 by (rewrite L1, app_length; cbn; lia).
      destruct (IH _ _ m1 m' ltac:(lia) S1 H) as (a' & l' & Hss & S2 & L2). rewrite E1 in Hss.
      exists (a ++ a'), (l ++ l'). rewrite !app_assoc. split; [by constructor|]. split; [done|]. rewrite L2, L1, <- app_assoc. done.
  Qed.
  Lemma write_sources m0 i : forall ss adds lt m a l rest r', length (m_lexicons m) + length ss <= 256 -> length (m_lexicons m) = i ->
    st m0 adds lt m -> sources_say pf i ss a l -> run_adds m0 (adds ++ a ++ rest) = Ok r' ->
    exists m', rfoldl load_source m ss = Ok m'.
  Proof.
    intros ss adds lt m a l rest r' Hi Ei S Hss H. revert adds lt m Hi Ei S H. induction Hss as [i|i s ss a l a' l' Hs Hss IH]; intros adds lt m Hi Ei S H; cbn [rfoldl]; [eauto|].
    subst i. cbn in Hi. rewrite <- app_assoc in H. destruct (write_source m0 adds lt m s a l _ _ ltac:(lia) S Hs H) as (m1 & E). rewrite E. cbn [rbind].
    destruct (read_source m0 adds lt m s m1 ltac:(lia) S E) as (a1 & l1 & Hs' & S1 & L1).
    destruct (says_same _ _ _ _ _ _ Hs Hs') as [-> ->].
    assert (length (m_lexicons m1) = 1 + length (m_lexicons m)) as E1 by (rewrite L1, app_length; cbn; lia).
    eapply (IH _ _ m1); [lia|done|exact S1|]. rewrite <- app_assoc. exact H.
  Qed.

  (** which files mention a text *)
  Lemma mentions_says i s a l t : source_says pf i s a l ->
    (mentions pf s t <-> exists x, x ∈ a /\ x.1.1 = t) /\ (forall x, x ∈ a -> vp_index x.2 = N.of_nat i).
  Proof.
    assert (LX : forall ty f adds, Forall2 (line_adds (default_params i ty)) (filter (fun l => l <> []) (f_lines f)) adds ->
      ((exists l fs, l ∈ f_lines f /\ l <> [] /\ fields_of 9 l (t :: fs)) <-> exists x, x ∈ adds /\ x.1.1 = t) /\
      (forall x, x ∈ adds -> vp_index x.2 = N.of_nat i)).
    { intros ty f adds F. split; [split|].
      - intros (l0 & fs & Hl & Hn & Hf). assert (Hin : l0 ∈ filter (fun l => l <> []) (f_lines f)) by (by apply elem_of_list_filter).
        apply elem_of_list_lookup in Hin as (k & Hk). destruct (Forall2_lookup_l _ _ _ _ _ F Hk) as (x & Hx & (fs' & t' & F' & Ht & f' & -> & _)).
        apply fields_det in Hf, F'. rewrite <- F' in Hf. subst fs'. cbn in Ht. injection Ht as <-.
        exists (t, Some f', default_params i ty). split; [by eapply elem_of_list_lookup_2|done].
      - intros (x & Hx & <-). apply elem_of_list_lookup in Hx as (k & Hk).
        destruct (Forall2_lookup_r _ _ _ _ _ F Hk) as (l0 & Hl & (fs' & t' & F' & Ht & f' & -> & _)).
        apply elem_of_list_lookup_2, elem_of_list_filter in Hl as [Hn Hl]. cbn in *. destruct fs' as [|t0 fs']; [done|]. injection Ht as ->.
        by exists l0, fs'.
      - intros x Hx. apply elem_of_list_lookup in Hx as (k & Hk).
        destruct (Forall2_lookup_r _ _ _ _ _ F Hk) as (l0 & Hl & (fs' & t' & F' & Ht & f' & -> & _)). done. }
    assert (VX : forall f ty es, list_says pf (f_lines f) es ->
      let a := concat (map (line_additions (default_params i VT_INDEXED) (default_params i ty)) es) in
      ((exists es e, list_says pf (f_lines f) es /\ e ∈ es /\ (t = ll_reference e \/ t ∈ map (fun x => x.1.1) (ll_variants e))) <->
        exists x, x ∈ a /\ x.1.1 = t) /\ (forall x, x ∈ a -> vp_index x.2 = N.of_nat i)).
    { intros f ty es Hs b.
      assert (B : forall x, x ∈ b <-> exists e, e ∈ es /\ x ∈ line_additions (default_params i VT_INDEXED) (default_params i ty) e).
      { intros x. unfold b. rewrite elem_of_list_In, in_concat. setoid_rewrite <- elem_of_list_In. split.
        - intros (y & Hy & Hx). apply elem_of_list_fmap in Hy as (e & -> & He). eauto.
        - intros (e & He & Hx). eexists. split; [|exact Hx]. by apply elem_of_list_fmap_1. }
      split; [split|].
      - intros (es' & e & Hs' & He & Ht). rewrite (list_says_det pf _ _ _ Hs' Hs) in He.
        destruct Ht as [->|Ht].
        + exists (ll_reference e, ll_freq e, default_params i VT_INDEXED). split; [|done]. apply B. exists e. split; [done|]. by left.
        + apply elem_of_list_fmap in Ht as (g & -> & Hg). exists (g.1.1, g.2, default_params i ty). split; [|done]. apply B. exists e. split; [done|].
          right. apply elem_of_list_fmap. by exists g.
      - intros (x & Hx & <-). apply B in Hx as (e & He & Hx). exists es, e. split; [done|]. split; [done|].
        unfold line_additions in Hx. apply elem_of_cons in Hx as [->|Hx]; [by left|]. right. apply elem_of_list_fmap in Hx as (g & -> & Hg).
        apply elem_of_list_fmap. by exists g.
      - intros x Hx. apply B in Hx as (e & He & Hx). unfold line_additions in Hx. apply elem_of_cons in Hx as [->|Hx]; [done|].
        by apply elem_of_list_fmap in Hx as (g & -> & Hg). }
    intros H. destruct H as [f a F|f a F|f es F|f es F]; cbn [mentions]; eauto.
  Qed.
  Lemma sources_mention i ss a l t j : sources_say pf i ss a l ->
    (exists x, x ∈ a /\ x.1.1 = t /\ vp_index x.2 = N.of_nat (i + j)) <-> exists s, ss !! j = Some s /\ mentions pf s t.
  Proof.
    intros H. revert j. induction H as [i|i s ss a l a' l' Hs Hss IH]; intros j.
    - split; [intros (x & Hx & _); by apply elem_of_nil in Hx|by intros (s & ? & _)].
    - destruct (mentions_says _ _ _ _ t Hs) as [M I].
      assert (J : forall x, x ∈ a' -> exists k, vp_index x.2 = N.of_nat (S i + k)).
      { clear -Hss. revert Hss. generalize (S i) as k0. intros k0 Hss. induction Hss as [i'|i' s ss a l a' l' Hs Hss IH]; intros x Hx; [by apply elem_of_nil in Hx|].
        apply elem_of_app in Hx as [Hx|Hx].
        - destruct (mentions_says _ _ _ _ [] Hs) as [_ I]. exists 0. rewrite Nat.add_0_r. by apply I.
        - destruct (IH x Hx) as (k & ->). exists (S k). f_equal. lia. }
      destruct j as [|j].
      + rewrite Nat.add_0_r. cbn. split.
        * intros (x & Hx & Ht & Hi). exists s. split; [done|]. apply M. apply elem_of_app in Hx as [Hx|Hx]; [eauto|].
          destruct (J x Hx) as (k & E). lia.
        * intros (s' & [= <-] & Hm). apply M in Hm as (x & Hx & Ht). exists x. split; [set_solver|]. split; [done|]. by apply I.
      + cbn. rewrite <- IH. replace (i + S j) with (S i + j) by lia. split.
        * intros (x & Hx & Ht & Hi). apply elem_of_app in Hx as [Hx|Hx]; [|by exists x]. apply I in Hx. lia.
        * intros (x & Hx & Ht & Hi). exists x. split; [set_solver|done].
  Qed.
End files.

(** * Order on the command line *)
Lemma insert_key_perm {A} (x : nat * A) l : insert_key x l ≡ₚ x :: l.
Proof. induction l as [|y l IH]; cbn; [done|]. destruct (_ <=? _)%nat; [done|]. rewrite IH. apply perm_swap. Qed.
Lemma sort_by_key_perm {A} (l : list (nat * A)) : sort_by_key l ≡ₚ l.
Proof. induction l as [|x l IH]; cbn; [done|]. by rewrite insert_key_perm, IH. Qed.
Lemma insert_key_sorted {A} (x : nat * A) l : StronglySorted le (map fst l) -> StronglySorted le (map fst (insert_key x l)).
Proof.
  induction l as [|y l IH]; cbn; intros H; [by repeat constructor|]. inversion H as [|? ? H1 H2]; subst. destruct (Nat.leb_spec x.1 y.1) as [L|L]; cbn.
  - constructor; [done|]. constructor; [done|]. eapply Forall_impl; [exact H2|]. cbn. intros; lia.
  - constructor; [by apply IH|]. apply Forall_map. rewrite insert_key_perm. constructor; [lia|]. rewrite Forall_map in H2. exact H2.
Qed.
Lemma sort_by_key_sorted {A} (l : list (nat * A)) : StronglySorted le (map fst (sort_by_key l)).
Proof. induction l as [|x l IH]; cbn; [constructor|]. by apply insert_key_sorted. Qed.
Lemma sorted_keys_unique {A} (l l' : list (nat * A)) : StronglySorted lt (map fst l) -> StronglySorted le (map fst l') -> l' ≡ₚ l -> l' = l.
Proof.
  revert l'. induction l as [|x l IH]; intros l' Hs Hs' P; [by apply Permutation_nil_r in P|].
  destruct l' as [|y l']; [by apply Permutation_nil in P|]. cbn in *. inversion Hs as [|? ? S1 F1]; subst. inversion Hs' as [|? ? S2 F2]; subst.
  assert (y = x) as ->.
  { assert (y ∈ x :: l) as Hy by (rewrite <- P; left). assert (x ∈ y :: l') as Hx by (rewrite P; left).
    apply elem_of_cons in Hy as [|Hy]; [done|]. apply elem_of_cons in Hx as [|Hx]; [done|].
    rewrite Forall_map in F1. rewrite Forall_map in F2. rewrite Forall_forall in F1. rewrite Forall_forall in F2. specialize (F1 _ Hy). specialize (F2 _ Hx). cbn in *. lia. }
  f_equal. apply IH; [done..|]. by apply Permutation_cons_inv in P.
Qed.
Lemma gather_options l : gather (lexicon_options l) (variants_options l) (errors_options l) ≡ₚ l.
Proof.
  unfold gather. induction l as [|[i r] l IH]; [done|]. unfold lexicon_options, variants_options, errors_options in *. cbn [omap list_omap fst snd].
  destruct r as [f|f|f]; cbn [map prod_map fst snd app].
  - by rewrite IH.
  - rewrite <- Permutation_middle. by rewrite IH.
  - rewrite app_assoc, <- Permutation_middle, <- app_assoc. by rewrite IH.
Qed.
Lemma sort_gather l : positions_increase l -> sort_by_key (gather (lexicon_options l) (variants_options l) (errors_options l)) = l.
Proof. intros H. apply sorted_keys_unique; [done|apply sort_by_key_sorted|]. by rewrite sort_by_key_perm, gather_options. Qed.

(** * Start-up *)
Definition frame (m : model) := (m_weights m, m_confusables m, m_confusables_before_pruning m, m_context_rules m, m_tags m).
Lemma add_frame m t f p m' id : add_to_vocabulary m t f p = Ok (m', id) -> frame m' = frame m.
Proof. intros H. by apply add_cases in H as [(? & ? & _ & _ & _ & ->)|(? & _ & _ & _ & ->)]. Qed.
Lemma link_frame m a b s : frame (add_variant_by_id m a b s).1 = frame m.
Proof. unfold add_variant_by_id. by destruct negb. Qed.
Lemma variant_frame m r t s f p m' b : add_variant m r t s f p = Ok (m', b) -> frame m' = frame m.
Proof.
  unfold add_variant. intros H. apply rbind_ok in H as ([m1 id] & E & [= H]). cbn in H.
  rewrite <- (add_frame _ _ _ _ _ _ E). rewrite <- (link_frame m1 r id s). by rewrite H.
Qed.
Lemma read_vocabulary_frame m name lines p m' : read_vocabulary m name lines p = Ok m' -> frame m' = frame m.
Proof.
  unfold read_vocabulary. intros H. apply rbind_ok in H as (m1 & E & [= <-]). change (frame m1 = frame m).
  refine (rfoldl_inv (fun x => frame x = frame m) _ _ _ _ _ _ E); [|done].
  intros x line x' Hx. unfold read_vocabulary_line. destruct line as [|c line]; [by intros [= <-]|]. intros H.
  apply rbind_ok in H as (t & _ & H). apply rbind_ok in H as ([x1 f] & E1 & H). apply rbind_ok in H as ([x2 id] & E2 & [= <-]).
  apply add_frame in E2. cbn in *. rewrite E2. destruct (vp_freq_column _).
  - apply rbind_ok in E1 as (? & _ & [= <- <-]). by destruct vt_check.
  - by injection E1 as <- <-.
Qed.
Section startup.
  Context (ws : N -> bool) (pf : str -> option f64) (pf32 : str -> option f32) (ps : str -> option (list edit_instruction)).
  #[local] Set Default Proof Using "All".
  Lemma freq_frame ri tp : forall n fs, length fs <= n -> forall m m', read_variants_freq pf m ri tp fs = Ok m' -> frame m' = frame m.
  Proof.
    induction n as [|n IH]; intros fs Hn m m' H.
    - destruct fs; [|cbn in Hn; lia]. by injection H as <-.
    - destruct fs as [|v [|s [|f fs]]]; try (by injection H as <-). cbn in H.
      apply rbind_ok in H as (x & _ & H). apply rbind_ok in H as (k & _ & H). apply rbind_ok in H as ([m1 b] & E & H).
      apply variant_frame in E. rewrite <- E. eapply IH; [|exact H]. cbn in Hn. lia.
  Qed.
  Lemma nofreq_frame ri tp : forall n fs, length fs <= n -> forall m m', read_variants_nofreq pf m ri tp fs = Ok m' -> frame m' = frame m.
  Proof.
    induction n as [|n IH]; intros fs Hn m m' H.
    - destruct fs; [|cbn in Hn; lia]. by injection H as <-.
    - destruct fs as [|v [|s fs]]; try (by injection H as <-). cbn in H.
      apply rbind_ok in H as (x & _ & H). apply rbind_ok in H as ([m1 b] & E & H).
      apply variant_frame in E. rewrite <- E. eapply IH; [|exact H]. cbn in Hn. lia.
  Qed.
  Lemma read_variants_frame m name lines p tr m' : read_variants pf m name lines p tr = Ok m' -> frame m' = frame m.
  Proof.
    unfold read_variants. intros H. apply rbind_ok in H as ([m1 hf] & E & [= <-]). change (frame m1 = frame m).
    refine (rfoldl_inv (fun x => frame x.1 = frame m) _ _ _ _ _ _ E); [|done].
    intros [x h] line [x' h'] Hx. cbn [fst] in *. unfold read_variants_line. destruct line as [|c line]; [by intros [= <- <-]|]. intros H.
    apply rbind_ok in H as (t & _ & H). apply rbind_ok in H as ([h1 fr] & _ & H). apply rbind_ok in H as ([x1 id] & E1 & H).
    apply rbind_ok in H as (x2 & E2 & [= <- <-]). apply add_frame in E1. cbn [fst snd] in *. rewrite <- Hx, <- E1.
    destruct h1 as [[]|]; first [by eapply freq_frame|by eapply nofreq_frame].
  Qed.
  Lemma source_frame m s m' : load_source pf m s = Ok m' -> frame m' = frame m.
  Proof. destruct s as [[f|f|f]|f]; cbn; first [apply read_vocabulary_frame|apply read_variants_frame]. Qed.

  Lemma confusable_files confs : forall m m',
    rfoldl (fun m f => expect_ok (read_confusablelist ps pf m (f_lines f))) m confs = Ok m' ->
    exists css, Forall2 (fun f cs => exists ls, selects (fun l => l <> []) (f_lines f) ls /\ Forall2 (line_confusable ps pf) ls cs) confs css /\
      m' = with_confusables m (m_confusables m ++ concat css) (m_confusables_before_pruning m).
  Proof.
    induction confs as [|f confs IH]; intros m m' H; cbn [rfoldl] in H.
    - injection H as <-. exists []. split; [constructor|]. cbn. rewrite app_nil_r. by destruct m.
    - apply rbind_ok in H as (m1 & E & H). unfold expect_ok in E. apply rbind_ok in E as ([m2 ok] & E & E'). destruct ok; [|done]. injection E' as ->.
      apply read_spec in E as (ls & cs & Hs & F & ->). destruct (IH _ _ H) as (css & F' & ->). exists (cs :: css). split; [constructor; eauto|].
      cbn. by rewrite <- app_assoc.
  Qed.
  Lemma rule_file_keeps lines : forall m m' ok, read_contextrules ws pf32 m lines = Ok (m', ok) ->
    same_vocab m m' /\ m_lexicons m' = m_lexicons m /\ m_weights m' = m_weights m /\ m_confusables m' = m_confusables m /\
    m_confusables_before_pruning m' = m_confusables_before_pruning m.
  Proof.
    induction lines as [|l ls IH]; intros m m' ok H; cbn [read_contextrules] in H; [by injection H as <- <-|].
    apply rbind_ok in H as ([m1 ok1] & E & H).
    assert (same_vocab m m1 /\ m_lexicons m1 = m_lexicons m /\ m_weights m1 = m_weights m /\ m_confusables m1 = m_confusables m /\
      m_confusables_before_pruning m1 = m_confusables_before_pruning m) as K.
    { clear -E. unfold read_contextrule_line in E. destruct (_ || _); [by injection E as <- <-|].
      destruct (split_on 9 l) as [|pat [|sc rest]]; [by injection E as <- <-..|]. destruct pat as [|c pat]; [by injection E as <- <-|].
      destruct (pf32 sc) as [score|]; [|by injection E as <- <-]. cbn zeta in E. destruct negb; [by injection E as <- <-|].
      unfold add_contextrule in E. apply rbind_ok in E as (qs & _ & E). destruct (collect_opt qs) as [qs'|]; [|by injection E as <- <-].
      destruct add_tags as [tags ids]. destruct existsb; [by injection E as <- <-|]. apply rbind_ok in E as (offs & _ & E).
      destruct collect_opt as [offs'|]; [|by injection E as <- <-]. destruct qs'; by injection E as <- <-. }
    destruct ok1.
    - destruct (IH _ _ _ H) as (S & L & W & C & B). destruct K as (S0 & L0 & W0 & C0 & B0). split_and!; try congruence. by eapply same_vocab_trans.
    - injection H as <- <-. exact K.
  Qed.
  Lemma rule_files rules : forall m m', rfoldl (fun m f => expect_ok (read_contextrules ws pf32 m (f_lines f))) m rules = Ok m' ->
    same_vocab m m' /\ m_lexicons m' = m_lexicons m /\ m_weights m' = m_weights m /\ m_confusables m' = m_confusables m /\
    m_confusables_before_pruning m' = m_confusables_before_pruning m.
  Proof.
    induction rules as [|f rules IH]; intros m m' H; cbn [rfoldl] in H; [by injection H as <-|].
    apply rbind_ok in H as (m1 & E & H). unfold expect_ok in E. apply rbind_ok in E as ([m2 ok] & E & E'). destruct ok; [|done]. injection E' as ->.
    apply rule_file_keeps in E as (S0 & L0 & W0 & C0 & B0). destruct (IH _ _ H) as (S & L & W & C & B). split_and!; try congruence. by eapply same_vocab_trans.
  Qed.
  Lemma build_frame o o' m m' : some_order o' -> build o o' m = Ok m' -> same_vocab m m' /\ m_lexicons m' = m_lexicons m /\ frame m' = frame m.
  Proof.
    intros Ho H. destruct (build_split _ _ _ _ Ho H) as (m1 & ng & fs & E & _ & ->). 
    unfold build_index in E. apply rbind_ok in E as (hs & _ & E). apply rbind_ok in E as (ix & _ & E). injection E as <-. done.
  Qed.

  Lemma rfoldl_map {A B C} (f : A -> B -> res A) (g : C -> B) l : forall a, rfoldl f a (map g l) = rfoldl (fun a c => f a (g c)) a l.
  Proof. induction l as [|c l IH]; intros a; cbn; [done|]. destruct (f a (g c)); [|done]. cbn. apply IH. Qed.
  Lemma start o o' al w opts lms confs rules early m :
    some_order o' -> positions_increase opts -> length opts + length lms <= 256 ->
    startup ws pf pf32 ps o o' al w (lexicon_options opts) (variants_options opts) (errors_options opts) lms confs rules early = Ok m ->
    let ss := map (fun x => Given x.2) opts ++ map Lm lms in
    (exists a l, sources_say pf 0 ss a l /\ st (model_new ws al w) a l m) /\
    m_lexicons m = map source_name ss /\ m_alphabet m = read_alphabet ws al /\ m_weights m = w /\
    m_confusables_before_pruning m = early /\
    exists css, Forall2 (fun f cs => exists ls, selects (fun l => l <> []) (f_lines f) ls /\ Forall2 (line_confusable ps pf) ls cs) confs css /\
      m_confusables m = concat css.
  Proof.
    intros Ho Hp Hl H ss. unfold startup in H. apply rbind_ok in H as (m1 & E1 & H). apply rbind_ok in H as (m2 & E2 & H).
    apply rbind_ok in H as (m3 & E3 & H). apply rbind_ok in H as (m4 & E4 & H). apply rbind_ok in H as (m5 & E5 & [= <-]).
    unfold load_resources in E1. rewrite sort_gather in E1 by done.
    assert (E : rfoldl (load_source pf) (model_new ws al w) ss = Ok m2).
    { unfold ss. rewrite rfoldl_app. rewrite rfoldl_map. rewrite rfoldl_map in E1.
      cbn [load_source]. rewrite E1. cbn [rbind]. rewrite rfoldl_map. exact E2. }
    destruct (read_sources pf (model_new ws al w) ss [] [] (model_new ws al w) m2) as (a & l & Hs & S2 & L2).
    { unfold ss. rewrite app_length, !map_length. cbn. lia. }
    { apply st_new, new_inverse. }
    { done. }
    assert (F2 : frame m2 = frame (model_new ws al w)).
    { refine (rfoldl_inv (fun x => frame x = frame (model_new ws al w)) _ _ _ _ _ _ E); [|done].
      intros x s x' Hx Hs'. apply source_frame in Hs'. congruence. }
    destruct (confusable_files _ _ _ E3) as (css & Fc & ->). apply rule_files in E4 as (S4 & L4 & W4 & C4 & B4).
    destruct (build_frame _ _ _ _ Ho E5) as (S5 & L5 & F5). unfold frame in F5, F2. injection F5 as Fw Fcf Fb Fr Ft. injection F2 as Gw Gcf Gb Gr Gt.
    cbn in *.
    assert (S' : st (model_new ws al w) a l m5).
    { eapply st_same; [exact S2|]. eapply same_vocab_trans; [|exact S5]. eapply same_vocab_trans; [|exact S4]. done. }
    assert (m_alphabet m5 = read_alphabet ws al) as A5.
    { destruct S' as (r & L & Ra & _ & _ & (_ & _ & ->)). assert (m_alphabet (run_links r L) = m_alphabet r) as ->.
      { clear. induction L as [|x L IH] using rev_ind; [done|]. by rewrite run_links_snoc, link1_alphabet. }
      destruct (st_adds _ _ _ [] _ _ (st_new _ (new_inverse (read_alphabet ws al) w)) Ra) as [_ ->]. done. }
    set (m6 := if early then with_confusables m5 (m_confusables m5) true else m5).
    assert (same_vocab m5 m6 /\ m_lexicons m6 = m_lexicons m5 /\ m_weights m6 = m_weights m5 /\ m_confusables m6 = m_confusables m5 /\ m_confusables_before_pruning m6 = early) as (V & L6 & W6 & C6 & B6).
    { unfold m6. destruct early; [done|]. split_and!; [done..|]. congruence. }
    split_and!.
    - exists a, l. split; [done|]. by eapply st_same.
    - congruence.
    - destruct V as (_ & _ & ->). done.
    - congruence.
    - done.
    - exists css. split; [done|]. rewrite C6, Fcf, C4, Gcf. done.
  Qed.

  (** which lexicons an entry is in *)
  Lemma run_links_entry m L id v : m_decoder (run_links m L) !! id = Some v -> exists v', m_decoder m !! id = Some v' /\ vv_lexindex v = vv_lexindex v'.
  Proof.
    induction L as [|x L IH] using rev_ind in v |- *; [eauto|]. rewrite run_links_snoc. intros H.
    assert (exists v1, m_decoder (run_links m L) !! id = Some v1) as (v1 & H1).
    { apply lookup_lt_is_Some_2. rewrite <- (link1_len _ x). by eapply lookup_lt_Some. }
    destruct (link1_lookup _ x _ _ H1) as (g & Hg & _). rewrite Hg in H. injection H as <-. destruct (IH _ H1) as (v' & ? & ?). by exists v'.
  Qed.
  Lemma start_lexicons al w ss a l m t v i : sources_say pf 0 ss a l -> st (model_new ws al w) a l m -> entry m t v -> i < 32 ->
    exists b, in_lexicon v (N.of_nat i) = Ok b /\ (b = true <-> exists s, ss !! i = Some s /\ mentions pf s t).
  Proof.
    intros Hs (r & L & Ra & I & B & (D & En & _)) (id & E1 & E2) Hi.
    rewrite D in E2. destruct (run_links_entry _ _ _ _ E2) as (v' & E3 & Ev). rewrite En, run_links_encoder in E1.
    destruct (lexicon_query _ _ _ _ t v' (N.of_nat i) Ra) as (b & Hb & Hq); [by exists id|lia|]. exists b. split.
    - rewrite <- Hb. unfold in_lexicon. by rewrite Ev.
    - rewrite Hq. rewrite <- (sources_mention pf 0 ss a l t i Hs). done.
  Qed.
End startup.

(** names of the lexicons of an entry *)
Lemma names_of_sources pf m v (ss : list source) t : length ss <= 32 -> m_lexicons m = map source_name ss ->
  (forall i, i < 32 -> exists b, in_lexicon v (N.of_nat i) = Ok b /\ (b = true <-> exists s, ss !! i = Some s /\ mentions pf s t)) ->
  exists sel, selects (fun s => mentions pf s t) ss sel /\ lexicons_of m v = Ok (map source_name sel).
Proof.
  intros Hl E Hq. unfold lexicons_of. rewrite E.
  assert (G : forall ss' k, k + length ss' <= 32 -> (forall i s, ss' !! i = Some s -> ss !! (k + i) = Some s) ->
    exists sel bs, selects (fun s => mentions pf s t) ss' sel /\
      rmapM (fun il : nat * str => let* b := in_lexicon v (N.of_nat (as_u8 il.1)) in Ok (b, il.2)) (imap (fun i x => (k + i, x)) (map source_name ss')) = Ok bs /\
      omap (fun bl : bool * str => if bl.1 then Some bl.2 else None) bs = map source_name sel).
  { induction ss' as [|s ss' IH]; intros k Hk Hs; [exists [], []; split; [constructor|done]|].
    cbn in Hk. destruct (IH (S k)) as (sel & bs & H1 & H2 & H3); [lia|intros i s' Hi; rewrite <- (Hs (S i) s' Hi); f_equal; lia|].
    destruct (Hq k) as (b & Hb & Hm); [lia|]. specialize (Hs 0 s eq_refl). rewrite Nat.add_0_r in Hs.
    exists (if b then s :: sel else sel), ((b, source_name s) :: bs). split; [|split].
    - destruct b; constructor; try done.
      + destruct (proj1 Hm eq_refl) as (s' & Hs' & ?). congruence.
      + intros Hn. assert (false = true); [|done]. apply Hm. by exists s.
    - cbn [map imap rmapM fst snd]. rewrite Nat.add_0_r. rewrite as_u8_small by lia. rewrite Hb. cbn [rbind].
      assert (imap ((fun i x => (k + i, x)) ∘ S) (map source_name ss') = imap (fun i x => (S k + i, x)) (map source_name ss')) as ->.
      { apply imap_ext. intros i x _. cbn. f_equal. lia. }
      rewrite H2. done.
    - cbn. rewrite H3. by destruct b. }
  destruct (G ss 0) as (sel & bs & H1 & H2 & H3); [lia|done|]. exists sel. split; [done|].
  assert (imap pair (map source_name ss) = imap (fun i x => (0 + i, x)) (map source_name ss)) as -> by (by apply imap_ext).
  rewrite H2. cbn [rbind]. by rewrite H3.
Qed.

(** ** One list *)
Lemma list_reads pf m name lines ps tr m' :
  lookups_inverse m -> read_variants pf m name lines ps tr = Ok m' ->
  let p := list_params (as_u8 (length (m_lexicons m))) ps in
  exists es r L, list_says pf lines es /\ run_adds m (concat (map (line_additions p (variant_params p tr)) es)) = Ok r /\
    links_between r (concat (map line_links es)) L /\
    m_encoder m' = m_encoder r /\ m_decoder m' = m_decoder (run_links r L) /\ m_lexicons m' = m_lexicons m ++ [name].
Proof.
  intros I H p. destruct (read_list pf m [] [] m name lines ps tr m' (st_new m I) H) as (es & Hs & (r & L & Ra & Ir & B & (D & En & _)) & Lx).
  exists es, r, L. split_and!; [done..| |done|done]. by rewrite En, run_links_encoder.
Qed.
Lemma list_succeeds pf m name lines ps tr es r :
  lookups_inverse m -> list_says pf lines es ->
  let p := list_params (as_u8 (length (m_lexicons m))) ps in
  run_adds m (concat (map (line_additions p (variant_params p tr)) es)) = Ok r ->
  exists m', read_variants pf m name lines ps tr = Ok m'.
Proof.
  intros I H p R. eapply (write_list pf m [] [] m name lines ps tr es [] r); [by apply st_new|done|]. rewrite app_nil_r. exact R.
Qed.

(** ** Start-up, from both sides *)
Lemma start_all ws pf pf32 ps o o' al w opts lms confs rules early m :
  some_order o' -> positions_increase opts -> length opts + length lms <= 256 ->
  startup ws pf pf32 ps o o' al w (lexicon_options opts) (variants_options opts) (errors_options opts) lms confs rules early = Ok m ->
  let ss := map (fun x => Given x.2) opts ++ map Lm lms in
  exists a l r L, sources_say pf 0 ss a l /\ run_adds (new_with_alphabet (read_alphabet ws al) w) a = Ok r /\ links_between r l L /\
    m_encoder m = m_encoder r /\ m_decoder m = m_decoder (run_links r L) /\ m_lexicons m = map source_name ss.
Proof.
  intros Ho Hp Hl H ss. destruct (start ws pf pf32 ps o o' al w opts lms confs rules early m Ho Hp Hl H) as ((a & l & Hs & (r & L & Ra & I & B & (D & En & _))) & Lx & _).
  exists a, l, r, L. split_and!; [done..| |done|done]. by rewrite En, run_links_encoder.
Qed.
Lemma start_settings ws pf pf32 ps o o' al w opts lms confs rules early m :
  some_order o' -> positions_increase opts -> length opts + length lms <= 256 ->
  startup ws pf pf32 ps o o' al w (lexicon_options opts) (variants_options opts) (errors_options opts) lms confs rules early = Ok m ->
  m_alphabet m = read_alphabet ws al /\ m_weights m = w /\ m_confusables_before_pruning m = early /\
  exists css, Forall2 (fun f cs => exists ls, selects (fun l => l <> []) (f_lines f) ls /\ Forall2 (line_confusable ps pf) ls cs) confs css /\
    m_confusables m = concat css.
Proof.
  intros Ho Hp Hl H. by destruct (start ws pf pf32 ps o o' al w opts lms confs rules early m Ho Hp Hl H) as (_ & _ & K).
Qed.
Lemma start_names ws pf pf32 ps o o' al w opts lms confs rules early m t v :
  some_order o' -> positions_increase opts -> length opts + length lms <= 32 ->
  startup ws pf pf32 ps o o' al w (lexicon_options opts) (variants_options opts) (errors_options opts) lms confs rules early = Ok m ->
  entry m t v ->
  let ss := map (fun x => Given x.2) opts ++ map Lm lms in
  (forall i, i < 32 -> exists b, in_lexicon v (N.of_nat i) = Ok b /\ (b = true <-> exists s, ss !! i = Some s /\ mentions pf s t)) /\
  exists sel, selects (fun s => mentions pf s t) ss sel /\ lexicons_of m v = Ok (map source_name sel).
Proof.
  intros Ho Hp Hl H He ss. destruct (start ws pf pf32 ps o o' al w opts lms confs rules early m Ho Hp ltac:(lia) H) as ((a & l & Hs & S) & Lx & _).
  assert (Q : forall i, i < 32 -> exists b, in_lexicon v (N.of_nat i) = Ok b /\ (b = true <-> exists s, ss !! i = Some s /\ mentions pf s t)).
  { intros i Hi. by eapply (start_lexicons ws pf pf32 ps). }
  split; [done|]. eapply names_of_sources; [|done|exact Q]. unfold ss. rewrite app_length, !map_length. lia.
Qed.
Lemma start_succeeds ws pf al w opts a l r :
  positions_increase opts -> length opts <= 256 ->
  sources_say pf 0 (map (fun x => Given x.2) opts) a l -> run_adds (new_with_alphabet (read_alphabet ws al) w) a = Ok r ->
  exists m, load_resources pf (model_new ws al w) (lexicon_options opts) (variants_options opts) (errors_options opts) = Ok m.
Proof.
  intros Hp Hl Hs R. unfold load_resources. rewrite sort_gather by done.
  destruct (write_sources pf (model_new ws al w) 0 (map (fun x => Given x.2) opts) [] [] (model_new ws al w) a l [] r) as (m & E).
  - rewrite map_length. cbn. lia.
  - done.
  - apply st_new, new_inverse.
  - done.
  - rewrite app_nil_r. exact R.
  - exists m. rewrite <- E, (rfoldl_map ws pf (fun _ => None) (fun _ => None)), (rfoldl_map ws pf (fun _ => None) (fun _ => None)). done.
Qed.
