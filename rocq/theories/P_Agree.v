(** Proofs about the agreement of the command line tool and the Python bindings. *)
From Coq Require String Ascii.
From Coq Require Import Lia.
From Verif Require Import M_Base M_Anahash M_Iter M_Distance M_Float M_Types M_Model M_Confusable M_Rules M_Search M_Text M_Cli M_Main M_Options.
From Verif Require Import S_Anahash S_Model S_Search S_Lookup S_Confusable S_Rules S_Cli S_Main S_Options S_SearchAll S_RuleFile S_Program.
From Verif Require Import M_Python S_Session S_Agree.
From Verif Require Import P_Base P_Start.
From Verif Require P_RuleFile P_Options P_JsonOut.
Import String.StringSyntax Ascii.AsciiSyntax.
From stdpp Require Import options.

Lemma selects_iff {A} (P Q : A -> Prop) l l' : (forall x, P x <-> Q x) -> selects P l l' -> selects Q l l'.
Proof. intros H. induction 1; [constructor|constructor; [by apply H|done]|apply selects_skip; [by rewrite <- H|done]]. Qed.

Section contents.
  Context (ws : N -> bool) (pf : str -> option f64) (pf32 : str -> option f32) (ps : str -> option (list edit_instruction)).
  Context (fs : str -> option (list (option str))).

  Lemma calls_app cs1 : forall i cs2 a1 l1 n1 a2 l2 n2, calls_say pf fs i cs1 a1 l1 n1 -> calls_say pf fs (i + length n1) cs2 a2 l2 n2 ->
    calls_say pf fs i (cs1 ++ cs2) (a1 ++ a2) (l1 ++ l2) (n1 ++ n2).
  Proof.
    induction cs1 as [|c cs1 IH]; intros i cs2 a1 l1 n1 a2 l2 n2 H1 H2; inversion H1; subst.
    - cbn [length app] in *. by rewrite Nat.add_0_r in H2.
    - cbn [app]. rewrite <- !app_assoc. econstructor; [done|]. apply IH; [done|]. by rewrite <- Nat.add_assoc, <- app_length.
  Qed.
  Lemma calls_quiet i cs : Forall (fun c => ~ adds_entries c) cs -> calls_say pf fs i cs [] [] [].
  Proof.
    intros H. revert i. induction H as [|c cs Hc _ IH]; intros i; [constructor|]. apply (calls_more _ _ i c cs [] [] [] [] [] []); [by constructor|]. apply IH.
  Qed.
  (** the sources, call by call *)
  Inductive source_call : source -> py_call -> Prop :=
  | sc_lexicon n f : file_there fs n f -> source_call (Given (RLexicon f)) (CLexicon n)
  | sc_variants n f : file_there fs n f -> source_call (Given (RVariants f)) (CVariantList n false)
  | sc_errors n f : file_there fs n f -> source_call (Given (RErrors f)) (CVariantList n true)
  | sc_lm n f : file_there fs n f -> source_call (Lm f) (CLanguageModel n).
  Lemma calls_sources ss cs : Forall2 source_call ss cs -> forall i a l, sources_say pf i ss a l -> calls_say pf fs i cs a l (map source_name ss).
  Proof.
    induction 1 as [|s c ss cs Hs F IH]; intros i a l H.
    - inversion H; subst. constructor.
    - inversion H as [|? ? ? a1 l1 a2 l2 H1 H2]; subst. change (map source_name (s :: ss)) with ([source_name s] ++ map source_name ss).
      econstructor; [|rewrite Nat.add_1_r; by apply IH].
      destruct Hs as [n f Hf|n f Hf|n f Hf|n f Hf]; pose proof Hf as (ls & _ & En); inversion H1; subst.
      + by eapply (call_words _ _ _ _ _ (default_params 0 VT_INDEXED)); [constructor|done|].
      + by eapply call_list.
      + by eapply call_list.
      + by eapply (call_words _ _ _ _ _ (default_params 0 VT_LM)); [constructor|done|].
  Qed.
  Lemma translated_entries ts sel gs cs :
    selects (fun t => exists n, option_typed "lexicon" n t \/ option_typed "variants" n t \/ option_typed "errors" n t) ts sel ->
    Forall2 (S_Program.given fs) sel gs -> translated entry_call ts cs -> Forall2 source_call gs cs.
  Proof.
    intros S1 F1 (sel' & S2 & F2). assert (sel' = sel) as ->.
    { apply (selects_det _ _ _ _ S2). eapply selects_iff; [|exact S1]. intros t. split.
      - intros (n & [E|[E|E]]); rewrite E; eexists; constructor.
      - intros (c & H). destruct H; eexists; [by left|right; by left|right; by right]. }
    clear S1 S2. revert cs F2. induction F1 as [|t g sel gs Hg _ IH]; intros cs F2; inversion F2 as [|? c ? cs' Hc F2']; subst; [constructor|]. constructor; [|by apply IH].
    destruct Hg as [t n f E Hf|t n f E Hf|t n f E Hf]; unfold option_typed in E; subst t; inversion Hc; subst; by constructor.
  Qed.
  Lemma translated_option ts long (mk : str -> py_call) (R : typed -> py_call -> Prop) fl cs : (forall t c, R t c <-> exists n, t = TOption (name long) n /\ c = mk n) ->
    files_typed fs ts long fl -> translated R ts cs -> Forall2 (fun f c => exists n, file_there fs n f /\ c = mk n) fl cs.
  Proof.
    intros HR (sel & S1 & F1) (sel' & S2 & F2). assert (sel' = sel) as ->.
    { apply (selects_det _ _ _ _ S2). eapply selects_iff; [|exact S1]. intros t. split.
      - intros (n & E). exists (mk n). apply HR. by exists n.
      - intros (c & H). apply HR in H as (n & -> & _). by exists n. }
    clear S1 S2. revert cs F2. induction F1 as [|t f sel fl (n & E & Hf) _ IH]; intros cs F2; inversion F2 as [|? c ? cs' Hc F2']; subst; [constructor|]. constructor; [|by apply IH].
    apply HR in Hc as (n' & E' & ->). unfold option_typed in E. rewrite E in E'. injection E' as <-. by exists n.
  Qed.
  Lemma lm_call_iff t c : lm_call t c <-> exists n, t = TOption (name "lm") n /\ c = CLanguageModel n.
  Proof. split; [intros []; by eexists|intros (n & -> & ->); constructor]. Qed.
  Lemma rules_call_iff t c : rules_call t c <-> exists n, t = TOption (name "contextrules") n /\ c = CRules n.
  Proof. split; [intros []; by eexists|intros (n & -> & ->); constructor]. Qed.

  Lemma translated_in (R : typed -> py_call -> Prop) ts cs x : (forall t y z, R t y -> R t z -> y = z) -> translated R ts cs -> x ∈ cs <-> exists t, t ∈ ts /\ R t x.
  Proof.
    intros HR (sel & S & F). split.
    - intros Hx. apply elem_of_list_lookup in Hx as (k & Hk). destruct (Forall2_lookup_r _ _ _ _ _ F Hk) as (t & Ht & Hr). exists t. split; [|done].
      apply elem_of_list_lookup_2 in Ht. by apply (selects_member _ _ _ _ S) in Ht as [Ht _].
    - intros (t & Ht & Hr). assert (t ∈ sel) as Hin by (apply (selects_member _ _ _ _ S); eauto). apply elem_of_list_lookup in Hin as (k & Hk).
      destruct (Forall2_lookup_l _ _ _ _ _ F Hk) as (y & Hy & Hr'). rewrite (HR _ _ _ Hr Hr'). by eapply elem_of_list_lookup_2.
  Qed.
  Lemma entry_det t y z : entry_call t y -> entry_call t z -> y = z.
  Proof. intros H1 H2. destruct H1; inversion H2; by subst. Qed.
  Lemma lm_det t y z : lm_call t y -> lm_call t z -> y = z.
  Proof. intros H1 H2. destruct H1; inversion H2; by subst. Qed.
  Lemma setting_det t y z : setting_call t y -> setting_call t z -> y = z.
  Proof. intros H1 H2. destruct H1; inversion H2; by subst. Qed.
  Lemma rules_det' t y z : rules_call t y -> rules_call t z -> y = z.
  Proof. intros H1 H2. destruct H1; inversion H2; by subst. Qed.

  Lemma settings_conf ts sel : selects (fun t => exists c, setting_call t c) ts sel -> forall st sel2 cfs css, Forall2 setting_call sel st ->
    selects (fun t => exists n, option_typed "confusables" n t) ts sel2 ->
    Forall2 (fun t f => exists n, option_typed "confusables" n t /\ file_there fs n f) sel2 cfs ->
    Forall2 (fun f cs => exists ls, selects (fun l => l <> []) (f_lines f) ls /\ Forall2 (line_confusable ps pf) ls cs) cfs css ->
    confusables_say pf ps fs st (concat css).
  Proof.
    induction 1 as [|t ts sel Ht _ IH|t ts sel Ht _ IH]; intros st sel2 cfs css F1 S2 F2 F3.
    - inversion F1; subst. inversion S2; subst. inversion F2; subst. inversion F3; subst. constructor.
    - inversion F1 as [|? y ? st' Hy F1']; subst. apply selects_cons in S2 as [[(n & E) (sel' & -> & S2)]|[N S2]].
      + unfold option_typed in E. subst t. inversion Hy; subst. inversion F2 as [|? f ? cfs' (n' & E' & Hf) F2']; subst. injection E' as <-.
        inversion F3 as [|? cs ? css' (ls & Hl & Hc) F3']; subst. cbn [concat]. econstructor; [exact Hf|exact Hl|exact Hc|]. by eapply IH.
      + destruct Hy as [n|]; [destruct N; by exists n|]. apply conf_other; [done|]. by eapply IH.
    - apply selects_cons in S2 as [[(n & E) _]|[N S2]].
      + destruct Ht. unfold option_typed in E. subst t. eexists. constructor.
      + by eapply IH.
  Qed.
  Lemma conf_quiet cs1 cs2 ys : Forall (fun c => forall n, c <> CConfusables n) cs1 -> confusables_say pf ps fs cs2 ys -> confusables_say pf ps fs (cs1 ++ cs2) ys.
  Proof. induction 1; intros H'; [done|]. cbn [app]. apply conf_other; [done|]. by apply IHForall. Qed.
  Lemma conf_end cs1 cs2 ys : Forall (fun c => forall n, c <> CConfusables n) cs2 -> confusables_say pf ps fs cs1 ys -> confusables_say pf ps fs (cs1 ++ cs2) ys.
  Proof.
    intros F. induction 1 as [|n f ls xs cs ys Hf Hl Hx _ IH|c cs ys Hc _ IH]; cbn [app].
    - induction F; [constructor|]. by apply conf_other.
    - by econstructor.
    - by apply conf_other.
  Qed.
  Lemma rules_quiet lx en tb cs1 cs2 tb' rs : Forall (fun c => ~ gives_rules c) cs1 -> session_rules ws pf32 fs lx en tb cs2 tb' rs -> session_rules ws pf32 fs lx en tb (cs1 ++ cs2) tb' rs.
  Proof. induction 1; intros H'; [done|]. cbn [app]. apply sr_other; [done|]. by apply IHForall. Qed.
  Lemma rules_files lx en fl cs : Forall2 (fun f c => exists n, file_there fs n f /\ c = CRules n) fl cs -> forall tb tb' rs,
    rules_say ws pf32 lx en tb (concat (map f_lines fl)) tb' rs -> session_rules ws pf32 fs lx en tb cs tb' rs.
  Proof.
    induction 1 as [|f c fl cs (n & Hf & ->) _ IH]; intros tb tb' rs H.
    - cbn in H. inversion H; subst. constructor.
    - cbn [map concat] in H. apply P_RuleFile.rules_say_app in H as (t1 & r1 & r2 & H1 & H2 & ->). econstructor; [exact Hf|exact H1|]. by apply IH.
  Qed.

  Context (c : command) (ts : list typed) (cs : list py_call) (Hs : same_session ts cs).
  #[local] Set Default Proof Using "All".
  Lemma session_of alphabet w m : well_typed c ts -> TOption (name "alphabet") alphabet ∈ ts -> weights_say pf c ts w ->
    contents_say ws pf pf32 ps fs c ts m -> session_says ws pf pf32 ps fs alphabet w cs m.
  Proof.
    intros W Ha Hw C. destruct Hs as (en & lm & st & ru & T1 & T2 & T3 & T4 & ->).
    assert (forall x, x ∈ en -> (exists n, x = CLexicon n) \/ exists n b, x = CVariantList n b) as I1.
    { intros x Hx. apply (translated_in _ _ _ _ entry_det T1) in Hx as (t & _ & Hr). destruct Hr; eauto. }
    assert (forall x, x ∈ lm -> exists n, x = CLanguageModel n) as I2 by (intros x Hx; apply (translated_in _ _ _ _ lm_det T2) in Hx as (t & _ & Hr); destruct Hr; eauto).
    assert (forall x, x ∈ st -> (exists n, x = CConfusables n) \/ x = CEarly) as I3 by (intros x Hx; apply (translated_in _ _ _ _ setting_det T3) in Hx as (t & _ & Hr); destruct Hr; eauto).
    assert (forall x, x ∈ ru -> exists n, x = CRules n) as I4 by (intros x Hx; apply (translated_in _ _ _ _ rules_det' T4) in Hx as (t & _ & Hr); destruct Hr; eauto).
    destruct C as [Ca Cw Ce Cf Cc Cy Cr]. split.
    - destruct Ca as (n & ls & Hn & Hf & Hl). exists ls. assert (n = alphabet) as ->; [|done].
      apply (alphabet_value c ts n W) in Hn. apply (alphabet_value c ts alphabet W) in Ha. congruence.
    - apply P_Options.weights_spec in Cw, Hw; [|by apply P_Options.accepted_spec..]. congruence.
    - destruct Ce as (ss & a & l & r & L & (sel & gs & lms & S1 & S2 & S3 & ->) & Hss & Hr & Hl & E1 & E2 & E3). exists a, l, r, L.
      split; [|done]. rewrite E3. rewrite <- (app_nil_r a), <- (app_nil_r l), <- (app_nil_r (map _ _)). rewrite (app_assoc en). apply calls_app.
      + apply calls_sources; [|done]. apply Forall2_app; [by eapply translated_entries|].
        pose proof (translated_option ts _ CLanguageModel lm_call lms lm lm_call_iff S3 T2) as F. clear -F. induction F as [|f c lms lm (n & Hf & ->) _ IH]; [constructor|].
        cbn [map]. constructor; [by constructor|done].
      + apply calls_quiet, Forall_app. split; [|constructor].
        * apply Forall_forall. intros x [[n ->]| ->]%I3; [intros (n' & p & X); inversion X|intros (n' & p & X); inversion X].
        * intros (n' & p & X); inversion X.
        * apply Forall_forall. intros x [n ->]%I4. intros (n' & p & X); inversion X.
    - rewrite Cf. split.
      + intros (n & f & l & Hn & Hf & Hl & Nl). exists (CLexicon n), n, (default_params 0 VT_INDEXED), f, l. split; [|split; [constructor|split; [done|split; [done|done]]]].
        apply elem_of_app. left. apply (translated_in _ _ _ _ entry_det T1). eexists. split; [exact Hn|constructor].
      + intros (x & n & p & f & l & Hx & Hw' & Hp & Hfl & Hf & Hl & Nl). exists n, f, l. split; [|done].
        apply elem_of_app in Hx as [Hx|Hx].
        * pose proof (I1 x Hx) as [[n' ->]|(n' & b & ->)]; inversion Hw'; subst. apply (translated_in _ _ _ _ entry_det T1) in Hx as (t & Ht & Hr). by inversion Hr; subst.
        * exfalso. apply elem_of_app in Hx as [Hx|Hx]; [destruct (I2 x Hx) as [n' ->]; inversion Hw'; subst; done|].
          apply elem_of_app in Hx as [Hx|Hx]; [destruct (I3 x Hx) as [[n' ->]| ->]; inversion Hw'|]. apply elem_of_cons in Hx as [->|Hx]; [inversion Hw'|].
          destruct (I4 x Hx) as [n' ->]; inversion Hw'.
    - destruct Cc as (cfs & css & (sel2 & S2 & F2) & F3 & ->). rewrite app_assoc. apply conf_quiet; [|apply conf_end].
      + apply Forall_app. split; apply Forall_forall; intros x Hx n ->; [destruct (I1 _ Hx) as [(? & [=])|(? & ? & [=])]|destruct (I2 _ Hx) as [? [=]]].
      + constructor; [done|]. apply Forall_forall; intros x Hx n ->. by destruct (I4 _ Hx) as [? [=]].
      + destruct T3 as (sel & S1 & F1). by eapply settings_conf.
    - rewrite Cy. split.
      + intros Hf. apply elem_of_app. right. apply elem_of_app. right. apply elem_of_app. left. apply (translated_in _ _ _ _ setting_det T3). eexists. split; [exact Hf|constructor].
      + intros Hx. apply elem_of_app in Hx as [Hx|Hx]; [destruct (I1 _ Hx) as [(? & [=])|(? & ? & [=])]|]. apply elem_of_app in Hx as [Hx|Hx]; [destruct (I2 _ Hx) as [? [=]]|].
        apply elem_of_app in Hx as [Hx|Hx]; [|apply elem_of_cons in Hx as [[=]|Hx]; by destruct (I4 _ Hx) as [? [=]]].
        apply (translated_in _ _ _ _ setting_det T3) in Hx as (t & Ht & Hr). by inversion Hr; subst.
    - destruct Cr as (rfs & Hrf & Hr). replace (en ++ lm ++ st ++ CBuild :: ru) with ((en ++ lm ++ st ++ [CBuild]) ++ ru) by (by rewrite <- !app_assoc).
      apply rules_quiet.
      + apply Forall_forall. intros x Hx. apply elem_of_app in Hx as [Hx|Hx]; [destruct (I1 _ Hx) as [(? & ->)|(? & ? & ->)]; by intros []|].
        apply elem_of_app in Hx as [Hx|Hx]; [destruct (I2 _ Hx) as [? ->]; by intros []|]. apply elem_of_app in Hx as [Hx|Hx]; [destruct (I3 _ Hx) as [[? ->]| ->]; by intros []|].
        apply elem_of_list_singleton in Hx as ->. by intros [].
      + eapply rules_files; [|exact Hr]. exact (translated_option ts _ CRules rules_call rfs ru rules_call_iff Hrf T4).
  Qed.
  Lemma session_orderly m : contents_say ws pf pf32 ps fs c ts m -> length (m_lexicons m) <= 256 -> orderly cs.
  Proof.
    intros C Hlen. destruct Hs as (en & lm & st & ru & T1 & T2 & T3 & T4 & ->).
    assert (forall x, x ∈ en -> (exists n, x = CLexicon n) \/ exists n b, x = CVariantList n b) as I1.
    { intros x Hx. apply (translated_in _ _ _ _ entry_det T1) in Hx as (t & _ & Hr). destruct Hr; eauto. }
    assert (forall x, x ∈ lm -> exists n, x = CLanguageModel n) as I2 by (intros x Hx; apply (translated_in _ _ _ _ lm_det T2) in Hx as (t & _ & Hr); destruct Hr; eauto).
    assert (forall x, x ∈ st -> (exists n, x = CConfusables n) \/ x = CEarly) as I3 by (intros x Hx; apply (translated_in _ _ _ _ setting_det T3) in Hx as (t & _ & Hr); destruct Hr; eauto).
    assert (forall x, x ∈ ru -> exists n, x = CRules n) as I4 by (intros x Hx; apply (translated_in _ _ _ _ rules_det' T4) in Hx as (t & _ & Hr); destruct Hr; eauto).
    assert (length en + length lm <= 256) as Hn.
    { destruct (cs_entries _ _ _ _ _ _ _ _ C) as (ss & a & l & r & L & (sel & gs & lms & S1 & S2 & S3 & ->) & _ & _ & _ & _ & _ & E). rewrite E in Hlen.
      pose proof (Forall2_length _ _ _ (translated_entries ts sel gs en S1 S2 T1)) as L1.
      pose proof (Forall2_length _ _ _ (translated_option ts _ CLanguageModel lm_call lms lm lm_call_iff S3 T2)) as L2.
      rewrite map_length, app_length, map_length in Hlen. lia. }
    assert (forall x, x ∈ en ++ lm ++ st -> x <> CBuild /\ ~ gives_rules x /\ forall t f p, x <> CAdd t f p) as J1.
    { intros x Hx. apply elem_of_app in Hx as [Hx|Hx]; [destruct (I1 _ Hx) as [(? & ->)|(? & ? & ->)]; (split; [done|]); (split; [by intros []|done])|].
      apply elem_of_app in Hx as [Hx|Hx]; [destruct (I2 _ Hx) as [? ->]; (split; [done|]); (split; [by intros []|done])|].
      destruct (I3 _ Hx) as [[? ->]| ->]; (split; [done|]); (split; [by intros []|done]). }
    assert (forall x, x ∈ ru -> ~ adds_entries x) as J2 by (intros x [n ->]%I4; intros (n' & p & X); inversion X).
    split.
    - exists (en ++ lm ++ st), ru. split; [by rewrite <- !app_assoc|]. split; apply Forall_forall; intros x Hx; [by apply J1|]. split; [by destruct (I4 _ Hx) as [? ->]|by apply J2].
    - intros before x after E Hg. assert (en ++ lm ++ st ++ CBuild :: ru = (en ++ lm ++ st ++ [CBuild]) ++ ru) as E0 by (by rewrite <- !app_assoc).
      assert (length (en ++ lm ++ st ++ [CBuild]) <= length before) as Hb.
      { destruct (decide (length (en ++ lm ++ st ++ [CBuild]) <= length before)) as [?|Hb]; [done|]. exfalso.
        assert ((en ++ lm ++ st ++ [CBuild]) !! length before = Some x) as Hx.
        { rewrite <- (lookup_app_l _ ru) by lia. rewrite <- E0, E. by apply list_lookup_middle. }
        apply elem_of_list_lookup_2 in Hx. rewrite (app_assoc lm), (app_assoc en) in Hx. apply elem_of_app in Hx as [Hx|Hx].
        - by apply J1 in Hx as (_ & N & _).
        - apply elem_of_list_singleton in Hx as ->. by destruct Hg. }
      apply Forall_forall. intros y Hy. apply elem_of_list_lookup in Hy as (k & Hk). apply J2.
      assert ((before ++ x :: after) !! (length before + S k) = Some y) as Hy by (rewrite lookup_app_r by lia; by replace (length before + S k - length before) with (S k) by lia).
      rewrite <- E, E0, lookup_app_r in Hy by lia. by eapply elem_of_list_lookup_2.
    - intros t f p H. exfalso. rewrite !app_assoc in H. apply elem_of_app in H as [H|H].
      + rewrite <- app_assoc in H. apply J1 in H as (_ & _ & N). by destruct (N t f p).
      + apply elem_of_cons in H as [[=]|H]. by destruct (I4 _ H) as [? [=]].
    - intros files Hf. assert (selects (fun c => exists n, names_file c n) (en ++ lm ++ st ++ CBuild :: ru) (en ++ lm)) as K; [|rewrite (selects_det _ _ _ _ Hf K), app_length; lia].
      assert (forall l : list py_call, (forall x, x ∈ l -> exists n, names_file x n) -> forall r r', selects (fun c => exists n, names_file c n) r r' -> selects (fun c => exists n, names_file c n) (l ++ r) (l ++ r')) as Ka.
      { induction l as [|x l IH]; intros Hl r r' Hr; [done|]. cbn [app]. constructor; [apply Hl; left|]. apply IH; [|done]. intros y Hy. apply Hl. by right. }
      assert (forall l : list py_call, (forall x, x ∈ l -> ~ exists n, names_file x n) -> selects (fun c => exists n, names_file c n) l []) as Kn.
      { induction l as [|x l IH]; intros Hl; [constructor|]. apply selects_skip; [apply Hl; left|]. apply IH. intros y Hy. apply Hl. by right. }
      apply Ka; [intros x [(n & ->)|(n & b & ->)]%I1; exists n; [left; eexists; constructor|right; by eexists]|].
      rewrite <- (app_nil_r lm) at 2. apply Ka; [intros x [n ->]%I2; exists n; left; eexists; constructor|].
      apply Kn. intros x Hx (n & [(p & X)|(b & ->)]).
      + apply elem_of_app in Hx as [Hx|Hx]; [destruct (I3 _ Hx) as [[? ->]| ->]; inversion X|]. apply elem_of_cons in Hx as [->|Hx]; [inversion X|]. destruct (I4 _ Hx) as [? ->]; inversion X.
      + apply elem_of_app in Hx as [Hx|Hx]; [destruct (I3 _ Hx) as [[? [=]]| [=]]|]. apply elem_of_cons in Hx as [[=]|Hx]. destruct (I4 _ Hx) as [? [=]].
  Qed.
End contents.

Section values.
  Context (fmt : f64 -> str) (score : variant_result -> f64) (m : model).
  Lemma result_shown r d : result_object m score r d -> exists j, result_says fmt score true m r j /\ shows fmt d j.
  Proof.
    intros (v & via & Hv & Hvia & ->). eexists. split; [by exists v|].
    assert (forall l, shows fmt (PyList (map PyStr l)) (JArr (map JStr l))) as K by (intros l; constructor; induction l; constructor; [constructor|done]).
    assert (forall A B, Forall2 (fun (d : str * pyval) (j : str * json) => d.1 = j.1 /\ shows fmt d.2 j.2) A B ->
      shows fmt (PyDict ([(name "text", PyStr (vv_text v)); (name "score", PyFloat (score r)); (name "dist_score", PyFloat (vr_dist r)); (name "freq_score", PyFloat (vr_freq r))] ++ A ++ [(name "lexicons", PyList (map PyStr (lexicon_names (m_lexicons m) v)))]))
        (JObj ([(name "text", JStr (vv_text v)); (name "score", JNum (fmt (score r))); (name "dist_score", JNum (fmt (vr_dist r))); (name "freq_score", JNum (fmt (vr_freq r)))] ++ B ++ [(name "lexicons", JArr (map JStr (lexicon_names (m_lexicons m) v)))]))) as G.
    { intros A B F. constructor. apply Forall2_app; [repeat (constructor; [split; [done|constructor]|]); constructor|]. apply Forall2_app; [done|]. constructor; [split; [done|apply K]|constructor]. }
    apply G. destruct (vr_via r) as [i|]; cbn.
    - destruct Hvia as (w & -> & ->). constructor; [split; [done|constructor]|constructor].
    - subst via. constructor.
  Qed.
  Lemma results_shown rs d : results_object m score rs d -> exists ds js, d = PyList ds /\ Forall2 (result_says fmt score true m) rs js /\ Forall2 (shows fmt) ds js.
  Proof.
    intros (ds & F & ->). exists ds. induction F as [|r d rs ds Hr _ (js & _ & F1 & F2)]; [exists []; split; [done|]; split; constructor|].
    destruct (result_shown _ _ Hr) as (j & H1 & H2). exists (j :: js). split; [done|]. split; by constructor.
  Qed.
  Lemma input_shown q l d : input_object m score q l d -> exists j, match_says fmt score true m q (Some l) (Some 0) None [] [] j /\ shows fmt d j.
  Proof.
    intros (vs & Hv & ->). destruct (results_shown _ _ Hv) as (ds & js & -> & F1 & F2). exists (JObj [(name "input", JStr q); (name "variants", JArr js)]). split.
    - exists [], [], [(name "variants", JArr js)]. split; [constructor|]. split; [constructor|]. split; [|done]. econstructor; [|exact F1].
      destruct l as [|x l]; [by apply sf_outside|]. by apply (sf_selected [] x l).
    - constructor. constructor; [split; [done|constructor]|]. constructor; [split; [done|by constructor]|constructor].
  Qed.
  Lemma match_shown x d : match_object m score x d -> exists j, found_says fmt score true m x j /\ match_shows fmt d j.
  Proof.
    intros (ts & rs & vs & Ht & Hr & Hv & ->). destruct (results_shown _ _ Hv) as (ds & js & -> & F1 & F2).
    assert (exists js', tags_say (m_tags m) (tm_tag x) (tm_seqnr x) js' /\ Forall2 (fun (d : str * pyval) (j : str * json) => d.1 = j.1 /\ shows fmt d.2 j.2) ts js') as (tj & T1 & T2).
    { destruct Ht as [E|ts Nt F].
      - exists []. rewrite E. split; constructor.
      - exists [(name "tag", JArr (map JStr ts)); (name "seqnr", JArr (map JNum (map (fun z : N * nat => show (N.of_nat z.2)) (zip (tm_tag x) (tm_seqnr x)))))]. split.
        + constructor; [done|done|]. clear. induction (zip (tm_tag x) (tm_seqnr x)); cbn [map]; constructor; [apply P_JsonOut.show_decimal|done].
        + constructor; [split; [done|]|constructor; [split; [done|]|constructor]].
          * constructor. clear. induction ts; cbn [map]; constructor; [constructor|done].
          * constructor. clear. induction (zip (tm_tag x) (tm_seqnr x)); cbn [map]; constructor; [constructor; apply P_JsonOut.show_decimal|done]. }
    set (os := [(name "begin", JNum (show (N.of_nat (tm_begin x)))); (name "end", JNum (show (N.of_nat (tm_end x))))]).
    assert (offset_says (Some (tm_begin x, tm_end x)) os) as Os by (constructor; apply P_JsonOut.show_decimal).
    assert (forall A B, Forall2 (fun (d : str * pyval) (j : str * json) => d.1 = j.1 /\ shows fmt d.2 j.2) A B ->
      shows fmt (PyDict ([(name "input", PyStr (tm_text x)); (name "begin", PyInt (Z.of_nat (tm_begin x))); (name "end", PyInt (Z.of_nat (tm_end x)))] ++ ts ++ A)) (JObj ((name "input", JStr (tm_text x)) :: os ++ tj ++ B))) as G.
    { intros A B F. constructor. cbn [app]. constructor; [split; [done|constructor]|]. constructor; [split; [done|constructor; apply P_JsonOut.show_decimal]|].
      constructor; [split; [done|constructor; apply P_JsonOut.show_decimal]|]. by apply Forall2_app. }
    destruct (tm_variants x) as [l|] eqn:El; cbn [default] in Hr.
    - exists (JObj ((name "input", JStr (tm_text x)) :: os ++ tj ++ [(name "variants", JArr js)])). split.
      + exists os, tj, [(name "variants", JArr js)]. split; [done|]. split; [done|]. split; [rewrite El; by econstructor|done].
      + eexists _, _, _, ts, ds, [(name "variants", PyList ds)]. split; [reflexivity|]. split; [by left|]. apply G. constructor; [split; [done|by constructor]|constructor].
    - assert (rs = []) as -> by (inversion Hr as [pre y post E1 E2|s l' E1 E2|]; subst; [by destruct pre|done|done]). inversion F1; subst. inversion F2; subst.
      exists (JObj ((name "input", JStr (tm_text x)) :: os ++ tj ++ [])). split.
      + exists os, tj, []. split; [done|]. split; [done|]. split; [rewrite El; constructor|done].
      + eexists _, _, _, ts, [], []. split; [reflexivity|]. split; [by right|]. apply G. constructor.
  Qed.
End values.
