(** Proofs about sessions with the Python bindings: the content of the model. *)
From Coq Require Import Lia.
From Verif Require Import M_Base M_Anahash M_Iter M_Distance M_Float M_Types M_Model M_Confusable M_ConfList M_Rules M_Search M_Text M_Values M_Cli M_Main.
From Verif Require Import S_Anahash S_Iter S_Distance S_Model S_Search S_Lookup S_Confusable S_Rules S_Cli S_Main S_RuleFile S_Program.
From Verif Require Import M_Python S_Session.
From Verif Require Import P_Base P_Model P_Inv P_Main P_Start.
From Verif Require P_Files P_Vocab P_Confusable P_RuleFile P_Query P_Gather P_Lm P_SearchRun.
From stdpp Require Import options.

(** ** Invariants of loading *)
Lemma sane_gives m : sane m -> normalised m /\ links_inside m /\ freq_u32 m.
Proof.
  intros [H3 H]. split; [|split].
  - intros id v [D Hs]. destruct (H id v D) as [_ Is In _]. apply In. destruct (decide (3 <= id)); [done|].
    rewrite Is in Hs by lia. done.
  - intros id v r s D Hin. destruct (H id v D) as [_ _ _ Il]. unfold targets in Il. unfold stored_references in Hin.
    apply elem_of_list_omap in Hin as (x & Hx & E). rewrite Forall_forall in Il. apply Il, elem_of_list_fmap.
    exists x. split; [|done]. destruct x; [done|]. by injection E as -> ->.
  - intros id v D. by destruct (H id v D).
Qed.

(** ** Whether frequencies count *)
Lemma line_have_none p m line m' : vp_freq_column p = None -> read_vocabulary_line p m line = Ok m' -> m_have_freq m' = m_have_freq m.
Proof.
  intros Hp. unfold read_vocabulary_line. destruct line as [|c line]; [by intros [= <-]|]. rewrite Hp. intros H.
  apply rbind_ok in H as (t & _ & H). apply rbind_ok in H as ([x1 f] & E1 & H). injection E1 as <- <-. apply rbind_ok in H as ([x2 id] & E2 & [= <-]).
  by apply add_have in E2.
Qed.
Lemma vocabulary_have m n lines p m' : read_vocabulary m n lines p = Ok m' ->
  m_have_freq m' = true <-> m_have_freq m = true \/ (vp_freq_column p <> None /\ flag (vp_vocab_type p) searchable_bit = true /\ exists l, l ∈ lines /\ l <> []).
Proof.
  unfold read_vocabulary. intros H. apply rbind_ok in H as (m1 & E & [= <-]). change (m_have_freq (with_lexicons _ _ _)) with (m_have_freq m1).
  destruct (vp_freq_column p) as [c|] eqn:Ec.
  - apply lines_have in E; [|cbn; by rewrite Ec]. rewrite E, orb_true_iff, andb_true_iff, existsb_exists. cbn [with_params_index vp_vocab_type].
    rewrite P_Vocab.vt_check_indexed. unfold flag, searchable_bit. setoid_rewrite <- elem_of_list_In. setoid_rewrite negb_true_iff.
    setoid_rewrite bool_decide_eq_false. naive_solver.
  - assert (m_have_freq m1 = m_have_freq m) as ->.
    { refine (rfoldl_inv (fun x => m_have_freq x = m_have_freq m) _ _ _ _ _ _ E); [|done].
      intros x line x' Hx Hl. apply line_have_none in Hl; [congruence|done]. }
    naive_solver.
Qed.

Section session.
  Context (ws : N -> bool) (pf : str -> option f64) (pf32 : str -> option f32) (ps : str -> option (list edit_instruction)).
  Context (o : list (N * node) -> list (N * node)) (o' : list (str * vocab_id) -> list (str * vocab_id)).
  Context (fs : str -> option (list (option str))).
  #[local] Notation step := (py_step ws pf pf32 ps o o' fs).
  #[local] Notation steps := (py_steps ws pf pf32 ps o o' fs).
  #[local] Notation says := (call_says pf fs).
  #[local] Notation all_say := (calls_say pf fs).
  #[local] Notation confs := (confusables_say pf ps fs).
  #[local] Notation rules := (session_rules ws pf32 fs).
  #[local] Set Default Proof Using "All".

  Lemma rust_returned {A} (x : res A) a : rust x = Returned a <-> x = Ok a.
  Proof. destruct x; cbn; split; intros [=]; congruence. Qed.
  Lemma runtime_returned {A} (x : res (A * bool)) a : runtime x = Returned a <-> x = Ok (a, true).
  Proof. destruct x as [[y []]|]; cbn; split; intros [=]; congruence. Qed.
  Lemma open_returned {A} n (k : file -> pyres A) a : py_open fs n k = Returned a <-> exists f, file_there fs n f /\ k f = Returned a.
  Proof.
    unfold py_open, file_there. split.
    - destruct (fs n) as [ls|] eqn:E; [|done]. intros H. eexists. split; [by exists ls|exact H].
    - by intros (f & (ls & -> & ->) & H).
  Qed.
  Lemma there_det n f f' : file_there fs n f -> file_there fs n f' -> f' = f.
  Proof. intros (ls & E & ->) (ls' & E' & ->). congruence. Qed.
  Lemma word_list_step m c n p : word_list c n p -> step m c = py_open fs n (fun f => rust (read_vocabulary m (f_name f) (f_lines f) p)).
  Proof. by intros []. Qed.
  Lemma word_list_det c n p n' p' : word_list c n p -> word_list c n' p' -> n' = n /\ p' = p.
  Proof. intros [] H; by inversion H. Qed.
  Lemma entries_cases c : adds_entries c -> (exists t f p, c = CAdd t f p) \/ (exists n p, word_list c n p) \/ (exists n b, c = CVariantList n b).
  Proof. destruct c; intros H; try (by destruct H as (? & ? & ?); right; left; eauto); eauto. Qed.
  Lemma word_list_adds c n p : word_list c n p -> adds_entries c.
  Proof. intros H. destruct H; cbn; eexists _, _; constructor. Qed.
  Lemma entries_dec c : adds_entries c \/ ~ adds_entries c.
  Proof.
    destruct c as [|t f p|n p|n|n|n b|n|n|pat sc ts os|]; try (left; exact I); try (left; eexists _, _; constructor);
      right; intros (n' & p' & H); inversion H.
  Qed.

  Definition counting (c : py_call) : Prop := exists n p f l, word_list c n p /\ vp_freq_column p <> None /\
    flag (vp_vocab_type p) searchable_bit = true /\ file_there fs n f /\ l ∈ f_lines f /\ l <> [].

  (** ** Calls that add entries *)
  Record entered (m0 : model) (a : list addition) (l : list (str * str * f64)) (m : model) (c : py_call) (m' : model)
      (a' : list addition) (l' : list (str * str * f64)) (ns : list str) : Prop := {
    en_says : says (length (m_lexicons m)) c a' l' ns;
    en_st : P_Files.st m0 (a ++ a') (l ++ l') m';
    en_lexicons : m_lexicons m' = m_lexicons m ++ ns;
    en_frame : frame m' = frame m;
    en_lm : m_ngrams m' = m_ngrams m /\ m_freq_sum m' = m_freq_sum m;
    en_sane : sane m -> sane m';
    en_freq : m_have_freq m' = true <-> m_have_freq m = true \/ counting c;
  }.
  Lemma entry_step m0 a l m c m' : adds_entries c -> (forall t f p, c = CAdd t f p -> freq_ok f) ->
    ((exists n, names_file c n) -> length (m_lexicons m) < 256) -> P_Files.st m0 a l m -> step m c = Returned m' ->
    exists a' l' ns, entered m0 a l m c m' a' l' ns.
  Proof.
    intros Ha Hf Hl S H. destruct (entries_cases c Ha) as [(t & f & p & ->)|[(n & p & Hw)|(n & b & ->)]].
    - cbn [py_step] in H. apply rust_returned in H. apply rbind_ok in H as ([m1 id] & E & [= ->]).
      exists [(t, f, p)], [], []. split.
      + constructor.
      + rewrite app_nil_r. by eapply P_Files.st_add.
      + rewrite app_nil_r. by apply P_Files.add_enc in E as (_ & ? & _).
      + by eapply add_frame.
      + split; eapply (add_g (fun m => _ m)); try exact E; done.
      + intros Sa. by destruct (add_sane _ _ _ _ _ _ (Hf _ _ _ eq_refl) Sa E).
      + rewrite (add_have _ _ _ _ _ _ E). split; [by left|]. intros [?|(n & q & f' & l0 & Hw & _)]; [done|inversion Hw].
    - rewrite (word_list_step m c n p Hw) in H. apply open_returned in H as (f & Ht & H). apply rust_returned in H.
      assert (length (m_lexicons m) < 256) as Hl' by (apply Hl; exists n; left; eauto).
      assert (f_name f = n) as En by (by destruct Ht as (ls & _ & ->)).
      destruct (P_Files.read_lexicon _ _ _ _ _ _ _ _ S H) as (a' & F & S' & L). rewrite as_u8_small in F by done.
      exists a', [], [n]. split.
      + by eapply call_words.
      + by rewrite app_nil_r.
      + by rewrite L, En.
      + by eapply read_vocabulary_frame.
      + split; eapply (vocabulary_g (fun m => _ m) pf); try exact H; done.
      + intros Sa. by eapply read_vocabulary_sane.
      + rewrite (vocabulary_have _ _ _ _ _ H). split; (intros [?|X]; [by left|right]).
        * destruct X as (X1 & X2 & l0 & X3 & X4). by exists n, p, f, l0.
        * destruct X as (n' & p' & f' & l0 & Hw' & X1 & X2 & X3 & X4 & X5). destruct (word_list_det _ _ _ _ _ Hw Hw') as [-> ->].
          rewrite (there_det _ _ _ Ht X3) in *. eauto.
    - cbn [py_step] in H. apply open_returned in H as (f & Ht & H). apply rust_returned in H.
      assert (length (m_lexicons m) < 256) as Hl' by (apply Hl; exists n; right; eauto).
      assert (f_name f = n) as En by (by destruct Ht as (ls & _ & ->)).
      destruct (P_Files.read_list pf _ _ _ _ _ _ _ _ _ S H) as (es & F & S' & L). rewrite as_u8_small in S' by done.
      eexists _, _, [n]. split.
      + by eapply call_list.
      + destruct b; exact S'.
      + by rewrite L, En.
      + eapply (read_variants_frame ws pf pf32 ps). exact H.
      + split; eapply (variants_g (fun m => _ m) pf); try exact H; done.
      + intros Sa. by eapply read_variants_sane.
      + rewrite (variants_have pf _ _ _ _ _ _ H). split; [by left|]. intros [?|(n' & q & f' & l0 & Hw & _)]; [done|inversion Hw].
  Qed.
  Lemma entry_write m0 a l m c a' l' ns rest r' : adds_entries c -> ((exists n, names_file c n) -> length (m_lexicons m) < 256) ->
    P_Files.st m0 a l m -> says (length (m_lexicons m)) c a' l' ns -> run_adds m0 (a ++ a' ++ rest) = Ok r' -> exists m', step m c = Returned m'.
  Proof.
    intros Ha Hl S H R. destruct H as [t f p|c n p f adds Hw Ht F|n b f es Ht F|c Hn]; [| | |done].
    - cbn [py_step]. rewrite app_assoc, P_Vocab.run_adds_app in R. apply rbind_ok in R as (r1 & R & _).
      destruct (P_Files.st_add_ok _ _ _ _ _ _ _ _ S R) as (m' & id & ->). by exists m'.
    - rewrite (word_list_step m c n p Hw). setoid_rewrite open_returned.
      destruct (P_Files.write_lexicon m0 l (f_name f) p (f_lines f) a m adds rest r' S) as (m' & E); [|exact R|].
      + rewrite as_u8_small; [exact F|]. apply Hl. exists n. left. eauto.
      + exists m', f. split; [done|]. by rewrite E.
    - cbn [py_step]. setoid_rewrite open_returned. assert (length (m_lexicons m) < 256) as Hl' by (apply Hl; exists n; right; eauto).
      destruct (P_Files.write_list pf m0 a l m (f_name f) (f_lines f) (Some vocab_params_default) b es rest r' S F) as (m' & E).
      + rewrite as_u8_small by done. destruct b; exact R.
      + exists m', f. split; [done|]. by rewrite E.
  Qed.
  Lemma says_det i c a l ns a' l' ns' : says i c a l ns -> says i c a' l' ns' -> a' = a /\ l' = l /\ ns' = ns.
  Proof.
    assert (LD : forall p x y y', line_adds p x y -> line_adds p x y' -> y' = y).
    { intros p x y y' (fl & t & F & Ht & f & -> & Hf) (fl' & t' & F' & Ht' & f' & -> & Hf').
      apply P_Vocab.fields_det in F, F'. subst fl'. rewrite <- F in *. rewrite Ht in Ht'. injection Ht' as <-.
      assert (f' = f) as ->; [|done]. destruct (vp_freq_column p) as [c'|]; [|congruence].
      destruct (fl !! c'); [|congruence]. apply P_Vocab.parse_uint_spec in Hf, Hf'. congruence. }
    assert (FD : forall p xs ys ys', Forall2 (line_adds p) xs ys -> Forall2 (line_adds p) xs ys' -> ys' = ys).
    { intros p xs ys ys' F. revert ys'. induction F as [|x y xs ys H _ IH]; intros ys' F'; inversion F'; subst; [done|].
      f_equal; [by eapply LD|by apply IH]. }
    intros H H'. destruct H as [t f p|c n p f adds Hw Ht F|n b f es Ht F|c Hn]; inversion H' as [?|? n' p' f' adds' Hw' Ht' F'|? ? f' es' Ht' F'|? Hn']; subst;
      try done; try (by inversion Hw); try (by inversion Hw'); try (by destruct Hn'); try (by destruct Hn; eapply word_list_adds); try (by destruct Hn'; eapply word_list_adds); try (by destruct Hn).
    - destruct (word_list_det _ _ _ _ _ Hw Hw') as [-> ->]. rewrite (there_det _ _ _ Ht Ht') in *. by rewrite (FD _ _ _ _ F F').
    - rewrite (there_det _ _ _ Ht Ht') in *. by rewrite (P_Files.list_says_det pf _ _ _ F F').
  Qed.

  (** ** Calls that do not *)
  Definition touch (m : model) (c : py_call) (m' : model) : Prop :=
    exists xs e rs tb, m' = retouch (m_confusables m ++ xs) e (m_context_rules m ++ rs) tb m /\ confs [c] xs /\
      (e = true <-> m_confusables_before_pruning m = true \/ c = CEarly) /\ rules (m_lexicons m) (m_encoder m) (m_tags m) [c] tb rs.
  Lemma confs_one c xs : confs [c] xs <-> (exists n f ls, c = CConfusables n /\ file_there fs n f /\ selects (fun l => l <> []) (f_lines f) ls /\
    Forall2 (line_confusable ps pf) ls xs) \/ ((forall n, c <> CConfusables n) /\ xs = []).
  Proof.
    split.
    - intros H. inversion H as [|n f ls xs' ? ys H1 H2 H3 H4|? ? ys H1 H2]; subst.
      + inversion H4; subst. rewrite app_nil_r. left. by exists n, f, ls.
      + inversion H2; subst. by right.
    - intros [(n & f & ls & -> & H1 & H2 & H3)|[H ->]].
      + rewrite <- (app_nil_r xs). eapply conf_file; [done..|constructor].
      + constructor; [done|constructor].
  Qed.
  Lemma rules_one lx en tb c tb' rs : rules lx en tb [c] tb' rs <->
    (exists n f, c = CRules n /\ file_there fs n f /\ rules_say ws pf32 lx en tb (f_lines f) tb' rs) \/
    (exists pat sc tags offs r, c = CRule pat sc tags offs /\ given_says ws lx en tb pat sc tags offs tb' r /\ rs = [r]) \/
    (~ gives_rules c /\ tb' = tb /\ rs = []).
  Proof.
    split.
    - intros H. inversion H as [|? n f tb1 rs1 ? ? rs' H1 H2 H3|? pat sc tags offs tb1 r ? ? rs' H1 H2|? ? ? ? ? H1 H2]; subst.
      + inversion H3; subst. rewrite app_nil_r. left. eauto.
      + inversion H2; subst. right; left. eauto 10.
      + inversion H2; subst. by right; right.
    - intros [(n & f & -> & H1 & H2)|[(pat & sc & tags & offs & r & -> & H & ->)|(H & -> & ->)]].
      + rewrite <- (app_nil_r rs). eapply sr_file; [done..|constructor].
      + eapply sr_rule; [done|constructor].
      + eapply sr_other; [done|constructor].
  Qed.
  Lemma retouch_self m : retouch (m_confusables m) (m_confusables_before_pruning m) (m_context_rules m) (m_tags m) m = m.
  Proof. by destruct m. Qed.
  Lemma bool_same (e b : bool) : (e = true <-> b = true \/ False) -> e = b.
  Proof. destruct e, b; naive_solver. Qed.
  Lemma given_iff m pat sc tags offs m' : add_contextrule ws m pat sc tags offs = Ok (m', true) <->
    exists tb r, given_says ws (m_lexicons m) (m_encoder m) (m_tags m) pat sc tags offs tb r /\ m' = with_rules m (m_context_rules m ++ [r]) tb.
  Proof.
    destruct (decide ([] ∈ tags)) as [Hin|Hin].
    - split.
      + unfold add_contextrule. intros H. apply rbind_ok in H as (qs & _ & H). destruct (collect_opt qs) as [qs'|]; [|done].
        destruct (add_tags (m_tags m) tags) as [tb ns]. assert (existsb (fun t => bool_decide (t = [])) tags = true) as Ex; [|by rewrite Ex in H].
        apply existsb_exists. exists []. split; [by apply elem_of_list_In|done].
      + intros (tb & r & H & _). by inversion H.
    - rewrite (P_RuleFile.add_given_iff ws m pat sc tags offs m' Hin). split.
      + intros (qs & rs & tb & ns & F1 & F2 & F3 & ->). eexists tb, _. split; [|reflexivity]. econstructor; try done. by apply P_RuleFile.fields_split.
      + intros (tb & r & [xs qs tb' ns rs F0 F1 _ F2 F3] & ->). apply P_RuleFile.fields_split in F0. exists qs, rs, tb', ns. subst xs. done.
  Qed.
  Lemma touch_iff m c m' : ~ adds_entries c -> c <> CBuild -> step m c = Returned m' <-> touch m c m'.
  Proof.
    intros Ha Hb. unfold touch. setoid_rewrite confs_one. setoid_rewrite rules_one.
    destruct c as [|t f p|n p|n|n|n b|n|n|pat sc ts os|]; try (by destruct Ha); try (by destruct Ha; eexists _, _; constructor); cbn [py_step].
    - rewrite open_returned. setoid_rewrite runtime_returned. setoid_rewrite P_Confusable.read_spec. split.
      + intros (f & Ht & ls & cs & H1 & H2 & ->). exists cs, (m_confusables_before_pruning m), [], (m_tags m). split_and!.
        * rewrite app_nil_r. by destruct m.
        * left. eauto 10.
        * split; [by left|]. by intros [?|?].
        * right; right. split; [by intros []|done].
      + intros (xs & e & rs & tb & -> & [(n' & f & ls & [= <-] & H1 & H2 & H3)|[X _]] & He & [(? & ? & [=] & _)|[(? & ? & ? & ? & ? & [=] & _)|(_ & -> & ->)]]); [|by destruct (X n)].
        exists f. split; [done|]. exists ls, xs. split; [done|]. split; [done|]. rewrite app_nil_r.
        assert (e = m_confusables_before_pruning m) as -> by (apply bool_same; rewrite He; naive_solver). by destruct m.
    - rewrite open_returned. setoid_rewrite runtime_returned. setoid_rewrite P_RuleFile.rules_iff. split.
      + intros (f & Ht & tb & rs & H & ->). exists [], (m_confusables_before_pruning m), rs, tb. split_and!.
        * rewrite app_nil_r. by destruct m.
        * by right.
        * split; [by left|]. by intros [?|?].
        * left. eauto.
      + intros (xs & e & rs & tb & -> & [(n' & f & ls & [=] & _)|[_ ->]] & He & [(n2 & f2 & [= <-] & H1 & H2)|[(? & ? & ? & ? & ? & [=] & _)|(X & _)]]); [|by destruct X].
        exists f2. split; [done|]. exists tb, rs. split; [done|]. rewrite app_nil_r.
        assert (e = m_confusables_before_pruning m) as -> by (apply bool_same; rewrite He; naive_solver). by destruct m.
    - rewrite runtime_returned, given_iff. split.
      + intros (tb & r & H & ->). exists [], (m_confusables_before_pruning m), [r], tb. split_and!.
        * rewrite app_nil_r. by destruct m.
        * by right.
        * split; [by left|]. by intros [?|?].
        * right; left. eauto 10.
      + intros (xs & e & rs & tb & -> & [(n' & f & ls & [=] & _)|[_ ->]] & He & [(n2 & f2 & [=] & _)|[(? & ? & ? & ? & r & [= <- <- <- <-] & H & ->)|(X & _)]]); [|by destruct X].
        exists tb, r. split; [done|]. rewrite app_nil_r.
        assert (e = m_confusables_before_pruning m) as -> by (apply bool_same; rewrite He; naive_solver). by destruct m.
    - split.
      + intros [= <-]. exists [], true, [], (m_tags m). split_and!.
        * rewrite !app_nil_r. by destruct m.
        * by right.
        * split; [by right|done].
        * right; right. split; [by intros []|done].
      + intros (xs & e & rs & tb & -> & [(n' & f & ls & [=] & _)|[_ ->]] & He & [(? & ? & [=] & _)|[(? & ? & ? & ? & ? & [=] & _)|(_ & -> & ->)]]).
        rewrite !app_nil_r. assert (e = true) as -> by (apply He; by right). by destruct m.
  Qed.

  (** ** Calls one after the other *)
  Lemma all_app cs1 : forall i cs2 a l ns, all_say i (cs1 ++ cs2) a l ns <->
    exists a1 l1 n1 a2 l2 n2, all_say i cs1 a1 l1 n1 /\ all_say (i + length n1) cs2 a2 l2 n2 /\ a = a1 ++ a2 /\ l = l1 ++ l2 /\ ns = n1 ++ n2.
  Proof.
    induction cs1 as [|c cs1 IH]; intros i cs2 a l ns; cbn [app].
    - split.
      + intros H. exists [], [], [], a, l, ns. rewrite Nat.add_0_r. split; [constructor|done].
      + intros (a1 & l1 & n1 & a2 & l2 & n2 & H1 & H2 & -> & -> & ->). inversion H1; subst. by rewrite Nat.add_0_r in H2.
    - split.
      + intros H. inversion H as [|? ? ? a0 l0 n0 a' l' n' H0 H1]; subst. apply IH in H1 as (a1 & l1 & n1 & a2 & l2 & n2 & H1 & H2 & -> & -> & ->).
        exists (a0 ++ a1), (l0 ++ l1), (n0 ++ n1), a2, l2, n2. rewrite <- !app_assoc. split; [by econstructor|]. by rewrite app_length, Nat.add_assoc.
      + intros (a1 & l1 & n1 & a2 & l2 & n2 & H1 & H2 & -> & -> & ->). inversion H1 as [|? ? ? a0 l0 n0 a' l' n' H0 H3]; subst.
        rewrite <- !app_assoc. econstructor; [done|]. apply IH. eexists _, _, _, _, _, _. split; [exact H3|]. split; [|done].
        by rewrite app_length, Nat.add_assoc in H2.
  Qed.
  Lemma all_one i c a l ns : all_say i [c] a l ns <-> says i c a l ns.
  Proof.
    split.
    - intros H. inversion H as [|? ? ? a0 l0 n0 a' l' n' H0 H1]; subst. inversion H1; subst. by rewrite !app_nil_r.
    - intros H. rewrite <- (app_nil_r a), <- (app_nil_r l), <- (app_nil_r ns). econstructor; [done|constructor].
  Qed.
  Lemma all_det cs : forall i a l ns a' l' ns', all_say i cs a l ns -> all_say i cs a' l' ns' -> a' = a /\ l' = l /\ ns' = ns.
  Proof.
    induction cs as [|c cs IH]; intros i a l ns a' l' ns' H H'; inversion H as [|? ? ? a1 l1 n1 a2 l2 n2 H1 H2]; subst;
      inversion H' as [|? ? ? a3 l3 n3 a4 l4 n4 H3 H4]; subst; [done|].
    destruct (says_det _ _ _ _ _ _ _ _ H1 H3) as (-> & -> & ->). by destruct (IH _ _ _ _ _ _ _ H2 H4) as (-> & -> & ->).
  Qed.
  Lemma all_silent cs : Forall (fun c => ~ adds_entries c) cs -> forall i a l ns, all_say i cs a l ns -> a = [] /\ l = [] /\ ns = [].
  Proof.
    induction 1 as [|c cs Hc _ IH]; intros i a l ns H; inversion H as [|? ? ? a1 l1 n1 a2 l2 n2 H1 H2]; subst; [done|].
    destruct (IH _ _ _ _ H2) as (-> & -> & ->). assert (says i c [] [] []) as H3 by (by constructor).
    by destruct (says_det _ _ _ _ _ _ _ _ H1 H3) as (<- & <- & <-).
  Qed.
  Lemma confs_app cs1 : forall cs2 xs, confs (cs1 ++ cs2) xs <-> exists x1 x2, confs cs1 x1 /\ confs cs2 x2 /\ xs = x1 ++ x2.
  Proof.
    induction cs1 as [|c cs1 IH]; intros cs2 xs; cbn [app].
    - split; [intros H; exists [], xs; split; [constructor|done]|]. intros (x1 & x2 & H1 & H2 & ->). by inversion H1.
    - split.
      + intros H. inversion H as [|n f ls xs' ? ys H1 H2 H3 H4|? ? ys H1 H2]; subst.
        * apply IH in H4 as (x1 & x2 & H4 & H5 & ->). exists (xs' ++ x1), x2. rewrite <- app_assoc. split; [by econstructor|done].
        * apply IH in H2 as (x1 & x2 & H2 & H5 & ->). exists x1, x2. split; [by constructor|done].
      + intros (x1 & x2 & H & H5 & ->). inversion H as [|n f ls xs' ? ys H1 H2 H3 H4|? ? ys H1 H2]; subst.
        * rewrite <- app_assoc. econstructor; [done..|]. apply IH. eauto 10.
        * constructor; [done|]. apply IH. eauto 10.
  Qed.
  Lemma confs_det cs : forall xs ys, confs cs xs -> confs cs ys -> ys = xs.
  Proof.
    induction cs as [|c cs IH]; intros xs ys H H'; [by inversion H; inversion H'|].
    inversion H as [|n f ls xs' ? zs H1 H2 H3 H4|? ? zs H1 H2]; subst; inversion H' as [|n' f' ls' xs2 ? zs' K1 K2 K3 K4|? ? zs' K1 K2]; subst.
    - rewrite (there_det _ _ _ H1 K1) in *. rewrite (IH _ _ H4 K4). f_equal.
      assert ([xs2] = [xs']) as [= ->]; [|done]. eapply (confusables_det ps pf [f]); (constructor; [|constructor]); eauto.
    - by destruct (K1 n).
    - by destruct (H1 n').
    - by eapply IH.
  Qed.
  Lemma rules_app lx en cs1 : forall cs2 tb tb' rs, rules lx en tb (cs1 ++ cs2) tb' rs <->
    exists tb1 r1 r2, rules lx en tb cs1 tb1 r1 /\ rules lx en tb1 cs2 tb' r2 /\ rs = r1 ++ r2.
  Proof.
    induction cs1 as [|c cs1 IH]; intros cs2 tb tb' rs; cbn [app].
    - split; [intros H; exists tb, [], rs; split; [constructor|done]|]. intros (t1 & r1 & r2 & H1 & H2 & ->). by inversion H1; subst.
    - split.
      + intros H. inversion H as [|? n f tb1 rs1 ? ? rs' H1 H2 H3|? pat sc tags offs tb1 r ? ? rs' H1 H2|? ? ? ? ? H1 H2]; subst.
        * apply IH in H3 as (t1 & r1 & r2 & H3 & H4 & ->). exists t1, (rs1 ++ r1), r2. rewrite <- app_assoc. split; [by econstructor|done].
        * apply IH in H2 as (t1 & r1 & r2 & H3 & H4 & ->). exists t1, (r :: r1), r2. split; [by econstructor|done].
        * apply IH in H2 as (t1 & r1 & r2 & H3 & H4 & ->). exists t1, r1, r2. split; [by econstructor|done].
      + intros (t1 & r1 & r2 & H & H4 & ->). inversion H as [|? n f tb1 rs1 ? ? rs' H1 H2 H3|? pat sc tags offs tb1 r ? ? rs' H1 H2|? ? ? ? ? H1 H2]; subst.
        * rewrite <- app_assoc. econstructor; [done..|]. apply IH. eauto 10.
        * cbn [app]. econstructor; [done..|]. apply IH. eauto 10.
        * econstructor; [done..|]. apply IH. eauto 10.
  Qed.
  Lemma given_det lx en tb pat sc tags offs tb1 r1 tb2 r2 :
    given_says ws lx en tb pat sc tags offs tb1 r1 -> given_says ws lx en tb pat sc tags offs tb2 r2 -> tb2 = tb1 /\ r2 = r1.
  Proof.
    intros H1 H2. pose (m := Model [] [] en ∅ ∅ ∅ [] false false [] tb (Weights f0 f0 f0 f0 f0) lx [] false).
    assert (add_contextrule ws m pat sc tags offs = Ok (with_rules m [r1] tb1, true)) as E1 by (apply given_iff; eauto).
    assert (add_contextrule ws m pat sc tags offs = Ok (with_rules m [r2] tb2, true)) as E2 by (apply given_iff; eauto).
    rewrite E1 in E2. by injection E2 as -> ->.
  Qed.
  Lemma rules_det lx en cs : forall tb tb1 r1 tb2 r2, rules lx en tb cs tb1 r1 -> rules lx en tb cs tb2 r2 -> tb2 = tb1 /\ r2 = r1.
  Proof.
    induction cs as [|c cs IH]; intros tb tb1 r1 tb2 r2 H K; [inversion H; inversion K; by subst|].
    inversion H as [|? n f tb3 rs1 ? ? rs' H1 H2 H3|? pat sc tags offs tb3 r ? ? rs' H1 H2|? ? ? ? ? H1 H2]; subst;
      inversion K as [|? n' f' tb4 rs4 ? ? rs5 K1 K2 K3|? pat' sc' tags' offs' tb4 r' ? ? rs5 K1 K2|? ? ? ? ? K1 K2]; subst; try (by destruct K1); try (by destruct H1).
    - rewrite (there_det _ _ _ H1 K1) in *. destruct (P_RuleFile.rules_unique _ _ _ _ _ _ _ _ _ _ H2 K2) as [-> ->]. by destruct (IH _ _ _ _ _ H3 K3) as [-> ->].
    - destruct (given_det _ _ _ _ _ _ _ _ _ _ _ H1 K1) as [-> ->]. by destruct (IH _ _ _ _ _ H2 K2) as [-> ->].
    - by eapply IH.
  Qed.
  Lemma rules_silent lx en cs tb : Forall (fun c => ~ gives_rules c) cs -> rules lx en tb cs tb [].
  Proof. induction 1; by constructor. Qed.

  (** ** Files *)
  Lemma names_dec c : (exists n, names_file c n) \/ ~ exists n, names_file c n.
  Proof.
    destruct c as [|t f p|n p|n|n|n b|n|n|pat sc ts os|];
      try (right; intros (n' & [(p' & H)|(b' & H)]); by inversion H); left; exists n; first [left; eexists; by constructor|right; by eexists].
  Qed.
  Lemma files_select cs : exists files, selects (fun c => exists n, names_file c n) cs files.
  Proof. induction cs as [|c cs (files & IH)]; [exists []; constructor|]. destruct (names_dec c); eexists; [by apply selects_keep|by apply selects_skip]. Qed.
  Lemma selects_app {A} (P : A -> Prop) l1 l2 s1 s2 : selects P l1 s1 -> selects P l2 s2 -> selects P (l1 ++ l2) (s1 ++ s2).
  Proof. induction 1; intros H2; cbn [app]; [done| |]; constructor; auto. Qed.
  Lemma says_names i c a l ns : says i c a l ns -> ((exists n, names_file c n) /\ length ns = 1) \/ ((~ exists n, names_file c n) /\ ns = []).
  Proof.
    intros H. destruct H as [t f p|c n p f adds Hw Ht F|n b f es Ht F|c Hn].
    - right. split; [|done]. intros (n & [(q & H)|(b & H)]); inversion H.
    - left. split; [|done]. exists n. left. eauto.
    - left. split; [|done]. exists n. right. eauto.
    - right. split; [|done]. intros (n & [(q & H)|(b & ->)]); [by eapply Hn, word_list_adds|by destruct Hn].
  Qed.
  Lemma all_names cs : forall i a l ns, all_say i cs a l ns -> exists files, selects (fun c => exists n, names_file c n) cs files /\ length files = length ns.
  Proof.
    induction cs as [|c cs IH]; intros i a l ns H; inversion H as [|? ? ? a1 l1 n1 a2 l2 n2 H1 H2]; subst; [exists []; split; [constructor|done]|].
    destruct (IH _ _ _ _ H2) as (files & Sf & Lf). rewrite app_length. destruct (says_names _ _ _ _ _ H1) as [[Hn ->]|[Hn ->]].
    - exists (c :: files). split; [by constructor|]. cbn. lia.
    - exists files. split; [by constructor|done].
  Qed.
  Lemma files_bound cs dn c todo a l ns : orderly cs -> cs = dn ++ c :: todo -> all_say 0 dn a l ns -> (exists n, names_file c n) -> length ns < 256.
  Proof.
    intros [_ _ _ Hf] -> H Hn. destruct (all_names _ _ _ _ _ H) as (f1 & S1 & L1). destruct (files_select todo) as (f2 & S2).
    assert (length (f1 ++ c :: f2) <= 256) as Hb by (apply Hf; apply selects_app; [done|by constructor]). rewrite app_length in Hb. cbn in Hb. lia.
  Qed.
  Lemma no_rules_before cs dn c todo : orderly cs -> cs = dn ++ c :: todo -> adds_entries c -> Forall (fun d => ~ gives_rules d) dn.
  Proof.
    intros [_ Hr _ _] -> Ha. apply Forall_forall. intros d Hd Hg. apply elem_of_list_split in Hd as (d1 & d2 & ->).
    assert (Forall (fun d => ~ adds_entries d) (d2 ++ c :: todo)) as F by (apply (Hr d1 d); [by rewrite <- app_assoc|done]).
    apply Forall_app in F as [_ F]. by inversion F.
  Qed.

  (** ** The model on the way *)
  Record state (m0 : model) (cs : list py_call) (m : model) : Prop := {
    sa_entries : exists a l, all_say 0 cs a l (m_lexicons m) /\ P_Files.st m0 a l m;
    sa_weights : m_weights m = m_weights m0;
    sa_freq : m_have_freq m = true <-> exists c, c ∈ cs /\ counting c;
    sa_conf : confs cs (m_confusables m);
    sa_early : m_confusables_before_pruning m = true <-> CEarly ∈ cs;
    sa_rules : rules (m_lexicons m) (m_encoder m) [] cs (m_tags m) (m_context_rules m);
    sa_lm : m_ngrams m = ∅ /\ m_freq_sum m = [0%N];
    sa_sane : sane m;
  }.
  Lemma state_new al w : let m0 := model_new ws al w in state m0 [] m0.
  Proof.
    intros m0. split; try done.
    - exists [], []. split; [constructor|]. apply P_Files.st_new, new_inverse.
    - split; [done|]. intros (c & Hc & _). by apply elem_of_nil in Hc.
    - constructor.
    - split; [done|]. intros H. by apply elem_of_nil in H.
    - constructor.
    - apply new_sane.
  Qed.
  Lemma more_counting (Q : py_call -> Prop) cs c : ((exists d, d ∈ cs /\ Q d) \/ (Q c)) <-> exists d, d ∈ cs ++ [c] /\ Q d.
  Proof.
    split.
    - intros [(d & Hd & ?)|?]; [exists d|exists c]; (split; [|done]); apply elem_of_app; [by left|right; left].
    - intros (d & [Hd|Hd%elem_of_list_singleton]%elem_of_app & ?); [left; eauto|right; by subst].
  Qed.
  Lemma state_entry m0 cs dn c todo m m' : orderly cs -> cs = dn ++ c :: todo -> state m0 dn m -> adds_entries c -> step m c = Returned m' -> state m0 (dn ++ [c]) m'.
  Proof.
    intros Od E [(a & l & Sa & St) Sw Sf Sc Se Sr Sl Ss] Ha H.
    destruct (entry_step m0 a l m c m' Ha) as (a' & l' & ns & [E1 E2 E3 E4 [E5 E6] E7 E8]); try done.
    { intros t f p ->. apply (od_numbers _ Od t f p). rewrite E. apply elem_of_app. right. left. }
    { intros Hn. eapply files_bound; [exact Od|exact E|exact Sa|exact Hn]. }
    assert (forall n, c <> CConfusables n) as Nc by (intros n ->; by destruct Ha as (? & ? & X); inversion X).
    assert (c <> CEarly) as Ne by (intros ->; by destruct Ha as (? & ? & X); inversion X).
    assert (~ gives_rules c) as Ng by (destruct c; try (by intros []); by destruct Ha as (? & ? & X); inversion X).
    unfold frame in E4. injection E4 as Fw Fc Fe Fr Ft. split.
    - exists (a ++ a'), (l ++ l'). split; [|done]. rewrite E3. apply all_app. eexists _, _, _, _, _, _. split; [exact Sa|].
      split; [by apply all_one|done].
    - congruence.
    - rewrite E8, Sf. by apply more_counting.
    - rewrite Fc. apply confs_app. exists (m_confusables m), []. rewrite app_nil_r. split; [done|]. split; [|done]. constructor; [done|constructor].
    - rewrite Fe, Se, elem_of_app, elem_of_list_singleton. split; [by left|]. by intros [?|?].
    - pose proof (no_rules_before cs dn c todo Od E Ha) as Nr.
      destruct (rules_det _ _ _ _ _ _ _ _ (rules_silent (m_lexicons m) (m_encoder m) dn [] Nr) Sr) as [Et Er]. rewrite Ft, Fr, Et, Er.
      apply rules_silent. apply Forall_app. split; [done|]. by constructor.
    - destruct Sl. split; congruence.
    - eapply E7; done.
  Qed.
  Lemma state_touch m0 dn c m m' : state m0 dn m -> ~ adds_entries c -> touch m c m' -> state m0 (dn ++ [c]) m'.
  Proof.
    intros [(a & l & Sa & St) Sw Sf Sc Se Sr Sl Ss] Ha (xs & e & rs & tb & -> & T1 & T2 & T3). split; try done.
    - exists (a ++ []), (l ++ []). split; [|rewrite !app_nil_r; by eapply P_Files.st_same]. apply all_app. eexists _, _, _, [], [], []. split; [exact Sa|].
      split; [apply all_one; by constructor|]. cbn. by rewrite !app_nil_r.
    - cbn. rewrite Sf. rewrite <- more_counting. split; [by left|]. intros [?|(n & p & f & l0 & Hw & _)]; [done|]. by destruct Ha; eapply word_list_adds.
    - cbn. apply confs_app. eauto.
    - cbn. rewrite T2, Se, elem_of_app, elem_of_list_singleton. split; (intros [?|?]; [by left|by right]).
    - cbn. apply rules_app. eauto 10.
  Qed.
  Lemma state_build m0 dn m : state m0 dn m -> state m0 (dn ++ [CBuild]) m.
  Proof.
    intros [(a & l & Sa & St) Sw Sf Sc Se Sr Sl Ss]. assert (~ adds_entries CBuild) as Ha by (by intros (? & ? & X); inversion X). split; try done.
    - exists (a ++ []), (l ++ []). split; [|by rewrite !app_nil_r]. apply all_app. eexists _, _, _, [], [], []. split; [exact Sa|].
      split; [apply all_one; by constructor|]. by rewrite !app_nil_r.
    - rewrite Sf. rewrite <- more_counting. split; [by left|]. intros [?|(n & p & f & l0 & Hw & _)]; [done|]. inversion Hw.
    - apply confs_app. exists (m_confusables m), []. rewrite app_nil_r. split; [done|]. split; [|done]. constructor; [done|constructor].
    - rewrite Se, elem_of_app, elem_of_list_singleton. split; [by left|]. by intros [?|?].
    - apply rules_app. exists (m_tags m), (m_context_rules m), []. rewrite app_nil_r. split; [done|]. split; [|done]. constructor; [by intros []|constructor].
  Qed.

  Lemma steps_app cs1 : forall m cs2, steps m (cs1 ++ cs2) = pybind (steps m cs1) (fun m' => steps m' cs2).
  Proof. induction cs1 as [|c cs1 IH]; intros m cs2; [done|]. cbn. destruct (step m c); [cbn; apply IH|done..]. Qed.
  Lemma bind_returned {A B} (x : pyres A) (f : A -> pyres B) b : pybind x f = Returned b <-> exists a, x = Returned a /\ f a = Returned b.
  Proof. destruct x; cbn; split; try done; [eauto|by intros (? & [= ->] & ?)|by intros (? & ? & ?)..]. Qed.
  Lemma before_run m0 cs : orderly cs -> forall todo dn rest m m', cs = dn ++ todo ++ rest -> Forall (fun c => c <> CBuild) todo ->
    state m0 dn m -> steps m todo = Returned m' -> state m0 (dn ++ todo) m'.
  Proof.
    intros Od. induction todo as [|c todo IH]; intros dn rest m m' E F S H.
    - injection H as <-. by rewrite app_nil_r.
    - inversion F as [|? ? Hc F']; subst. cbn in H. apply bind_returned in H as (m1 & H1 & H).
      change (c :: todo) with ([c] ++ todo). rewrite app_assoc. apply (IH _ rest m1); [by rewrite <- app_assoc|done| |done].
      destruct (entries_dec c) as [Ha|Ha]; [by eapply state_entry|]. apply touch_iff in H1; [|done..]. by eapply state_touch.
  Qed.
  Definition built_state (m0 : model) (cs : list py_call) (m : model) : Prop :=
    exists m1, build o o' m1 = Ok m /\ state m0 cs m1 /\ same_contents m1 m.
  Lemma build_same m m' : some_order o' -> build o o' m = Ok m' -> same_contents m m'.
  Proof.
    intros Ho H. destruct (build_frame ws pf pf32 ps _ _ _ _ Ho H) as ((V1 & V2 & V3) & L5 & F5). destruct (P_Gather.build_fields _ _ _ _ Ho H) as (? & ? & ? & ?).
    injection F5 as F51 F52 F53 F54 F55. by split.
  Qed.
  Lemma touch_same m1 m c m' : same_contents m1 m -> touch m c m' -> exists xs e rs tb, m' = retouch xs e rs tb m /\ touch m1 c (retouch xs e rs tb m1).
  Proof.
    intros SC (xs & e & rs & tb & -> & T1 & T2 & T3). eexists _, _, _, _. split; [reflexivity|]. exists xs, e, rs, tb.
    rewrite (sc_confusables _ _ SC), (sc_rules _ _ SC). split; [done|]. split; [done|]. split; [by rewrite <- (sc_early _ _ SC)|].
    by rewrite <- (sc_lexicons _ _ SC), <- (sc_encoder _ _ SC), <- (sc_tags _ _ SC).
  Qed.
  Lemma touched_state m0 dn c m m' : some_order o' -> built_state m0 dn m -> ~ adds_entries c -> touch m c m' -> built_state m0 (dn ++ [c]) m'.
  Proof.
    intros Ho (m1 & B & S & SC) Ha T. destruct (touch_same _ _ _ _ SC T) as (xs & e & rs & tb & -> & T1). exists (retouch xs e rs tb m1).
    split; [by apply build_retouch|]. split; [by eapply state_touch|]. destruct SC. by split.
  Qed.
  Lemma after_run m0 : some_order o' -> forall todo dn m m', Forall (fun c => c <> CBuild /\ ~ adds_entries c) todo ->
    built_state m0 dn m -> steps m todo = Returned m' -> built_state m0 (dn ++ todo) m'.
  Proof.
    intros Ho. induction todo as [|c todo IH]; intros dn m m' F S H.
    - injection H as <-. by rewrite app_nil_r.
    - inversion F as [|? ? [Hb Ha] F']; subst. cbn in H. apply bind_returned in H as (m1 & H1 & H).
      change (c :: todo) with ([c] ++ todo). rewrite app_assoc. eapply IH; [done| |done]. apply touch_iff in H1; [|done..]. by eapply touched_state.
  Qed.
  Lemma session_state al w cs m : some_order o' -> orderly cs -> steps (model_new ws al w) cs = Returned m -> built_state (model_new ws al w) cs m.
  Proof.
    intros Ho Od H. destruct (od_build _ Od) as (before & after & -> & Fb & Fa). rewrite steps_app in H. apply bind_returned in H as (m1 & H1 & H).
    cbn [py_steps] in H. apply bind_returned in H as (m2 & H2 & H). cbn [py_step] in H2. apply rust_returned in H2.
    change (CBuild :: after) with ([CBuild] ++ after). rewrite app_assoc. apply (after_run _ Ho after (before ++ [CBuild]) m2 m Fa); [|done].
    exists m1. split; [done|]. split; [|by apply build_same]. apply state_build.
    apply (before_run _ _ Od before [] (CBuild :: after) (model_new ws al w) m1); [done|done|apply state_new|done].
  Qed.

  (** ** The content *)
  #[local] Notation content := (session_says ws pf pf32 ps fs).
  Lemma st_entries m0 a l m : P_Files.st m0 a l m -> exists r L, run_adds m0 a = Ok r /\ links_between r l L /\
    m_encoder m = m_encoder r /\ m_decoder m = m_decoder (run_links r L) /\ m_alphabet m = m_alphabet r.
  Proof.
    intros (r & L & R & _ & K & (V1 & V2 & V3)). exists r, L. split; [done|]. split; [done|]. split; [by rewrite V2, P_Files.run_links_encoder|].
    split; [done|]. rewrite V3. clear. induction L as [|x L IH] using rev_ind; [done|]. by rewrite P_Files.run_links_snoc, P_Files.link1_alphabet.
  Qed.
  Lemma counting_iff (cs : list py_call) : (exists c, c ∈ cs /\ counting c) <-> exists c n p f l, c ∈ cs /\ word_list c n p /\ vp_freq_column p <> None /\
    flag (vp_vocab_type p) searchable_bit = true /\ file_there fs n f /\ l ∈ f_lines f /\ l <> [].
  Proof.
    split.
    - intros (c & Hc & n & p & f & l & H). by exists c, n, p, f, l.
    - intros (c & n & p & f & l & Hc & H). exists c. split; [done|]. by exists n, p, f, l.
  Qed.
  Lemma state_content al ls w cs m : fs al = Some ls -> state (model_new ws ls w) cs m -> content al w cs m.
  Proof.
    intros Hls [(a & l & Sa & St) Sw Sf Sc Se Sr Sl Ss]. destruct (st_entries _ _ _ _ St) as (r & L & R & K & V1 & V2 & V3).
    assert (m_alphabet m = read_alphabet ws ls) as EA.
    { rewrite V3. destruct (P_Files.st_adds _ _ _ [] _ _ (P_Files.st_new _ (new_inverse (read_alphabet ws ls) w)) R) as [_ ->]. done. }
    split; try done.
    - exists ls. split; [done|]. by apply alphabet_spec.
    - exists a, l, r, L. rewrite EA, Sw. done.
    - rewrite Sf. apply counting_iff.
  Qed.
  Lemma same_content al w cs m m' : same_contents m m' -> content al w cs m -> content al w cs m'.
  Proof.
    intros [E1 E2 E3 E4 E5 E6 E7 E8 E9 E10] [A B C D F G H]. split; rewrite ?E1, ?E2, ?E3, ?E4, ?E5, ?E6, ?E7, ?E8, ?E9, ?E10; assumption.
  Qed.
  Lemma model_returned al w m : py_model ws fs al w = Returned m <-> exists ls, fs al = Some ls /\ m = model_new ws ls w.
  Proof.
    unfold py_model. rewrite rust_returned. destruct (fs al) as [ls|]; cbn; split; try done.
    - intros [= <-]. eauto.
    - by intros (? & [= <-] & ->).
    - by intros (? & ? & _).
  Qed.
  Lemma session_content al w cs m0 m : some_order o' -> orderly cs -> py_model ws fs al w = Returned m0 -> steps m0 cs = Returned m ->
    content al w cs m /\ exists m1, build o o' m1 = Ok m /\ sane m1 /\ same_contents m1 m /\ m_ngrams m1 = ∅ /\ m_freq_sum m1 = [0%N].
  Proof.
    intros Ho Od (ls & Hls & ->)%model_returned H. destruct (session_state _ _ _ _ Ho Od H) as (m1 & B & S & SC). split.
    - eapply same_content; [exact SC|]. by eapply state_content.
    - exists m1. destruct S as [_ _ _ _ _ _ [? ?] ?]. done.
  Qed.
  Lemma content_unique al w cs m m' : content al w cs m -> content al w cs m' -> same_contents m m'.
  Proof.
    intros [(ls & Hls & HA) HW (a & l & r & L & Ha & Hr & HL & He & Hd) HF HC HE HR]
      [(ls' & Hls' & HA') HW' (a' & l' & r' & L' & Ha' & Hr' & HL' & He' & Hd') HF' HC' HE' HR'].
    assert (m_alphabet m' = m_alphabet m) as EA.
    { rewrite Hls in Hls'. injection Hls' as <-. apply alphabet_spec in HA, HA'. congruence. }
    assert (m_weights m' = m_weights m) as EW by congruence.
    rewrite EA, EW in Hr'. destruct (all_det _ _ _ _ _ _ _ _ Ha Ha') as (-> & -> & Hx). rewrite Hr in Hr'. injection Hr' as <-.
    rewrite (links_between_det _ _ _ _ HL HL') in *.
    rewrite Hx, He', <- He in HR'. destruct (rules_det _ _ _ _ _ _ _ _ HR HR') as [ET ER].
    split; try congruence.
    - by eapply bool_iff.
    - by eapply confs_det.
    - by eapply bool_iff.
  Qed.

  (** ** Success *)
  Lemma prefix_entries al ls w cs m dn c todo x a l : content al w cs m -> fs al = Some ls -> cs = dn ++ c :: todo ->
    all_say 0 dn a l (m_lexicons x) -> exists a' l' ns' a2 l2 n2 r, says (length (m_lexicons x)) c a' l' ns' /\
      all_say (length (m_lexicons x) + length ns') todo a2 l2 n2 /\ run_adds (model_new ws ls w) (a ++ a' ++ a2) = Ok r.
  Proof.
    intros [(ls' & Hls' & HA) HW (ta & tl & r & L & Ha & Hr & HL & He & Hd) HF HC HE HR] Hls -> Sa.
    rewrite Hls in Hls'. injection Hls' as <-. apply alphabet_spec in HA. subst w. unfold model_new. rewrite HA.
    apply all_app in Ha as (a1 & l1 & n1 & a2 & l2 & n2 & H1 & H2 & -> & -> & Hn). destruct (all_det _ _ _ _ _ _ _ _ H1 Sa) as (-> & -> & Hx).
    inversion H2 as [|? ? ? a3 l3 n3 a4 l4 n4 H3 H4]; subst a2 l2 n2. rewrite <- Hx in H3, H4. cbn [Nat.add] in H3, H4. eexists _, _, _, _, _, _, _. split; [exact H3|]. split; [exact H4|exact Hr].
  Qed.
  Lemma settled al ls w cs m dn todo x : content al w cs m -> fs al = Some ls -> cs = dn ++ todo -> Forall (fun c => ~ adds_entries c) todo ->
    state (model_new ws ls w) dn x -> m_lexicons x = m_lexicons m /\ m_encoder x = m_encoder m /\ m_decoder x = m_decoder m /\ m_alphabet x = m_alphabet m.
  Proof.
    intros [(ls' & Hls' & HA) HW (ta & tl & r & L & Ha & Hr & HL & He & Hd) HF HC HE HR] Hls -> Fn [(a & l & Sa & St) _ _ _ _ _ _ _].
    rewrite Hls in Hls'. injection Hls' as <-. apply alphabet_spec in HA.
    apply all_app in Ha as (a1 & l1 & n1 & a2 & l2 & n2 & H1 & H2 & -> & -> & Hn). destruct (all_silent _ Fn _ _ _ _ H2) as (-> & -> & ->).
    destruct (all_det _ _ _ _ _ _ _ _ H1 Sa) as (-> & -> & Hx). rewrite !app_nil_r in *.
    destruct (st_entries _ _ _ _ St) as (r' & L' & R' & K' & V1 & V2 & V3). unfold model_new in R'. rewrite HA, <- HW, Hr in R'. injection R' as <-.
    rewrite (links_between_det _ _ _ _ HL K') in *. split_and!; try congruence.
    rewrite V3. destruct (P_Files.st_adds _ _ _ [] _ _ (P_Files.st_new _ (new_inverse (m_alphabet m) (m_weights m))) Hr) as [_ ->]. done.
  Qed.
  Lemma touch_exists al ls w cs m dn c todo x : orderly cs -> content al w cs m -> fs al = Some ls -> cs = dn ++ c :: todo -> ~ adds_entries c ->
    state (model_new ws ls w) dn x -> exists x', touch x c x'.
  Proof.
    intros Od C Hls E Ha S. unfold touch. pose proof (sn_confusables _ _ _ _ _ _ _ _ _ C) as HC. rewrite E in HC.
    change (c :: todo) with ([c] ++ todo) in HC. rewrite app_assoc in HC. apply confs_app in HC as (x1 & x2 & HC & _ & _). apply confs_app in HC as (x3 & xs & _ & HC & _).
    assert (exists tb rs, rules (m_lexicons x) (m_encoder x) (m_tags x) [c] tb rs) as (tb & rs & Hr).
    { destruct (decide (match c with CRules _ | CRule _ _ _ _ => true | _ => false end = true)) as [Hg|Hg].
      - assert (gives_rules c) as Hg' by (by destruct c).
        assert (Forall (fun c => ~ adds_entries c) (c :: todo)) as Fn by (constructor; [done|]; by eapply (od_rules _ Od)).
        destruct (settled al ls w cs m dn (c :: todo) x C Hls E Fn S) as (-> & -> & _). pose proof (sn_rules _ _ _ _ _ _ _ _ _ C) as HR. rewrite E in HR.
        apply rules_app in HR as (tb1 & r1 & r2 & HR1 & HR2 & _). change (c :: todo) with ([c] ++ todo) in HR2. apply rules_app in HR2 as (tb2 & r3 & r4 & HR2 & _ & _).
        pose proof (sa_rules _ _ _ S) as SR. destruct (settled al ls w cs m dn (c :: todo) x C Hls E Fn S) as (El & Ee & _). rewrite El, Ee in SR.
        destruct (rules_det _ _ _ _ _ _ _ _ HR1 SR) as [-> _]. eauto.
      - exists (m_tags x), []. apply rules_one. right; right. split; [|done]. intros Hc. apply Hg. by destruct c. }
    eexists _, xs, (m_confusables_before_pruning x || match c with CEarly => true | _ => false end), rs, tb. split; [reflexivity|]. split; [done|]. split; [|done].
    rewrite orb_true_iff. by destruct c; naive_solver.
  Qed.
  Lemma before_write al ls w cs m : orderly cs -> content al w cs m -> fs al = Some ls -> forall todo dn rest x, cs = dn ++ todo ++ rest -> Forall (fun c => c <> CBuild) todo ->
    state (model_new ws ls w) dn x -> exists x', steps x todo = Returned x'.
  Proof.
    intros Od C Hls. induction todo as [|c todo IH]; intros dn rest x E F S; [by exists x|].
    inversion F as [|? ? Hc F']; subst. cbn [py_steps]. setoid_rewrite bind_returned.
    assert (exists x1, step x c = Returned x1) as (x1 & E1).
    { destruct (entries_dec c) as [Ha|Ha].
      - destruct (sa_entries _ _ _ S) as (a & l & Sa & St).
        destruct (prefix_entries _ _ _ _ _ _ _ (todo ++ rest) _ _ _ C Hls eq_refl Sa) as (a' & l' & ns' & a2 & l2 & n2 & r & H1 & _ & R).
        eapply entry_write; [done| |exact St|exact H1|exact R]. intros Hn. by eapply (files_bound _ _ _ (todo ++ rest)).
      - destruct (touch_exists _ _ _ _ _ _ _ (todo ++ rest) _ Od C Hls eq_refl Ha S) as (x1 & T). exists x1. by apply touch_iff. }
    destruct (IH (dn ++ [c]) rest x1) as (x' & E2); [by rewrite <- app_assoc|done| |by exists x', x1].
    destruct (entries_dec c) as [Ha|Ha]; [by eapply (state_entry _ _ _ _ (todo ++ rest))|]. apply touch_iff in E1; [|done..]. by eapply state_touch.
  Qed.
  Lemma after_write al ls w cs m : some_order o' -> orderly cs -> content al w cs m -> fs al = Some ls -> forall todo dn x, cs = dn ++ todo ->
    Forall (fun c => c <> CBuild /\ ~ adds_entries c) todo -> built_state (model_new ws ls w) dn x -> exists x', steps x todo = Returned x'.
  Proof.
    intros Ho Od C Hls. induction todo as [|c todo IH]; intros dn x E F S; [by exists x|].
    inversion F as [|? ? [Hc Ha] F']; subst. cbn [py_steps]. setoid_rewrite bind_returned.
    pose proof S as (x0 & B & S0 & SC). destruct (touch_exists _ _ _ _ _ _ _ todo _ Od C Hls eq_refl Ha S0) as (y & T).
    destruct (touch_same x x0 c y (P_Query.same_contents_sym _ _ SC) T) as (xs & e & rs & tb & _ & T1).
    set (x1 := retouch xs e rs tb x) in *. destruct (IH (dn ++ [c]) x1) as (x' & E2); [by rewrite <- app_assoc|done|by eapply touched_state|].
    exists x', x1. split; [by apply touch_iff|done].
  Qed.
  Lemma content_words al w cs m : content al w cs m -> Forall (fun v => count_spaces (vv_text v) < 255) (m_decoder m) -> words_counted m.
  Proof.
    intros C LE. destruct (sn_entries _ _ _ _ _ _ _ _ _ C) as (a & l & r & L & _ & Hr & _ & _ & Hd).
    intros id v D. rewrite Hd in D. apply run_links_same in D as (v' & D & Et & Ek & _).
    rewrite Et, Ek. eapply (P_Lm.run_adds_words _ _ a r); [exact Hr| |exact D].
    apply Forall_forall. intros x Hin. pose proof (P_Vocab.history_run _ _ _ _ Hr) as Hh.
    destruct (proj2 (P_Vocab.hi_texts _ _ Hh (x.1.1))) as (i & Ei); [right; by apply (elem_of_list_fmap_1 (fun x : addition => x.1.1))|].
    apply (P_Vocab.hi_inv _ _ Hh) in Ei as (u & Hu & Eu). rewrite <- Eu.
    assert (is_Some (m_decoder m !! i)) as (u' & Hu').
    { rewrite Hd. apply lookup_lt_is_Some_2. rewrite run_links_len. by eapply lookup_lt_Some. }
    eapply Forall_lookup_1 in LE; [|exact Hu']. rewrite Hd in Hu'. apply run_links_same in Hu' as (u2 & Hu2 & Eu2 & _). rewrite Hu in Hu2. injection Hu2 as <-. by rewrite <- Eu2.
  Qed.
  Lemma content_inside al w cs m t id : content al w cs m -> m_encoder m !! t = Some id -> id < length (m_decoder m).
  Proof.
    intros C. destruct (sn_entries _ _ _ _ _ _ _ _ _ C) as (a & l & r & L & _ & Hr & _ & He & Hd).
    rewrite He, Hd, run_links_len. intros E. apply (P_Vocab.hi_inv _ _ (P_Vocab.history_run _ _ _ _ Hr)) in E as (u & Hu & _). by eapply lookup_lt_Some.
  Qed.
  Lemma rules_inside lx en tb cs tb' rs : rules lx en tb cs tb' rs ->
    length tb <= length tb' /\ Forall (fun r => Forall (fun t => N.to_nat t < length tb') (cr_tag r)) rs.
  Proof.
    induction 1 as [|tb n f tb1 rs1 cs tb' rs' _ H1 _ [I1 I2]|tb pat sc tags offs tb1 r cs tb' rs' H1 _ [I1 I2]|]; [by split| | |done].
    - apply P_SearchRun.tags_inside in H1 as [H1 H2]. split; [lia|]. apply Forall_app. split; [|done].
      eapply Forall_impl; [exact H2|]. cbn. intros r Hr. eapply Forall_impl; [exact Hr|]. cbn. lia.
    - destruct H1 as [xs qs tb1 ns rr _ _ _ Hn _]. apply P_SearchRun.numbered_inside in Hn as [H1 H2]. split; [lia|]. constructor; [|done]. cbn.
      eapply Forall_impl; [exact H2|]. cbn. lia.
  Qed.
  Lemma content_succeeds al w cs m : some_order o' -> orderly cs -> content al w cs m -> within_limits m ->
    exists m0 m', py_model ws fs al w = Returned m0 /\ steps m0 cs = Returned m'.
  Proof.
    intros Ho Od C L. destruct (sn_alphabet _ _ _ _ _ _ _ _ _ C) as (ls & Hls & HA). exists (model_new ws ls w).
    assert (words_counted m) as HWC by (eapply content_words; [exact C|]; eapply Forall_impl; [exact (wl_entries _ L)|]; by intros v [? _]).
    destruct (od_build _ Od) as (before & after & Ecs & Fb & Fa).
    destruct (before_write al ls w cs m Od C Hls before [] (CBuild :: after) (model_new ws ls w)) as (m1 & E1); [done|done|apply state_new|].
    pose proof (before_run (model_new ws ls w) cs Od before [] (CBuild :: after) _ m1 Ecs Fb (state_new ls w) E1) as S1. cbn [app] in S1.
    assert (Forall (fun c => ~ adds_entries c) (CBuild :: after)) as Fn.
    { constructor; [by intros (? & ? & X); inversion X|]. eapply Forall_impl; [exact Fa|]. by intros c [_ ?]. }
    destruct (settled al ls w cs m before (CBuild :: after) m1 C Hls Ecs Fn S1) as (_ & _ & ED & EA).
    destruct (P_Lm.build_succeeds o o' m1) as (m2 & E2); [|done| |apply S1..| |].
    { rewrite EA. apply alphabet_spec in HA. rewrite <- HA. apply read_forms. rewrite HA. pose proof (wl_alphabet _ L). lia. }
    { intros id v D. apply (HWC id). by rewrite <- ED. }
    { rewrite ED. apply L. }
    assert (built_state (model_new ws ls w) (before ++ [CBuild]) m2) as S2.
    { exists m1. split; [done|]. split; [by apply state_build|by apply build_same]. }
    destruct (after_write al ls w cs m Ho Od C Hls after (before ++ [CBuild]) m2) as (m' & E3); [by rewrite <- app_assoc|done|done|].
    exists m'. split; [apply model_returned; eauto|]. rewrite Ecs, steps_app. apply bind_returned. exists m1. split; [done|]. cbn [py_steps]. apply bind_returned.
    exists m2. split; [|done]. cbn [py_step]. by apply rust_returned.
  Qed.
  Lemma content_built al w cs m : some_order o -> some_order o' -> orderly cs -> content al w cs m -> within_limits m ->
    exists m1 m' m0, py_model ws fs al w = Returned m1 /\ steps m1 cs = Returned m' /\ same_contents m m' /\ counts_say m' /\ words_counted m' /\
      built m0 m' /\ same_contents m0 m /\ links_inside m0 /\ forall p, weight_single (p_freq_weight p) -> tame m0 p.
  Proof.
    intros Ho Ho' Od C L. destruct (content_succeeds al w cs m Ho' Od C L) as (m1 & m' & E1 & E2).
    destruct (session_content al w cs m1 m' Ho' Od E1 E2) as (C' & m0 & B & Sa & SC & Hng & Hfs). destruct (sane_gives _ Sa) as (N0 & I0 & U0).
    pose proof (content_unique al w cs m m' C C') as SC'.
    assert (same_contents m0 m) as S0 by (eapply P_Query.same_contents_trans; [exact SC|by apply P_Query.same_contents_sym]).
    assert (words_counted m') as Hwc.
    { eapply content_words; [exact C'|]. rewrite (sc_decoder _ _ SC'). eapply Forall_impl; [exact (wl_entries _ L)|]. by intros v [? _]. }
    exists m1, m', m0. split; [done|]. split; [done|]. split; [done|]. split; [by eapply counts_loaded|]. split; [done|]. split; [|split; [done|split; [done|]]].
    - split.
      + rewrite <- (sc_alphabet _ _ S0). destruct (sn_alphabet _ _ _ _ _ _ _ _ _ C) as (ls & _ & HA). apply P_Main.alphabet_spec in HA. rewrite <- HA.
        apply read_forms. rewrite HA. pose proof (wl_alphabet _ L). lia.
      + rewrite <- (sc_alphabet _ _ S0). apply L.
      + by exists o, o'.
      + intros id v ks' [[D _] R]. rewrite <- (sc_decoder _ _ S0) in D. pose proof (P_Query.reads_short _ _ _ R).
        eapply Forall_lookup_1 in D; [|exact (wl_entries _ L)]. destruct D as [_ D]. lia.
      + done.
      + rewrite <- (sc_weights _ _ S0). apply L.
    - intros p Hw. split; [done| | |done| |done].
      + rewrite <- (sc_confusables _ _ S0). apply L.
      + rewrite <- (sc_confusables _ _ S0). apply L.
      + rewrite <- (sc_decoder _ _ S0). apply L.
  Qed.
  Lemma session_counts al w cs m0 m : some_order o' -> orderly cs -> py_model ws fs al w = Returned m0 -> steps m0 cs = Returned m ->
    Forall (fun v => count_spaces (vv_text v) < 255) (m_decoder m) -> counts_say m.
  Proof.
    intros Ho Od E1 E2 LE. destruct (session_content al w cs m0 m Ho Od E1 E2) as (C & m1 & B & _ & SC & Hng & Hfs).
    eapply (counts_loaded o o' m1 m); try done. by eapply content_words.
  Qed.
End session.
