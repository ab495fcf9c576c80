(** Proofs about start-up: from what is typed to the content of the model. *)
From Coq Require String Ascii.
From Coq Require Import Lia Sorted.
From Verif Require Import M_Base M_Anahash M_Iter M_Distance M_Float M_Types M_Model M_Confusable M_ConfList M_Rules M_Search M_Text M_Values.
From Verif Require Import M_Cli M_Main M_Options M_Program.
From Verif Require Import S_Anahash S_Iter S_Distance S_Model S_Search S_Lookup S_Confusable S_Rules S_Cli S_Main S_Options S_RuleFile S_Program.
From Verif Require Import P_Base P_Model P_Lm P_Options P_Inv P_Gather P_Main.
From Verif Require P_Files P_Vocab P_Confusable P_RuleFile.
Import String.StringSyntax Ascii.AsciiSyntax.
From stdpp Require Import options.

(** ** Occurrences, with positions from [k] *)
Fixpoint occ (k : nat) (l : str) (ts : list typed) : list (nat * str) :=
  match ts with
  | [] => []
  | t :: ts => match occurrence l t with Some v => [(k, v)] | None => [] end ++ occ (S k) l ts
  end.
Lemma occ_shift l ts : forall k, map (prod_map S id) (occ k l ts) = occ (S k) l ts.
Proof.
  induction ts as [|t ts IH]; intros k; [done|]. cbn [occ]. rewrite map_app, IH. by destruct (occurrence l t).
Qed.
Lemma occurrences_occ l ts : occurrences l ts = occ 0 l ts.
Proof. induction ts as [|t ts IH]; [done|]. rewrite occurrences_cons, IH, occ_shift. done. Qed.
Lemma occ_values l ts k : map snd (occ k l ts) = omap (occurrence l) ts.
Proof. revert k. induction ts as [|t ts IH]; intros k; [done|]. cbn. destruct (occurrence l t); cbn; by rewrite IH. Qed.

Lemma selects_det {A} (P : A -> Prop) l a b : selects P l a -> selects P l b -> a = b.
Proof.
  intros H. revert b. induction H as [|x l a Px H IH|x l a Px H IH]; intros b H'; inversion H'; subst; try done; [|auto].
  f_equal. auto.
Qed.
Lemma selects_member {A} (P : A -> Prop) l l' x : selects P l l' -> x ∈ l' <-> x ∈ l /\ P x.
Proof.
  induction 1 as [|y l l' Py H IH|y l l' Py H IH]; [set_solver|..]; rewrite ?elem_of_cons, IH.
  - split; [intros [->|[? ?]]; tauto|intros [[->|?] ?]; tauto].
  - split; [tauto|]. intros [[->|?] ?]; [done|tauto].
Qed.
Lemma selects_cons {A} (P : A -> Prop) x l a : selects P (x :: l) a <-> (P x /\ exists a', a = x :: a' /\ selects P l a') \/ (~ P x /\ selects P l a).
Proof.
  split.
  - intros H. inversion H; subst; [left|right]; eauto.
  - intros [(Px & a' & -> & H)|[Px H]]; by constructor.
Qed.

Section files.
  Context (fs : str -> option (list (option str))).
  #[local] Set Default Proof Using "All".

  Lemma resource_there n f : resource_file fs n = Ok f <-> file_there fs n f.
  Proof.
    unfold resource_file, open, file_there. split.
    - intros H. apply rbind_ok in H as (ls & E & [= <-]). destruct (fs n) eqn:En; [|done]. injection E as ->. eauto.
    - intros (ls & E & ->). by rewrite E.
  Qed.
  Lemma files_of_nil : files_of fs [] = Ok [].
  Proof. done. Qed.
  Lemma files_of_cons i n vs l : files_of fs ((i, n) :: vs) = Ok l <-> exists f l', l = (i, f) :: l' /\ file_there fs n f /\ files_of fs vs = Ok l'.
  Proof.
    unfold files_of. cbn [rmapM snd fst]. setoid_rewrite <- resource_there. split.
    - intros H. apply rbind_ok in H as ([j f] & E & H). apply rbind_ok in E as (f' & E & [= <- <-]).
      apply rbind_ok in H as (l' & E' & [= <-]). eauto 10.
    - intros (f & l' & -> & E & E'). rewrite E. cbn [rbind]. rewrite E'. done.
  Qed.

  Definition no_flag (long : String.string) (ts : list typed) : Prop := TFlag (lit long) ∉ ts.
  Arguments no_flag long%string_scope ts.

  (** the files of one option *)
  Lemma files_spec long ts : no_flag long ts -> forall k l,
    files_typed fs ts long l <-> exists L, files_of fs (occ k (lit long) ts) = Ok L /\ map snd L = l.
  Proof.
    induction ts as [|t ts IH]; intros Hf k l.
    - split.
      + intros (sel & S & F). inversion S; subst. inversion F; subst. by exists [].
      + intros (L & [= <-] & <-). exists []. split; [constructor|constructor].
    - assert (no_flag long ts) as Hf' by (intros H; apply Hf; by right).
      assert ((exists n, option_typed long n t /\ occurrence (lit long) t = Some n) \/ ((forall n, ~ option_typed long n t) /\ occurrence (lit long) t = None)) as [(n & Et & Ho)|[Hn Ho]].
      { destruct t as [f|o v|n]; cbn.
        - right. split; [done|]. rewrite bool_decide_false; [done|]. intros ->. apply Hf. left.
        - unfold option_typed. change (name long) with (lit long). destruct (decide (o = lit long)) as [->|Ho].
          + left. exists v. by rewrite bool_decide_true.
          + right. rewrite bool_decide_false by done. split; [|done]. intros n [= -> ->]. done.
        - by right. }
      + unfold option_typed in Et. subst t. assert (occ k (lit long) (TOption (name long) n :: ts) = (k, n) :: occ (S k) (lit long) ts) as -> by (cbn [occ]; by rewrite Ho).
        setoid_rewrite files_of_cons. unfold files_typed. setoid_rewrite selects_cons. split.
        * intros (sel & [(_ & sel' & -> & Sl)|[Hx _]] & F); [|destruct Hx; by exists n]. inversion F as [|? f ? l' (n' & E' & Hn) F']; subst. injection E' as <-.
          destruct (proj1 (IH Hf' (S k) l')) as (L & E & <-); [by exists sel'|]. exists ((k, f) :: L). split; [|done]. eauto.
        * intros (L & (f & L' & -> & Hn & E) & <-). destruct (proj2 (IH Hf' (S k) (map snd L'))) as (sel & Sl & F); [eauto|].
          exists (TOption (name long) n :: sel). split; [left; split; [by exists n|eauto]|]. constructor; [by exists n|done].
      + cbn [occ]. rewrite Ho. cbn [app]. rewrite <- (IH Hf'). unfold files_typed. setoid_rewrite selects_cons. split.
        * intros (sel & [(Px & _)|[_ Sl]] & F); [by destruct Px as (n & ?%Hn)|eauto].
        * intros (sel & Sl & F). exists sel. split; [right; split; [by intros (n & ?%Hn)|done]|done].
  Qed.

  (** the files with entries *)
  Definition resource_option (t : typed) : Prop := exists n, option_typed "lexicon" n t \/ option_typed "variants" n t \/ option_typed "errors" n t.
  Definition options_files (k : nat) (ts : list typed) (opts : numbered) : Prop :=
    positions_increase opts /\ Forall (fun x => k <= x.1) opts /\
    files_of fs (occ k (lit "lexicon") ts) = Ok (lexicon_options opts) /\
    files_of fs (occ k (lit "variants") ts) = Ok (variants_options opts) /\
    files_of fs (occ k (lit "errors") ts) = Ok (errors_options opts).
  Lemma options_skip k ts opts : options_files (S k) ts opts -> positions_increase opts /\ Forall (fun x => k <= x.1) opts.
  Proof. intros (P & F & _). split; [done|]. eapply Forall_impl; [exact F|]. cbn. lia. Qed.
  Lemma positions_cons k r opts : positions_increase opts -> Forall (fun x => S k <= x.1) opts -> positions_increase ((k, r) :: opts).
  Proof.
    intros P F. unfold positions_increase. cbn [map fst]. constructor; [done|]. rewrite Forall_map. eapply Forall_impl; [exact F|]. cbn. lia.
  Qed.
  Lemma occ_option k l o v ts : occ k l (TOption o v :: ts) = (if bool_decide (o = l) then [(k, v)] else []) ++ occ (S k) l ts.
  Proof. cbn. by destruct (bool_decide (o = l)). Qed.
  Lemma occ_other k l t ts : occurrence l t = None -> occ k l (t :: ts) = occ (S k) l ts.
  Proof. intros H. cbn. by rewrite H. Qed.
  Lemma options_fwd ts : no_flag "lexicon" ts -> no_flag "variants" ts -> no_flag "errors" ts -> forall k L V E,
    files_of fs (occ k (lit "lexicon") ts) = Ok L -> files_of fs (occ k (lit "variants") ts) = Ok V -> files_of fs (occ k (lit "errors") ts) = Ok E ->
    exists opts, options_files k ts opts /\ exists sel, selects resource_option ts sel /\ Forall2 (given fs) sel (map (fun x => Given x.2) opts).
  Proof.
    induction ts as [|t ts IH]; intros N1 N2 N3 k L V E H1 H2 H3.
    - exists []. split; [by repeat split; try constructor|]. exists []. split; constructor.
    - assert (no_flag "lexicon" ts /\ no_flag "variants" ts /\ no_flag "errors" ts) as (M1 & M2 & M3).
      { repeat split; intros H; [apply N1|apply N2|apply N3]; by right. }
      assert (forall o, no_flag o (t :: ts) -> (exists n, t = TOption (name o) n) \/ occurrence (lit o) t = None) as Oc.
      { intros o No. destruct t as [f|o' v|n]; cbn.
        - right. rewrite bool_decide_false; [done|]. intros ->. apply No. left.
        - change (name o) with (lit o). destruct (decide (o' = lit o)) as [->|Ho]; [left; eauto|right; by rewrite bool_decide_false].
        - by right. }
      destruct (Oc _ N1) as [[n ->]|O1].
      { rewrite occ_option in H1, H2, H3. change (name "lexicon") with (lit "lexicon") in *. rewrite bool_decide_true in H1 by done.
        rewrite bool_decide_false in H2, H3 by done. cbn [app] in *. apply files_of_cons in H1 as (f & L' & -> & Hn & H1).
        destruct (IH M1 M2 M3 (S k) _ _ _ H1 H2 H3) as (opts & (P & F & E1 & E2 & E3) & sel & S1 & F2).
        exists ((k, RLexicon f) :: opts). split.
        - split; [by apply positions_cons|]. split; [constructor; [done|]; eapply Forall_impl; [exact F|]; cbn; lia|].
          rewrite !occ_option, bool_decide_true, !bool_decide_false by done. cbn [app]. split_and!; [|done..].
          apply files_of_cons. exists f, (lexicon_options opts). done.
        - exists (TOption (lit "lexicon") n :: sel). split; [constructor; [exists n; by left|done]|]. cbn [map]. constructor; [|done].
          by eapply given_lexicon. }
      destruct (Oc _ N2) as [[n ->]|O2].
      { rewrite occ_option in H1, H2, H3. change (name "variants") with (lit "variants") in *. rewrite bool_decide_true in H2 by done.
        rewrite bool_decide_false in H1, H3 by done. cbn [app] in *. apply files_of_cons in H2 as (f & L' & -> & Hn & H2).
        destruct (IH M1 M2 M3 (S k) _ _ _ H1 H2 H3) as (opts & (P & F & E1 & E2 & E3) & sel & S1 & F2).
        exists ((k, RVariants f) :: opts). split.
        - split; [by apply positions_cons|]. split; [constructor; [done|]; eapply Forall_impl; [exact F|]; cbn; lia|].
          rewrite !occ_option, bool_decide_false, bool_decide_true, bool_decide_false by done. cbn [app]. split_and!; [done| |done].
          apply files_of_cons. exists f, (variants_options opts). done.
        - exists (TOption (lit "variants") n :: sel). split; [constructor; [exists n; by right; left|done]|]. cbn [map]. constructor; [|done].
          by eapply given_variants. }
      destruct (Oc _ N3) as [[n ->]|O3].
      { rewrite occ_option in H1, H2, H3. change (name "errors") with (lit "errors") in *. rewrite bool_decide_true in H3 by done.
        rewrite bool_decide_false in H1, H2 by done. cbn [app] in *. apply files_of_cons in H3 as (f & L' & -> & Hn & H3).
        destruct (IH M1 M2 M3 (S k) _ _ _ H1 H2 H3) as (opts & (P & F & E1 & E2 & E3) & sel & S1 & F2).
        exists ((k, RErrors f) :: opts). split.
        - split; [by apply positions_cons|]. split; [constructor; [done|]; eapply Forall_impl; [exact F|]; cbn; lia|].
          rewrite !occ_option, !bool_decide_false, bool_decide_true by done. cbn [app]. split_and!; [done|done|].
          apply files_of_cons. exists f, (errors_options opts). done.
        - exists (TOption (lit "errors") n :: sel). split; [constructor; [exists n; by right; right|done]|]. cbn [map]. constructor; [|done].
          by eapply given_errors. }
      rewrite !occ_other in H1, H2, H3 by done.
      destruct (IH M1 M2 M3 (S k) _ _ _ H1 H2 H3) as (opts & O & sel & S1 & F2). exists opts. split.
      + destruct (options_skip _ _ _ O). destruct O as (_ & _ & E1 & E2 & E3). unfold options_files. rewrite !occ_other by done. done.
      + exists sel. split; [|done]. constructor; [|done]. intros (n & [->|[->| ->]]); cbn in O1, O2, O3.
        * by rewrite bool_decide_true in O1.
        * by rewrite bool_decide_true in O2.
        * by rewrite bool_decide_true in O3.
  Qed.
  Lemma options_bwd ts : no_flag "lexicon" ts -> no_flag "variants" ts -> no_flag "errors" ts -> forall k sel gs,
    selects resource_option ts sel -> Forall2 (given fs) sel gs ->
    exists opts, options_files k ts opts /\ map (fun x => Given x.2) opts = gs.
  Proof.
    intros N1 N2 N3 k sel gs H. revert k gs. induction H as [|t ts sel (n & Hn) H IH|t ts sel Hn H IH]; intros k gs F.
    - inversion F; subst. exists []. split; [|done]. by repeat split; try constructor.
    - assert (no_flag "lexicon" ts /\ no_flag "variants" ts /\ no_flag "errors" ts) as (M1 & M2 & M3).
      { repeat split; intros H'; [apply N1|apply N2|apply N3]; by right. }
      inversion F as [|? g ? gs' G F']; subst. destruct (IH M1 M2 M3 (S k) gs' F') as (opts & (P & K & E1 & E2 & E3) & <-).
      destruct G as [t n' f Et Hf|t n' f Et Hf|t n' f Et Hf]; unfold option_typed in Et; subst t; change name with lit; eexists ((k, _) :: opts); (split; [|reflexivity]); unfold options_files;
        rewrite !occ_option; repeat first [rewrite bool_decide_true by done|rewrite bool_decide_false by done]; cbn [app];
        (split; [by apply positions_cons|]; split; [constructor; [done|]; eapply Forall_impl; [exact K|]; cbn; lia|]);
        (split_and!; first [done|apply files_of_cons; by eexists f, _]).
    - assert (no_flag "lexicon" ts /\ no_flag "variants" ts /\ no_flag "errors" ts) as (M1 & M2 & M3).
      { repeat split; intros H'; [apply N1|apply N2|apply N3]; by right. }
      destruct (IH M1 M2 M3 (S k) gs F) as (opts & O & <-). exists opts. split; [|done].
      destruct (options_skip _ _ _ O). destruct O as (_ & _ & E1 & E2 & E3). unfold options_files. rewrite !occ_other; [done|..].
      all: destruct t as [f|o v|n]; cbn; try done; rewrite bool_decide_false; try done; intros ->;
        first [apply N1; left|apply N2; left|apply N3; left|apply Hn; exists v; by left|apply Hn; exists v; by right; left|apply Hn; exists v; by right; right].
  Qed.
End files.
Arguments no_flag long%string_scope ts.
Arguments files_spec fs long%string_scope ts.

(** ** Whether frequencies count *)
Lemma add_have m t f p m' id : add_to_vocabulary m t f p = Ok (m', id) -> m_have_freq m' = m_have_freq m.
Proof. intros H. by apply add_cases in H as [(? & ? & _ & _ & _ & ->)|(? & _ & _ & _ & ->)]. Qed.
Lemma link_have m a b s : m_have_freq (add_variant_by_id m a b s).1 = m_have_freq m.
Proof. unfold add_variant_by_id. by destruct negb. Qed.
Lemma variant_have m r t s f p m' b : add_variant m r t s f p = Ok (m', b) -> m_have_freq m' = m_have_freq m.
Proof.
  unfold add_variant. intros H. apply rbind_ok in H as ([m1 id] & E & [= H]). cbn in H.
  rewrite <- (add_have _ _ _ _ _ _ E). rewrite <- (link_have m1 r id s). by rewrite H.
Qed.
Lemma line_have p m line m' : vp_freq_column p <> None -> read_vocabulary_line p m line = Ok m' ->
  m_have_freq m' = m_have_freq m || (vt_check (vp_vocab_type p) VT_INDEXED && negb (bool_decide (line = []))).
Proof.
  intros Hp. unfold read_vocabulary_line. destruct line as [|c line]; [intros [= <-]; rewrite bool_decide_true by done; by rewrite andb_false_r, orb_false_r|].
  rewrite bool_decide_false by done. rewrite andb_true_r. intros H.
  apply rbind_ok in H as (t & _ & H). apply rbind_ok in H as ([x1 f] & E1 & H). apply rbind_ok in H as ([x2 id] & E2 & [= <-]).
  apply add_have in E2. cbn in *. rewrite E2. destruct (vp_freq_column p); [|done].
  apply rbind_ok in E1 as (? & _ & [= <- <-]). destruct vt_check; [by rewrite orb_true_r|by rewrite orb_false_r].
Qed.
Lemma lines_have p : vp_freq_column p <> None -> forall lines m m', rfoldl (read_vocabulary_line p) m lines = Ok m' ->
  m_have_freq m' = m_have_freq m || (vt_check (vp_vocab_type p) VT_INDEXED && existsb (fun l => negb (bool_decide (l = []))) lines).
Proof.
  intros Hp. induction lines as [|l lines IH]; intros m m' H; cbn [rfoldl existsb] in *.
  - injection H as <-. by rewrite andb_false_r, orb_false_r.
  - apply rbind_ok in H as (m1 & E & H). apply IH in H. rewrite H, (line_have _ _ _ _ Hp E). by destruct vt_check, (m_have_freq m), (negb _).
Qed.
Section have.
  Context (pf : str -> option f64).
  #[local] Set Default Proof Using "All".
  Lemma freq_have ri tp : forall n fs, length fs <= n -> forall m m', read_variants_freq pf m ri tp fs = Ok m' -> m_have_freq m' = m_have_freq m.
  Proof.
    induction n as [|n IH]; intros fs Hn m m' H.
    - destruct fs; [|cbn in Hn; lia]. by injection H as <-.
    - destruct fs as [|v [|s [|f fs]]]; try (by injection H as <-). cbn in H.
      apply rbind_ok in H as (x & _ & H). apply rbind_ok in H as (k & _ & H). apply rbind_ok in H as ([m1 b] & E & H).
      apply variant_have in E. rewrite <- E. eapply IH; [|exact H]. cbn in Hn. lia.
  Qed.
  Lemma nofreq_have ri tp : forall n fs, length fs <= n -> forall m m', read_variants_nofreq pf m ri tp fs = Ok m' -> m_have_freq m' = m_have_freq m.
  Proof.
    induction n as [|n IH]; intros fs Hn m m' H.
    - destruct fs; [|cbn in Hn; lia]. by injection H as <-.
    - destruct fs as [|v [|s fs]]; try (by injection H as <-). cbn in H.
      apply rbind_ok in H as (x & _ & H). apply rbind_ok in H as ([m1 b] & E & H).
      apply variant_have in E. rewrite <- E. eapply IH; [|exact H]. cbn in Hn. lia.
  Qed.
  Lemma variants_have m name lines p tr m' : read_variants pf m name lines p tr = Ok m' -> m_have_freq m' = m_have_freq m.
  Proof.
    unfold read_variants. intros H. apply rbind_ok in H as ([m1 hf] & E & [= <-]). change (m_have_freq m1 = m_have_freq m).
    refine (rfoldl_inv (fun x => m_have_freq x.1 = m_have_freq m) _ _ _ _ _ _ E); [|done].
    intros [x h] line [x' h'] Hx. cbn [fst] in *. unfold read_variants_line. destruct line as [|c line]; [by intros [= <- <-]|]. intros H.
    apply rbind_ok in H as (t & _ & H). apply rbind_ok in H as ([h1 fr] & _ & H). apply rbind_ok in H as ([x1 id] & E1 & H).
    apply rbind_ok in H as (x2 & E2 & [= <- <-]). apply add_have in E1. cbn [fst snd] in *. rewrite <- Hx, <- E1.
    destruct h1 as [[]|]; first [by eapply freq_have|by eapply nofreq_have].
  Qed.
  Definition counts_freq (s : source) : bool :=
    match s with Given (RLexicon f) => existsb (fun l => negb (bool_decide (l = []))) (f_lines f) | _ => false end.
  Lemma source_have m s m' : load_source pf m s = Ok m' -> m_have_freq m' = m_have_freq m || counts_freq s.
  Proof.
    destruct s as [[f|f|f]|f]; cbn [load_source load_resource counts_freq].
    - unfold read_vocabulary. intros H. apply rbind_ok in H as (m1 & E & [= <-]). change (m_have_freq m1 = m_have_freq m || existsb (fun l => negb (bool_decide (l = []))) (f_lines f)).
      apply lines_have in E; [|done]. exact E.
    - intros H. apply variants_have in H. by rewrite orb_false_r.
    - intros H. apply variants_have in H. by rewrite orb_false_r.
    - unfold read_vocabulary. intros H. apply rbind_ok in H as (m1 & E & [= <-]). change (m_have_freq m1 = m_have_freq m || false).
      apply lines_have in E; [|done]. exact E.
  Qed.
  Lemma sources_have ss : forall m m', rfoldl (load_source pf) m ss = Ok m' -> m_have_freq m' = m_have_freq m || existsb counts_freq ss.
  Proof.
    induction ss as [|s ss IH]; intros m m' H; cbn [rfoldl existsb] in *.
    - injection H as <-. by rewrite orb_false_r.
    - apply rbind_ok in H as (m1 & E & H). apply IH in H. apply source_have in E. by rewrite H, E, orb_assoc.
  Qed.

  (** the sources as calls *)
  Lemma source_call m s m' : load_source pf m s = Ok m' -> exists c, call_sane m c /\ run_call pf m c = Ok m'.
  Proof.
    destruct s as [[f|f|f]|f]; cbn [load_source load_resource]; intros H.
    - by exists (CReadVocabulary (f_name f) (f_lines f) vocab_params_default).
    - by exists (CReadVariants (f_name f) (f_lines f) (Some vocab_params_default) false).
    - by exists (CReadVariants (f_name f) (f_lines f) (Some vocab_params_default) true).
    - by exists (CReadVocabulary (f_name f) (f_lines f) lm_params).
  Qed.
  Lemma sources_calls ss : forall m m', rfoldl (load_source pf) m ss = Ok m' -> exists cs, loads pf m cs m'.
  Proof.
    induction ss as [|s ss IH]; intros m m' H; cbn [rfoldl] in *.
    - injection H as <-. exists []. constructor.
    - apply rbind_ok in H as (m1 & E & H). apply IH in H as (cs & H). apply source_call in E as (c & S & E). exists (c :: cs). by econstructor.
  Qed.
End have.

(** ** Building, and what is set before or after it *)
Definition retouch (c : list confusable) (b : bool) (r : list context_rule) (t : list str) (m : model) : model := with_rules (with_confusables m c b) r t.
Section retouch.
  Context (c : list confusable) (b : bool) (r : list context_rule) (t : list str).
  #[local] Notation re := (retouch c b r t).
  #[local] Set Default Proof Using "All".
  Lemma encode_retouch m n : forall parts u, encode_tokens (re m) n parts u = encode_tokens m n parts u.
  Proof.
    induction n as [|n IH]; intros parts u; [done|]. cbn [encode_tokens]. destruct parts as [|p parts]; [done|].
    change (encode_token (re m) p true u) with (encode_token m p true u). destruct (encode_token m p true u) as [x|]; [|done].
    cbn [rbind]. by rewrite IH.
  Qed.
  Lemma lm_step_retouch m st id : lm_step (re m) st id = lm_step m st id.
  Proof.
    destruct st as [[ng fs] u]. unfold lm_step. change (m_decoder (re m)) with (m_decoder m). destruct (rexpect (m_decoder m !! id)) as [v|]; [|done].
    cbn [rbind]. destruct (vt_check (vv_type v) VT_LM); [|done]. unfold into_ngram. change (m_decoder (re m)) with (m_decoder m).
    destruct (rexpect (m_decoder m !! id)) as [w|]; [|done]. cbn [rbind]. by rewrite encode_retouch.
  Qed.
  Lemma lm_steps_retouch m l : forall st, rfoldl (lm_step (re m)) st l = rfoldl (lm_step m) st l.
  Proof. induction l as [|id l IH]; intros st; [done|]. cbn [rfoldl]. rewrite lm_step_retouch. destruct (lm_step m st id); [|done]. apply IH. Qed.
  Lemma build_retouch o o' m m' : some_order o' -> build o o' m = Ok m' -> build o o' (re m) = Ok (re m').
  Proof.
    intros Ho. unfold build. change (build_index o (re m)) with
      (let* hs := hash_entries (m_alphabet m) 0 (m_decoder m) in
       let* ix := match hs with [] => Ok ∅ | _ => let* asz := alphabet_size (m_alphabet m) in rfoldl (index_instance asz) ∅ hs end in
       Ok (re (with_index m ix (sort_keys <$> foldl collect_size ∅ (o (map_to_list ix)))))).
    unfold build_index. destruct (hash_entries _ _ _) as [hs|]; [|done]. cbn [rbind].
    destruct (match hs with [] => Ok ∅ | _ => _ end) as [ix|]; [|done]. cbn [rbind].
    set (m1 := with_index m ix _).
    rewrite lm_steps_retouch. change (rfoldl (lm_step m1) (m_ngrams (re m1), m_freq_sum (re m1), Some ∅) (seq 0 (length (m_decoder (re m1)))))
      with (rfoldl (lm_step m1) (m_ngrams m1, m_freq_sum m1, Some ∅) (seq 0 (length (m_decoder m1)))).
    destruct (rfoldl (lm_step m1) _ _) as [st|] eqn:Es; [|done]. cbn [rbind].
    assert (st.2 = Some ∅) as U.
    { refine (rfoldl_inv (fun st => st.2 = Some ∅) _ _ _ _ _ _ Es); [|done].
      intros x a x' Hb Hst. apply lm_step_unseen in Hst. congruence. }
    destruct st as [[ng fs] u]. cbn in U. subst u. rewrite map_to_list_empty.
    assert (o' [] = []) as -> by (apply Permutation_nil_r, Ho). cbn. by intros [= <-].
  Qed.
End retouch.
Definition early_of (m : model) : model := with_confusables m (m_confusables m) true.
Lemma early_retouch m : early_of m = retouch (m_confusables m) true (m_context_rules m) (m_tags m) m.
Proof. by destruct m. Qed.
Lemma build_early o o' m m' : some_order o' -> build o o' m = Ok m' -> build o o' (early_of m) = Ok (early_of m').
Proof.
  intros Ho H. destruct (build_frame (fun _ => false) (fun _ => None) (fun _ => None) (fun _ => None) o o' m m' Ho H) as (_ & _ & F).
  injection F as _ F1 _ F2 F3. rewrite !early_retouch, F1, F2, F3. by apply build_retouch.
Qed.

(** ** What loading leaves alone *)
Section keeps.
  Context {X} (g : model -> X) (pf : str -> option f64).
  Context (Hv : forall m d e, g (with_vocab m d e) = g m) (Hl : forall m l b, g (with_lexicons m l b) = g m).
  #[local] Set Default Proof Using "All".
  Lemma add_g m t f p m' id : add_to_vocabulary m t f p = Ok (m', id) -> g m' = g m.
  Proof. intros H. by apply add_cases in H as [(? & ? & _ & _ & _ & ->)|(? & _ & _ & _ & ->)]. Qed.
  Lemma link_g m a b s : g (add_variant_by_id m a b s).1 = g m.
  Proof. unfold add_variant_by_id. destruct negb; [cbn; by rewrite Hv|done]. Qed.
  Lemma variant_g m r t s f p m' b : add_variant m r t s f p = Ok (m', b) -> g m' = g m.
  Proof.
    unfold add_variant. intros H. apply rbind_ok in H as ([m1 id] & E & [= H]). cbn in H.
    rewrite <- (add_g _ _ _ _ _ _ E). rewrite <- (link_g m1 r id s). by rewrite H.
  Qed.
  Lemma vocabulary_g m name lines p m' : read_vocabulary m name lines p = Ok m' -> g m' = g m.
  Proof.
    unfold read_vocabulary. intros H. apply rbind_ok in H as (m1 & E & [= <-]). rewrite Hl.
    refine (rfoldl_inv (fun x => g x = g m) _ _ _ _ _ _ E); [|done].
    intros x line x' Hx. unfold read_vocabulary_line. destruct line as [|c line]; [by intros [= <-]|]. intros H.
    apply rbind_ok in H as (t & _ & H). apply rbind_ok in H as ([x1 f] & E1 & H). apply rbind_ok in H as ([x2 id] & E2 & [= <-]).
    apply add_g in E2. cbn in *. rewrite E2. destruct (vp_freq_column _).
    - apply rbind_ok in E1 as (? & _ & [= <- <-]). destruct vt_check; by rewrite ?Hl.
    - by injection E1 as <- <-.
  Qed.
  Lemma freq_g ri tp : forall n fs, length fs <= n -> forall m m', read_variants_freq pf m ri tp fs = Ok m' -> g m' = g m.
  Proof.
    induction n as [|n IH]; intros fs Hn m m' H.
    - destruct fs; [|cbn in Hn; lia]. by injection H as <-.
    - destruct fs as [|v [|s [|f fs]]]; try (by injection H as <-). cbn in H.
      apply rbind_ok in H as (x & _ & H). apply rbind_ok in H as (k & _ & H). apply rbind_ok in H as ([m1 b] & E & H).
      apply variant_g in E. rewrite <- E. eapply IH; [|exact H]. cbn in Hn. lia.
  Qed.
  Lemma nofreq_g ri tp : forall n fs, length fs <= n -> forall m m', read_variants_nofreq pf m ri tp fs = Ok m' -> g m' = g m.
  Proof.
    induction n as [|n IH]; intros fs Hn m m' H.
    - destruct fs; [|cbn in Hn; lia]. by injection H as <-.
    - destruct fs as [|v [|s fs]]; try (by injection H as <-). cbn in H.
      apply rbind_ok in H as (x & _ & H). apply rbind_ok in H as ([m1 b] & E & H).
      apply variant_g in E. rewrite <- E. eapply IH; [|exact H]. cbn in Hn. lia.
  Qed.
  Lemma variants_g m name lines p tr m' : read_variants pf m name lines p tr = Ok m' -> g m' = g m.
  Proof.
    unfold read_variants. intros H. apply rbind_ok in H as ([m1 hf] & E & [= <-]). rewrite Hl. cbn [fst].
    refine (rfoldl_inv (fun x => g x.1 = g m) _ _ _ _ _ _ E); [|done].
    intros [x h] line [x' h'] Hx. cbn [fst] in *. unfold read_variants_line. destruct line as [|c line]; [by intros [= <- <-]|]. intros H.
    apply rbind_ok in H as (t & _ & H). apply rbind_ok in H as ([h1 fr] & _ & H). apply rbind_ok in H as ([x1 id] & E1 & H).
    apply rbind_ok in H as (x2 & E2 & [= <- <-]). apply add_g in E1. cbn [fst snd] in *. rewrite <- Hx, <- E1.
    destruct h1 as [[]|]; first [by eapply freq_g|by eapply nofreq_g].
  Qed.
  Lemma sources_g ss : forall m m', rfoldl (load_source pf) m ss = Ok m' -> g m' = g m.
  Proof.
    induction ss as [|s ss IH]; intros m m' H; cbn [rfoldl] in *; [by injection H as <-|].
    apply rbind_ok in H as (m1 & E & H). apply IH in H. rewrite H. destruct s as [[f|f|f]|f]; cbn [load_source load_resource] in E;
      first [by apply vocabulary_g in E|by apply variants_g in E].
  Qed.
End keeps.

(** ** Start-up *)
Section startup.
  Context (ws : N -> bool) (pf : str -> option f64) (pf32 : str -> option f32) (ps : str -> option (list edit_instruction)).
  #[local] Set Default Proof Using "All".

  Lemma startup_inner o o' al w opts lms confs rules early m :
    some_order o' -> positions_increase opts ->
    startup ws pf pf32 ps o o' al w (lexicon_options opts) (variants_options opts) (errors_options opts) lms confs rules early = Ok m ->
    exists m0, build o o' m0 = Ok m /\ normalised m0 /\ links_inside m0 /\ freq_u32 m0 /\ same_contents m0 m /\
      m_have_freq m0 = existsb counts_freq (map (fun x => Given x.2) opts ++ map Lm lms) /\
      m_ngrams m0 = ∅ /\ m_freq_sum m0 = [0%N] /\
      rules_say ws pf32 (m_lexicons m0) (m_encoder m0) [] (concat (map f_lines rules)) (m_tags m0) (m_context_rules m0).
  Proof.
    intros Ho Hp H. set (ss := map (fun x => Given x.2) opts ++ map Lm lms). unfold startup in H. apply rbind_ok in H as (m1 & E1 & H). apply rbind_ok in H as (m2 & E2 & H).
    apply rbind_ok in H as (m3 & E3 & H). apply rbind_ok in H as (m4 & E4 & H). apply rbind_ok in H as (m5 & E5 & [= <-]).
    unfold load_resources in E1. rewrite sort_gather in E1 by done.
    assert (E : rfoldl (load_source pf) (model_new ws al w) ss = Ok m2).
    { unfold ss. rewrite rfoldl_app, (rfoldl_map ws pf pf32 ps). rewrite (rfoldl_map ws pf pf32 ps) in E1.
      cbn [load_source]. rewrite E1. cbn [rbind]. rewrite (rfoldl_map ws pf pf32 ps). exact E2. }
    pose proof (sources_have pf ss _ _ E) as Hf. cbn in Hf.
    assert (m_ngrams m2 = ∅ /\ m_freq_sum m2 = [0%N] /\ m_tags m2 = [] /\ m_context_rules m2 = []) as (G1 & G2 & G3 & G4).
    { rewrite (sources_g m_ngrams pf ltac:(done) ltac:(done) _ _ _ E), (sources_g m_freq_sum pf ltac:(done) ltac:(done) _ _ _ E),
        (sources_g m_tags pf ltac:(done) ltac:(done) _ _ _ E), (sources_g m_context_rules pf ltac:(done) ltac:(done) _ _ _ E). done. }
    apply sources_calls in E as (cs & Hl). apply (loaded pf) in Hl as (Hn & Hi & Hu).
    destruct (confusable_files ws pf pf32 ps _ _ _ E3) as (css & _ & ->).
    apply P_RuleFile.files_iff in E4 as (table & rs & Hr & ->). cbn [m_lexicons m_encoder m_tags m_context_rules with_confusables] in *.
    set (m4 := with_rules _ _ _) in *. rewrite G3 in Hr.
    assert (m_context_rules m4 = rs) as G5 by (unfold m4; cbn; by rewrite G4).
    destruct (build_frame ws pf pf32 ps _ _ _ _ Ho E5) as ((V1 & V2 & V3) & L5 & F5). destruct (P_Gather.build_fields _ _ _ _ Ho E5) as (? & ? & ? & ?).
    injection F5 as F51 F52 F53 F54 F55.
    destruct early.
    - exists (early_of m4). pose proof (build_early _ _ _ _ Ho E5) as E6. split; [exact E6|]. split_and!; try done; try by split.
      change (m_context_rules (early_of m4)) with (m_context_rules m4). by rewrite G5.
    - exists m4. split; [done|]. split_and!; try done; try by split. by rewrite G5.
  Qed.
End startup.

(** ** From what is typed *)
Definition values_check (c : command) (l : str) : bool :=
  match definition_of c l with
  | Some a => bool_decide (a_long a = l)
  | None => forallb (fun a => negb (bool_decide (a_long a = l))) (arguments c)
  end.
Lemma values_occ c ts l : well_typed c ts -> values_check c l = true -> values_of c ts l = occ 0 l ts.
Proof.
  intros W D. rewrite <- occurrences_occ. unfold values_check in D. unfold values_of. destruct (definition_of c l) as [a|].
  - apply bool_decide_eq_true in D. by rewrite D.
  - symmetry. apply occurrences_nil. rewrite forallb_forall in D. split.
    + intros H. destruct (wt_flags _ _ W _ H) as (a & Ha & El & _). apply elem_of_list_In, D in Ha. by rewrite bool_decide_true in Ha.
    + intros v H. destruct (wt_options _ _ W _ _ H) as (a & Ha & El & _). apply elem_of_list_In, D in Ha. by rewrite bool_decide_true in Ha.
Qed.
Lemma no_flag_typed c ts long : well_typed c ts -> takes_value_check c (lit long) = true -> no_flag long ts.
Proof.
  intros W D H. destruct (wt_flags _ _ W _ H) as (a & Ha & El & Et). pose proof (takes_value_checked _ _ D a Ha El). congruence.
Qed.
Arguments no_flag_typed c ts long%string_scope.
Lemma alphabet_value c ts n : well_typed c ts -> value_of c ts (lit "alphabet") = Some n <-> TOption (name "alphabet") n ∈ ts.
Proof.
  intros W. rewrite value_spec; [|by apply accepted_spec|by destruct c; vm_compute]. split.
  - intros [v H|v H H']; [done|]. apply docs_elem in H'.
    assert (List.filter (λ x : str * str, bool_decide (x.1 = lit "alphabet")) (documented c) = []) as E by (by destruct c; vm_compute).
    rewrite E in H'. by apply elem_of_nil in H'.
  - intros H. by apply in_force_typed.
Qed.
Lemma files_typed_det fs ts long a b : files_typed fs ts long a -> files_typed fs ts long b -> a = b.
Proof.
  intros (s & S1 & F1) (s' & S2 & F2). rewrite <- (selects_det _ _ _ _ S1 S2) in F2. clear S1 S2. revert b F2.
  induction F1 as [|t f s a (n & E & ls & En & Ef) _ IH]; intros b F2; inversion F2 as [|? f' ? b' (n' & E' & ls' & En' & Ef') F2']; subst; [done|].
  unfold option_typed in E, E'. rewrite E in E'. injection E' as <-. rewrite En in En'. injection En' as <-. f_equal. by apply IH.
Qed.
Lemma sources_typed_det fs ts a b : sources_typed fs ts a -> sources_typed fs ts b -> a = b.
Proof.
  intros (s & g & l & S1 & F1 & L1 & ->) (s' & g' & l' & S2 & F2 & L2 & ->). rewrite <- (selects_det _ _ _ _ S1 S2) in F2. clear S1 S2.
  rewrite (files_typed_det _ _ _ _ _ L1 L2). f_equal. revert g' F2.
  induction F1 as [|t f s a G _ IH]; intros g' F2; inversion F2 as [|? f' ? b' G' F2']; subst; [done|]. f_equal; [|by apply IH].
  destruct G as [t n f E (ls & En & ->)|t n f E (ls & En & ->)|t n f E (ls & En & ->)]; unfold option_typed in E; subst t;
    inversion G' as [t n' f0 E' (ls' & En' & ->)|t n' f0 E' (ls' & En' & ->)|t n' f0 E' (ls' & En' & ->)]; subst; first [discriminate E'|injection E' as <-; congruence].
Qed.

Section typed.
  Context (pf : str -> option f64) (pf32 : str -> option f32) (ws : N -> bool) (ps : str -> option (list edit_instruction)).
  Context (o : list (N * node) -> list (N * node)) (o' : list (str * vocab_id) -> list (str * vocab_id)).
  Context (fs : str -> option (list (option str))) (c : command) (ts : list typed) (W : well_typed c ts).
  #[local] Notation load := (loaded_model pf pf32 ws ps o o' fs c ts).
  #[local] Set Default Proof Using "All".

  Lemma early_typed : is_present c ts (lit "early-confusables") = true <-> flag_typed ts "early-confusables".
  Proof. apply flag_spec; [by apply accepted_spec|]. by destruct c; vm_compute. Qed.

  Lemma load_inv m : load = Ok m -> exists w n ls opts lms confs rules,
    weights_say pf c ts w /\ TOption (name "alphabet") n ∈ ts /\ fs n = Some ls /\
    options_files fs 0 ts opts /\ sources_typed fs ts (map (fun x => Given x.2) opts ++ map Lm lms) /\
    files_typed fs ts "confusables" confs /\ files_typed fs ts "contextrules" rules /\
    startup ws pf pf32 ps o o' ls w (lexicon_options opts) (variants_options opts) (errors_options opts) lms confs rules
      (is_present c ts (lit "early-confusables")) = Ok m.
  Proof.
    intros H. unfold loaded_model in H. apply rbind_ok in H as (w & Ew & H). apply rbind_ok in H as (n & En & H). apply rbind_ok in H as (ls & El & H).
    apply rbind_ok in H as (L & EL & H). apply rbind_ok in H as (V & EV & H). apply rbind_ok in H as (E & EE & H).
    apply rbind_ok in H as (lms & Elm & H). apply rbind_ok in H as (confs & Ec & H). apply rbind_ok in H as (rules & Er & H).
    rewrite (values_occ c ts) in EL, EV, EE, Elm, Ec, Er by (done || by destruct c; vm_compute).
    destruct (options_fwd fs ts) with (k := 0) (L := L) (V := V) (E := E) as (opts & O & sel & S1 & F1); try done.
    1-3: eapply no_flag_typed; [done|by destruct c; vm_compute].
    pose proof O as (_ & _ & O1 & O2 & O3). rewrite O1 in EL. rewrite O2 in EV. rewrite O3 in EE. injection EL as <-. injection EV as <-. injection EE as <-.
    assert (no_flag "confusables" ts /\ no_flag "contextrules" ts) as [N1 N2].
    { split; (eapply no_flag_typed; [done|by destruct c; vm_compute]). }
    exists w, n, ls, opts, (map snd lms), (map snd confs), (map snd rules).
    assert (value_of c ts (lit "alphabet") = Some n) as En' by (destruct (value_of c ts (lit "alphabet")); [by injection En as ->|done]).
    split; [apply weights_spec; [by apply accepted_spec|done]|]. split; [by apply (alphabet_value c ts n W)|].
    split; [unfold open in El; destruct (fs n); [by injection El as ->|done]|]. split; [done|].
    split; [exists sel, (map (fun x => Given x.2) opts), (map snd lms); split; [done|]; split; [done|]; split; [|done]|].
    { apply (files_spec fs "lm" ts) with (k := 0); [|eauto]. intros Hx. destruct (wt_flags _ _ W _ Hx) as (a & Ha & Ea & Et).
      assert (forallb (fun a => negb (bool_decide (a_long a = lit "lm")) || a_takes_value a) (arguments c) = true) as X by (by destruct c; vm_compute).
      rewrite forallb_forall in X. apply elem_of_list_In, X in Ha. rewrite bool_decide_true, Et in Ha by done. done. }
    split; [apply (files_spec fs "confusables" ts N1 0); eauto|]. split; [apply (files_spec fs "contextrules" ts N2 0); eauto|].
    exact H.
  Qed.

  Lemma same_contents_say m m' : same_contents m m' -> contents_say ws pf pf32 ps fs c ts m -> contents_say ws pf pf32 ps fs c ts m'.
  Proof.
    intros [E1 E2 E3 E4 E5 E6 E7 E8 E9 E10] [A B C D F G H]. split; rewrite ?E1, ?E2, ?E3, ?E4, ?E5, ?E6, ?E7, ?E8, ?E9, ?E10; assumption.
  Qed.

  Lemma counted_lexicon ss : sources_typed fs ts ss -> existsb counts_freq ss = true <->
    exists n f l, TOption (name "lexicon") n ∈ ts /\ file_there fs n f /\ l ∈ f_lines f /\ l <> [].
  Proof.
    intros (sel & gs & lms & Sl & F & _ & ->). rewrite existsb_exists. split.
    - intros (s & Hs & Hc). apply elem_of_list_In, elem_of_app in Hs as [Hs|Hs].
      + apply elem_of_list_lookup in Hs as (k & Hk). destruct (Forall2_lookup_r _ _ _ _ _ F Hk) as (t & Ht & G).
        destruct G as [t n f Et Hf|t n f Et Hf|t n f Et Hf]; try done. apply elem_of_list_lookup_2, (selects_member _ _ _ _ Sl) in Ht as [Ht _].
        unfold option_typed in Et. subst t. cbn in Hc. apply existsb_exists in Hc as (l & Hl & Hn). exists n, f, l. split; [done|]. split; [done|].
        split; [by apply elem_of_list_In|]. intros ->. by rewrite bool_decide_true in Hn.
      + apply elem_of_list_fmap in Hs as (f & -> & _). done.
    - intros (n & f & l & Ht & Hf & Hl & Hn). assert (TOption (name "lexicon") n ∈ sel) as Hs.
      { apply (selects_member _ _ _ _ Sl). split; [done|]. exists n. by left. }
      apply elem_of_list_lookup in Hs as (k & Hk). destruct (Forall2_lookup_l _ _ _ _ _ F Hk) as (g & Hg & G).
      inversion G as [t n' f' Et Hf' E1 E2|t n' f' Et Hf' E1 E2|t n' f' Et Hf' E1 E2]; subst; try discriminate Et. injection Et as <-.
      exists (Given (RLexicon f')). split; [apply elem_of_list_In, elem_of_app; left; by eapply elem_of_list_lookup_2|].
      destruct Hf as (ls & E & ->), Hf' as (ls' & E' & ->). rewrite E in E'. injection E' as <-. cbn. apply existsb_exists. exists l.
      split; [by apply elem_of_list_In|]. by rewrite bool_decide_false.
  Qed.

  Lemma load_contents m : some_order o' -> (forall ss, sources_typed fs ts ss -> length ss <= 256) -> load = Ok m ->
    contents_say ws pf pf32 ps fs c ts m /\
    exists m0, build o o' m0 = Ok m /\ normalised m0 /\ links_inside m0 /\ freq_u32 m0 /\ same_contents m0 m /\ m_ngrams m0 = ∅ /\ m_freq_sum m0 = [0%N].
  Proof.
    intros Ho Hl H. apply load_inv in H as (w & n & ls & opts & lms & confs & rules & Hw & Ha & Hls & O & Hs & Hc & Hrf & H).
    pose proof (Hl _ Hs) as Hl'. rewrite app_length, !map_length in Hl'. destruct O as (P & _).
    destruct (start ws pf pf32 ps _ _ _ _ _ _ _ _ _ _ Ho P Hl' H) as ((a & l & Sa & St) & Lx & EA & EW & Eb & css & Fc & Ec).
    destruct (startup_inner ws pf pf32 ps _ _ _ _ _ _ _ _ _ _ Ho P H) as (m0 & B & N0 & I0 & U0 & SC & Hf & Hng & Hfs & Hru).
    split; [|by exists m0]. split.
    - exists n, ls. split; [done|]. split; [done|]. by apply alphabet_spec.
    - by rewrite EW.
    - destruct St as (r & L & R & _ & K & (V1 & V2 & V3)). rewrite EA, EW.
      eexists _, a, l, r, L. split; [exact Hs|]. split; [done|]. split; [exact R|]. split; [done|]. split_and!; [|done|done].
      rewrite V2. clear. induction L as [|x L IH] using rev_ind; [done|]. rewrite P_Files.run_links_snoc. etransitivity; [|exact IH].
      unfold P_Files.link1, add_variant_by_id. by destruct negb.
    - rewrite (sc_freq _ _ SC), Hf. by apply counted_lexicon.
    - exists confs, css. done.
    - rewrite Eb. apply early_typed.
    - exists rules. split; [done|]. by rewrite (sc_lexicons _ _ SC), (sc_encoder _ _ SC), (sc_tags _ _ SC), (sc_rules _ _ SC).
  Qed.
End typed.

(** ** The content is determined *)
Lemma bool_iff (a b : bool) P : a = true <-> P -> b = true <-> P -> b = a.
Proof. destruct a, b; intros; try done; exfalso; naive_solver. Qed.
Lemma confusables_det ps pf (confs : list file) css css' :
  Forall2 (fun f cs => exists ls, selects (fun l => l <> []) (f_lines f) ls /\ Forall2 (line_confusable ps pf) ls cs) confs css ->
  Forall2 (fun f cs => exists ls, selects (fun l => l <> []) (f_lines f) ls /\ Forall2 (line_confusable ps pf) ls cs) confs css' -> css' = css.
Proof.
  intros F. revert css'. induction F as [|f cs confs css (ls & S1 & H1) _ IH]; intros css' F'; inversion F' as [|? cs' ? css2 (ls' & S2 & H2) F2]; subst; [done|].
  f_equal; [|by apply IH]. set (m := new_with_alphabet [] (Weights f0 f0 f0 f0 f0)).
  assert (read_confusablelist ps pf m (f_lines f) = Ok (with_confusables m (m_confusables m ++ cs) (m_confusables_before_pruning m), true)) as A1
    by (apply P_Confusable.read_spec; eauto).
  assert (read_confusablelist ps pf m (f_lines f) = Ok (with_confusables m (m_confusables m ++ cs') (m_confusables_before_pruning m), true)) as A2
    by (apply P_Confusable.read_spec; eauto).
  rewrite A1 in A2. by injection A2 as <-.
Qed.
Lemma sources_say_det pf i ss a l a' l' : sources_say pf i ss a l -> sources_say pf i ss a' l' -> a' = a /\ l' = l.
Proof.
  intros H. revert a' l'. induction H as [i|i s ss a l a1 l1 Hs Hss IH]; intros a' l' H'; inversion H' as [|? ? ? a2 l2 a3 l3 Hs' Hss']; subst; [done|].
  destruct (P_Main.says_same pf _ _ _ _ _ _ Hs Hs') as [-> ->]. destruct (IH _ _ Hss') as [-> ->]. done.
Qed.
Lemma links_between_det r l L L' : links_between r l L -> links_between r l L' -> L' = L.
Proof.
  unfold links_between. intros F. revert L'. induction F as [|x [[a b] s] l L (E1 & E2 & E3) _ IH]; intros L' F'; inversion F' as [|? [[a' b'] s'] ? L2 (E1' & E2' & E3') F2]; subst; [done|].
  cbn in *. rewrite E1 in E1'. rewrite E2 in E2'. injection E1' as <-. injection E2' as <-. f_equal; [|by apply IH]. congruence.
Qed.

Lemma run_links_same m L id v : m_decoder (run_links m L) !! id = Some v ->
  exists v', m_decoder m !! id = Some v' /\ vv_text v = vv_text v' /\ vv_tokencount v = vv_tokencount v' /\ vv_frequency v = vv_frequency v'.
Proof.
  induction L as [|x L IH] using rev_ind in v |- *; [eauto|]. rewrite P_Files.run_links_snoc. intros H.
  assert (exists v1, m_decoder (run_links m L) !! id = Some v1) as (v1 & H1).
  { apply lookup_lt_is_Some_2. rewrite <- (P_Files.link1_len _ x). by eapply lookup_lt_Some. }
  destruct (P_Files.link1_lookup _ x _ _ H1) as (g & Hg & _). rewrite Hg in H. injection H as <-. destruct (IH _ H1) as (v' & ? & ? & ? & ?). by exists v'.
Qed.
Lemma run_links_len m L : length (m_decoder (run_links m L)) = length (m_decoder m).
Proof. induction L as [|x L IH] using rev_ind; [done|]. by rewrite P_Files.run_links_snoc, P_Files.link1_len. Qed.

Lemma read_forms ws ls : length (read_alphabet ws ls) <= 167 -> alphabet_ok (read_alphabet ws ls).
Proof.
  intros Hl. split; [done|]. intros fl e Hfl Hfe. unfold read_alphabet in Hfl. apply elem_of_list_omap in Hfl as (x & _ & E). destruct x as [[|ch x]|]; try done. injection E as <-.
  apply elem_of_list_omap in Hfe as (y & _ & E). apply field_spec in E. inversion E as [? Hy| |]; subst; [|done].
  unfold escapes in Hy. rewrite !elem_of_cons in Hy. destruct Hy as [[= _ ->]|[[= _ ->]|[[= _ ->]|Hy]]]; [done..|by apply elem_of_nil in Hy].
Qed.

(** ** Words and counts *)
Lemma contents_words ws pf pf32 ps fs c ts m : contents_say ws pf pf32 ps fs c ts m -> Forall (fun v => count_spaces (vv_text v) < 255) (m_decoder m) -> words_counted m.
Proof.
  intros C LE. destruct (cs_entries _ _ _ _ _ _ _ _ C) as (ss & a & l & r & L & _ & _ & Hr & _ & _ & Hd & _).
  intros id v D. rewrite Hd in D. apply run_links_same in D as (v' & D & Et & Ek & _).
  rewrite Et, Ek. eapply (run_adds_words _ _ a r); [exact Hr| |exact D].
  apply Forall_forall. intros x Hin. pose proof (P_Vocab.history_run _ _ _ _ Hr) as Hh.
  destruct (proj2 (P_Vocab.hi_texts _ _ Hh (x.1.1))) as (i & Ei); [right; by apply (elem_of_list_fmap_1 (fun x : addition => x.1.1))|].
  apply (P_Vocab.hi_inv _ _ Hh) in Ei as (u & Hu & Eu). rewrite <- Eu.
  assert (is_Some (m_decoder m !! i)) as (u' & Hu').
  { rewrite Hd. apply lookup_lt_is_Some_2. rewrite run_links_len. by eapply lookup_lt_Some. }
  eapply Forall_lookup_1 in LE; [|exact Hu']. rewrite Hd in Hu'. apply run_links_same in Hu' as (u2 & Hu2 & Eu2 & _). rewrite Hu in Hu2. injection Hu2 as <-. by rewrite <- Eu2.
Qed.
Lemma counts_listed m g : exists vs, selects (counts_as m g) (m_decoder m) vs.
Proof. eexists. eapply (selects_filter (fun v => vng m v = Some g)). intros v. apply vng_counts. Qed.
Lemma counts_loaded o o' m0 m : some_order o' -> build o o' m0 = Ok m -> same_contents m0 m -> m_ngrams m0 = ∅ -> m_freq_sum m0 = [0%N] -> words_counted m -> counts_say m.
Proof.
  intros Ho B SC Hn Hf Wc. destruct (build_counts o o' m0 m Ho) as (G & _ & HL); [|by rewrite Hf|done|].
  { intros id v D. apply (Wc id). by rewrite (sc_decoder _ _ SC). }
  assert (forall g v, counts_as m g v <-> counts_as m0 g v) as Hc.
  { intros g v. unfold counts_as. by rewrite (entry_words_same _ _ _ _ (sc_encoder _ _ SC)). }
  assert (forall g vs, selects (counts_as m g) (m_decoder m) vs -> m_ngrams m !! g = match vs with [] => None | _ => Some (sum_frequency vs) end) as K.
  { intros g vs Hs. rewrite (G g vs).
    - rewrite Hn, lookup_empty. by destruct vs.
    - rewrite (sc_decoder _ _ SC) in Hs. revert Hs. generalize (m_decoder m0). intros l. induction 1; constructor; try done; by rewrite <- Hc. }
  split; [exact K|]. rewrite HL, negb_true_iff, bool_decide_eq_false. split.
  - intros Hne. apply map_choose in Hne as (g & x & Hg). destruct (counts_listed m g) as (vs & Hs). pose proof (K g vs Hs) as Kg. rewrite Hg in Kg.
    destruct vs as [|v vs]; [done|]. exists v, g. apply (selects_member _ _ _ _ Hs). left.
  - intros (v & g & Hv & Hg) E. destruct (counts_listed m g) as (vs & Hs). pose proof (K g vs Hs) as Kg. rewrite E, lookup_empty in Kg.
    assert (v ∈ vs) as Hin by (by apply (selects_member _ _ _ _ Hs)). destruct vs; [by apply elem_of_nil in Hin|done].
Qed.
Lemma counts_unique m m' : same_contents m m' -> counts_say m -> counts_say m' -> m_ngrams m' = m_ngrams m /\ m_have_lm m' = m_have_lm m.
Proof.
  intros SC [C1 L1] [C2 L2].
  assert (forall g v, counts_as m' g v <-> counts_as m g v) as Hc.
  { intros g v. unfold counts_as. by rewrite (entry_words_same _ _ _ _ (sc_encoder _ _ SC)). }
  split.
  - apply map_eq. intros g. destruct (counts_listed m' g) as (vs & Hs). rewrite (C2 g vs Hs). symmetry. apply C1.
    rewrite (sc_decoder _ _ SC) in Hs. revert Hs. generalize (m_decoder m). intros l. induction 1; constructor; try done; by rewrite <- Hc.
  - eapply bool_iff; [exact L1|]. rewrite L2, (sc_decoder _ _ SC). by setoid_rewrite Hc.
Qed.

Section succeeds.
  Context (pf : str -> option f64) (pf32 : str -> option f32) (ws : N -> bool) (ps : str -> option (list edit_instruction)).
  Context (o : list (N * node) -> list (N * node)) (o' : list (str * vocab_id) -> list (str * vocab_id)).
  Context (fs : str -> option (list (option str))) (c : command) (ts : list typed) (W : well_typed c ts).
  #[local] Notation load := (loaded_model pf pf32 ws ps o o' fs c ts).
  #[local] Set Default Proof Using "All".

  Lemma contents_unique m m' : contents_say ws pf pf32 ps fs c ts m -> contents_say ws pf pf32 ps fs c ts m' -> same_contents m m'.
  Proof using W.
    intros [(n & ls & Hn & Hls & HA) HW (ss & a & l & r & L & Hs & Ha & Hr & HL & He & Hd & Hx) HF (cfs & css & Hc & Hcs & HC) HE (rfs & Hrf & HR)]
      [(n' & ls' & Hn' & Hls' & HA') HW' (ss' & a' & l' & r' & L' & Hs' & Ha' & Hr' & HL' & He' & Hd' & Hx') HF' (cfs' & css' & Hc' & Hcs' & HC') HE' (rfs' & Hrf' & HR')].
    assert (m_alphabet m' = m_alphabet m) as EA.
    { assert (n' = n) as ->.
      { apply (alphabet_value c ts n W) in Hn. apply (alphabet_value c ts n' W) in Hn'. congruence. }
      rewrite Hls in Hls'. injection Hls' as <-. apply alphabet_spec in HA, HA'. congruence. }
    assert (m_weights m' = m_weights m) as EW.
    { apply weights_spec in HW, HW'; [|by apply accepted_spec..]. congruence. }
    rewrite EA, EW in Hr'. rewrite (sources_typed_det _ _ _ _ Hs' Hs) in *.
    destruct (sources_say_det _ _ _ _ _ _ _ Ha Ha') as [-> ->]. rewrite Hr in Hr'. injection Hr' as <-.
    rewrite (links_between_det _ _ _ _ HL HL') in *.
    rewrite (files_typed_det _ _ _ _ _ Hrf' Hrf), Hx', He', <- Hx, <- He in HR'. destruct (P_RuleFile.rules_unique _ _ _ _ _ _ _ _ _ _ HR HR') as [ET ER].
    split; try congruence.
    - by eapply bool_iff.
    - rewrite (files_typed_det _ _ _ _ _ Hc' Hc) in *. rewrite (confusables_det _ _ _ _ _ Hcs Hcs') in HC'. congruence.
    - by eapply bool_iff.
  Qed.

  Lemma confusables_load confs css : Forall2 (fun f cs => exists ls, selects (fun l => l <> []) (f_lines f) ls /\ Forall2 (line_confusable ps pf) ls cs) confs css ->
    forall m, rfoldl (fun m f => expect_ok (read_confusablelist ps pf m (f_lines f))) m confs = Ok (with_confusables m (m_confusables m ++ concat css) (m_confusables_before_pruning m)).
  Proof.
    induction 1 as [|f cs confs css (ls & S1 & H1) _ IH]; intros m; cbn [rfoldl concat].
    - rewrite app_nil_r. by destruct m.
    - assert (read_confusablelist ps pf m (f_lines f) = Ok (with_confusables m (m_confusables m ++ cs) (m_confusables_before_pruning m), true)) as ->
        by (apply P_Confusable.read_spec; eauto).
      unfold expect_ok at 1. cbn [rbind]. rewrite IH. cbn. by rewrite <- app_assoc.
  Qed.

  Lemma load_succeeds m : some_order o' ->
    contents_say ws pf pf32 ps fs c ts m -> within_limits m -> exists m', load = Ok m'.
  Proof.
    intros Ho C0 L0. assert (words_counted m) as HWC by (eapply contents_words; [exact C0|]; eapply Forall_impl; [exact (wl_entries _ L0)|]; by intros v [? _]).
    revert C0 L0. intros [(n & ls & Hn & Hls & HA) HW (ss & a & l & r & L & Hs & Ha & Hr & HL & He & Hd & Hx) HF (cfs & css & Hc & Hcs & HC) HE (rfs & Hrf & HR)]
      [LA LW LF LE LT LL LC LCC].
    pose proof Hs as (sel & gs & lms & Sl & F & Hlm & ->).
    destruct (options_bwd fs ts) with (k := 0) (sel := sel) (gs := gs) as (opts & (P & _ & O1 & O2 & O3) & <-); [..|exact Sl|exact F|].
    1-3: eapply no_flag_typed; [done|by destruct c; vm_compute].
    assert (no_flag "lm" ts /\ no_flag "confusables" ts /\ no_flag "contextrules" ts) as (N1 & N2 & N3).
    { split; [|split; (eapply no_flag_typed; [done|by destruct c; vm_compute])]. intros Hf. destruct (wt_flags _ _ W _ Hf) as (b & Hb & Eb & Et).
      assert (forallb (fun a => negb (bool_decide (a_long a = lit "lm")) || a_takes_value a) (arguments c) = true) as X by (by destruct c; vm_compute).
      rewrite forallb_forall in X. apply elem_of_list_In, X in Hb. rewrite bool_decide_true, Et in Hb by done. done. }
    apply (files_spec fs "lm" ts N1 0) in Hlm as (lml & Elm & <-). apply (files_spec fs "confusables" ts N2 0) in Hc as (cl & Ec & <-).
    apply (files_spec fs "contextrules" ts N3 0) in Hrf as (rl & Er & <-).
    unfold loaded_model. rewrite (proj2 (weights_spec _ _ _ _ (proj2 (accepted_spec _ _) W)) HW). cbn [rbind].
    rewrite (proj2 (alphabet_value _ _ _ W) Hn). cbn [rexpect rbind]. unfold open. rewrite Hls. cbn [rexpect rbind].
    rewrite !(values_occ c ts) by (done || by destruct c; vm_compute). rewrite O1, O2, O3, Elm, Ec, Er. cbn [rbind files_of rmapM map].
    apply alphabet_spec in HA. unfold startup, load_resources. rewrite sort_gather by done.
    set (ss := map (fun x => Given x.2) opts ++ map Lm (map snd lml)) in *.
    assert (length ss <= 32) as Ls by (rewrite <- (map_length source_name), <- Hx; done).
    destruct (write_sources pf (model_new ws ls (m_weights m)) 0 ss [] [] (model_new ws ls (m_weights m)) a l [] r) as (m2 & E2); [cbn; lia|done|..].
    { apply P_Files.st_new, new_inverse. }
    { done. }
    { rewrite app_nil_r. unfold model_new. rewrite HA. exact Hr. }
    pose proof E2 as E2'. unfold ss in E2'. rewrite rfoldl_app, !(rfoldl_map ws pf pf32 ps) in E2'. cbn [load_source] in E2'.
    rewrite (rfoldl_map ws pf pf32 ps). destruct (rfoldl _ (model_new ws ls (m_weights m)) opts) as [m1|] eqn:E1; [|done]. cbn [rbind] in *.
    rewrite (rfoldl_map ws pf pf32 ps) in E2'. cbn [load_source] in E2'. rewrite E2'. cbn [rbind]. rewrite (confusables_load _ _ Hcs). cbn [rbind rfoldl].
    set (m3' := with_confusables m2 _ _).
    destruct (read_sources pf (model_new ws ls (m_weights m)) ss [] [] (model_new ws ls (m_weights m)) m2) as (a2 & l2 & Hs2 & (r2 & L2 & R2 & I2 & K2 & (V1 & V2 & V3)) & V4); [cbn; lia|apply P_Files.st_new, new_inverse|done|].
    destruct (sources_say_det _ _ _ _ _ _ _ Ha Hs2) as [-> ->]. unfold model_new in R2. rewrite HA in R2. cbn [app] in R2. rewrite Hr in R2. injection R2 as <-.
    rewrite (links_between_det _ _ _ _ HL K2) in *. rewrite <- Hd in V1.
    assert (m_encoder m2 = m_encoder m) as V2'.
    { rewrite V2, He. clear. induction L as [|x L IH] using rev_ind; [done|]. rewrite P_Files.run_links_snoc. etransitivity; [|exact IH].
      unfold P_Files.link1, add_variant_by_id. by destruct negb. }
    cbn [model_new new_with_alphabet m_lexicons app] in V4. rewrite <- Hx in V4.
    set (m3 := with_rules m3' (m_context_rules m) (m_tags m)).
    assert (rfoldl (fun m f => expect_ok (read_contextrules ws pf32 m (f_lines f))) m3' (map snd rl) = Ok m3) as ->.
    { apply P_RuleFile.files_iff. exists (m_tags m), (m_context_rules m). change (m_lexicons m3') with (m_lexicons m2). change (m_encoder m3') with (m_encoder m2).
      change (m_tags m3') with (m_tags m2). change (m_context_rules m3') with (m_context_rules m2).
      rewrite V2', V4, (sources_g m_tags pf ltac:(done) ltac:(done) _ _ _ E2), (sources_g m_context_rules pf ltac:(done) ltac:(done) _ _ _ E2). done. }
    cbn [rbind].
    destruct (build_succeeds o o' m3) as (m4 & ->); [..|by eexists].
    - change (m_alphabet m3) with (m_alphabet m2). rewrite V3. assert (m_alphabet (run_links r L) = m_alphabet m) as ->.
      { destruct (run_adds_fields _ _ _ _ Hr) as (_ & _ & <-). clear. induction L as [|x L IH] using rev_ind; [done|]. rewrite P_Files.run_links_snoc.
        etransitivity; [|exact IH]. unfold P_Files.link1, add_variant_by_id. by destruct negb. }
      rewrite <- HA. apply (read_forms ws ls). rewrite HA. lia.
    - done.
    - intros id v D. change (m_decoder m3) with (m_decoder m2) in D. rewrite V1 in D. by eapply HWC.
    - change (m_ngrams m2 = ∅). rewrite (sources_g m_ngrams pf ltac:(done) ltac:(done) _ _ _ E2). done.
    - change (m_freq_sum m2 = [0%N]). rewrite (sources_g m_freq_sum pf ltac:(done) ltac:(done) _ _ _ E2). done.
    - change (m_decoder m3) with (m_decoder m2). by rewrite V1.
  Qed.
End succeeds.
