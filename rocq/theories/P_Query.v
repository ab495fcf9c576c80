(** Proofs about the command line tool in query mode: from what is typed to
    what is printed. *)
From Coq Require String Ascii.
From Coq Require Import Lia Sorted.
From Verif Require Import M_Base M_Anahash M_Iter M_Distance M_Float M_Types M_Model M_Confusable M_ConfList M_Rules M_Search M_Text M_Values.
From Verif Require Import M_Matches M_Learn M_Cli M_Main M_Options M_Program.
From Verif Require Import S_Anahash S_Iter S_Distance S_Model S_Search S_Lookup S_Confusable S_Rules S_Cli S_Main S_Options S_Program.
From Verif Require Import P_Base P_Model P_Options P_Start.
From Verif Require P_Anahash P_Vocab P_Main P_Score P_Rank P_Results P_LookupAll P_CliOut P_Cli P_JsonOut P_Json.
Import String.StringSyntax Ascii.AsciiSyntax.
From stdpp Require Import options.

(** ** Only the contents matter *)
Lemma same_contents_sym m m' : same_contents m m' -> same_contents m' m.
Proof. intros []. by split. Qed.
Lemma same_contents_trans m m' m'' : same_contents m m' -> same_contents m' m'' -> same_contents m m''.
Proof. intros [] []. split; congruence. Qed.
Lemma expands_same m m' l l' : same_contents m m' -> expands m l l' -> expands m' l l'.
Proof.
  intros Sm. induction 1 as [|r v l rs l' E F _ IH]; [constructor|]. constructor; [by rewrite (sc_decoder _ _ Sm)| |done].
  eapply Forall2_impl; [exact F|]. intros ts r' (u & Hu & H). exists u. by rewrite (sc_decoder _ _ Sm).
Qed.
Lemma when_impl {A} (P : Prop) (R R' : A -> A -> Prop) l l' : (forall x y, R x y -> R' x y) -> when P R l l' -> when P R' l l'.
Proof. intros H [[? ?]|[? ?]]; [left; auto|right; auto]. Qed.
Lemma looked_up_same lc ses m m' q ks p l : same_contents m m' -> looked_up lc ses m q ks p l -> looked_up lc ses m' q ks p l.
Proof.
  intros Sm [cs l1 l2 l3 l4 l5 l6 l7 l8 l9 H1 H2 H3 H4 H5 H6 H7 H8 H9 H10 H11].
  assert (when (linked_sighting cs) (expands m') l2 l3) as H4'.
  { eapply when_impl; [|exact H4]. intros x y. by apply expands_same. }
  clear H4. destruct Sm, m, m'; cbn in *; subst. econstructor; eassumption.
Qed.
Lemma looked_up_offsets lc ses m q ks p u l : looked_up lc ses m q ks p l <->
  looked_up lc ses m q ks (SearchParameters (p_max_anagram_distance p) (p_max_edit_distance p) (p_max_matches p) (p_score_threshold p) (p_cutoff_threshold p)
     (p_stop_criterion p) (p_max_ngram p) (p_max_seq p) (p_variantmodel_weight p) (p_lm_weight p) (p_contextrules_weight p) (p_freq_weight p) u) l.
Proof. split; intros [cs l1 l2 l3 l4 l5 l6 l7 l8 l9 H1 H2 H3 H4 H5 H6 H7 H8 H9 H10 H11]; destruct p; econstructor; eassumption. Qed.

(** ** Lookups in the loaded model *)
Lemma reads_short A t ks : reads A t ks -> length ks <= length t.
Proof.
  induction 1 as [|t i e t' ks -> He _ _ IH|c t' ks _ _ IH]; cbn; [lia| |lia]. rewrite app_length. destruct e; [done|]. cbn. lia.
Qed.
Lemma reads_some A t ks : reads A t ks -> t <> [] -> ks <> [].
Proof. by destruct 1. Qed.

(** a result whose entries exist *)
Definition result_inside (m : model) (r : variant_result) : Prop :=
  is_Some (m_decoder m !! vr_id r) /\ forall i, vr_via r = Some i -> is_Some (m_decoder m !! i).

Section loaded.
  Context (pf : str -> option f64) (pf32 : str -> option f32) (ws : N -> bool) (ps : str -> option (list edit_instruction)).
  Context (o : list (N * node) -> list (N * node)) (o' : list (str * vocab_id) -> list (str * vocab_id)).
  Context (fs : str -> option (list (option str))) (c : command) (ts : list typed) (W : well_typed c ts).
  Context (lc : N -> bool) (ses : str -> str -> list edit_instruction).
  #[local] Notation load := (loaded_model pf pf32 ws ps o o' fs c ts).

  Record answers (m m' : model) (p : search_parameters) (q : str) (l : list variant_result) : Prop := {
    an_spec : exists ks, reads (m_alphabet m) q ks /\ looked_up lc ses m q ks p l;
    an_unique : forall ks l', reads (m_alphabet m) q ks -> looked_up lc ses m q ks p l' -> l' = l;
    an_finds : finds lc ses m' q p l;
    an_ok : Forall result_ok l;
    an_inside : Forall (result_inside m) l;
    an_score : forall r, final_score (p_freq_weight p) r = vr_score (p_freq_weight p) r;
  }.

  Lemma loaded_built m : some_order o -> some_order o' -> contents_say ws pf pf32 ps fs c ts m -> within_limits m ->
    exists m' m0, load = Ok m' /\ same_contents m m' /\ counts_say m' /\ words_counted m' /\
      built m0 m' /\ same_contents m0 m /\ links_inside m0 /\ forall p, weight_single (p_freq_weight p) -> tame m0 p.
  Proof using W.
    clear lc ses. intros Ho Ho' C L. destruct (load_succeeds pf pf32 ws ps o o' fs c ts W m Ho' C L) as (m' & E).
    assert (forall ss, sources_typed fs ts ss -> length ss <= 256) as Hl.
    { intros ss Hss. destruct (cs_entries _ _ _ _ _ _ _ _ C) as (ss' & a & l & r & L' & Hs & _ & _ & _ & _ & _ & Hx).
      rewrite (sources_typed_det _ _ _ _ Hss Hs), <- (map_length source_name), <- Hx. pose proof (wl_files _ L). lia. }
    destruct (load_contents pf pf32 ws ps o o' fs c ts W m' Ho' Hl E) as (C' & m0 & B & N0 & I0 & U0 & SC & Hng & Hfs).
    pose proof (contents_unique pf pf32 ws ps fs c ts W m m' C C') as SC'.
    assert (same_contents m0 m) as S0 by (eapply same_contents_trans; [exact SC|by apply same_contents_sym]).
    assert (words_counted m') as Hwc.
    { eapply contents_words; [exact C'|]. rewrite (sc_decoder _ _ SC'). eapply Forall_impl; [exact (wl_entries _ L)|]. by intros v [? _]. }
    exists m', m0. split; [done|]. split; [done|]. split; [by eapply counts_loaded|]. split; [done|]. split; [|split; [done|split; [done|]]].
    - split.
      + rewrite <- (sc_alphabet _ _ S0). destruct (cs_alphabet _ _ _ _ _ _ _ _ C) as (n & ls & _ & _ & HA). apply P_Main.alphabet_spec in HA. rewrite <- HA.
        apply read_forms. rewrite HA. pose proof (wl_alphabet _ L). lia.
      + rewrite <- (sc_alphabet _ _ S0). apply L.
      + by exists o, o'.
      + intros id v ks' [[D _] R]. rewrite <- (sc_decoder _ _ S0) in D. pose proof (reads_short _ _ _ R).
        eapply Forall_lookup_1 in D; [|exact (wl_entries _ L)]. destruct D as [_ D]. lia.
      + done.
      + rewrite <- (sc_weights _ _ S0). apply L.
    - intros p Hw. split; [done| | |done| |done].
      + rewrite <- (sc_confusables _ _ S0). apply L.
      + rewrite <- (sc_confusables _ _ S0). apply L.
      + rewrite <- (sc_decoder _ _ S0). apply L.
  Qed.
  Lemma built_answers m m0 m' q p : built m0 m' -> same_contents m0 m -> links_inside m0 -> tame m0 p -> lookup_line q ->
    exists l, answers m m' p q l.
  Proof using lc ses.
    clear W pf pf32 ps fs c ts ws o o'. intros Bt S0 I0 T Hq. assert (weight_single (p_freq_weight p)) as Hw by apply T.
    pose proof (bt_alphabet _ _ Bt) as AO. rewrite <- (sc_alphabet _ _ S0) in AO.
    destruct (P_Anahash.reads_total_unique (m_alphabet m) q AO) as (ks & Hr & Hu).
    pose proof (reads_short _ _ _ Hr) as Hk. destruct Hq as [Hq1 Hq2].
    assert (ks <> []) as Hks by (eapply reads_some; [exact Hr|]; by destruct q; [cbn in Hq1; lia|]).
    assert (length ks <= 255) as Hk' by lia.
    pose proof (same_contents_sym _ _ S0) as S0'.
    assert (query m0 q ks) as Qu by (split; [by rewrite <- (sc_alphabet _ _ S0)|done|lia]).
    destruct (P_LookupAll.one_outcome lc ses m0 m' q ks p Bt Qu Hk' T) as (l & Hl1 & Hl2). pose proof Hl1 as Hf. apply (P_LookupAll.lookup_exact lc ses m0 m' q ks p l Bt Qu Hk' T) in Hf.
    exists l. split.
    - exists ks. split; [done|]. by eapply looked_up_same.
    - intros ks' l' R1 R2. rewrite (Hu _ R1) in R2. apply Hl2. by eapply looked_up_same.
    - done.
    - by destruct (P_Results.results_ranked lc ses m0 m' q ks Bt Qu p l T Hf).
    - eapply Forall_impl; [exact (P_Results.sound lc ses m0 m' q ks Bt Qu p l Hk' Hf)|].
      cbn. intros r (id & v & d & (k2 & [[Hv _] _] & _) & [[Ei Ev]|[Ev (s & Hs)]]); unfold result_inside; rewrite (sc_decoder _ _ S0), Ev.
      + rewrite Ei. split; [by rewrite Hv|done].
      + split; [apply lookup_lt_is_Some_2; by eapply I0|]. intros i [= <-]. by rewrite Hv.
    - intros r. by apply (P_Results.final_score_eq lc ses m0 m' q ks Bt Qu).
  Qed.
  Lemma loaded_answers m : some_order o -> some_order o' -> contents_say ws pf pf32 ps fs c ts m -> within_limits m ->
    exists m', load = Ok m' /\ same_contents m m' /\
      forall q p, lookup_line q -> weight_single (p_freq_weight p) -> exists l, answers m m' p q l.
  Proof using W.
    intros Ho Ho' C L. destruct (loaded_built m Ho Ho' C L) as (m' & m0 & E & SC & _ & _ & Bt & S0 & I0 & HT).
    exists m'. split; [done|]. split; [done|]. intros q p Hq Hw. eapply built_answers; [exact Bt|done..|by apply HT|done].
  Qed.
End loaded.

(** ** Output *)
Lemma process_same m m' fmt lm fw lk json lines : same_contents m m' ->
  process fmt m' lm fw lk json lines = process fmt (with_rules m [] []) lm fw lk json lines.
Proof. intros []. destruct m, m'; cbn in *; subst. reflexivity. Qed.

Section lines.
  Context (fmt : f64 -> str) (m : model) (lm : bool) (fw : f32).
  Context (Hn : length (m_lexicons m) <= 32).

  Lemma query_line_tsv seq q l : Forall (result_inside m) l ->
    exists cells, Forall2 (result_columns fmt (vr_score fw) lm m) l cells /\
      query_line fmt m lm fw false seq q l = Printed (joined 9 (q :: concat cells) ++ [10%N]) None.
  Proof using Hn.
    intros H0. assert (Forall (fun r => is_Some (m_decoder m !! vr_id r)) l) as H by (eapply Forall_impl; [exact H0|]; by intros r [? _]). unfold query_line. pose proof (P_CliOut.tsv_match_ok fmt m lm fw q (Some l) (Some 0) None Hn H) as E.
    destruct (P_CliOut.tsv_match_line fmt m lm fw q (Some l) (Some 0) None E) as (rs & os & cells & S1 & Ho & F & O); [lia|].
    inversion Ho; subst. cbn [default app] in *. exists cells. split.
    - inversion S1 as [pre x post E1 E2|? ? Hle|]; subst; [|done]. apply nil_length_inv in E1. subst pre. cbn in E2. subst l. exact F.
    - cbn [app] in O. destruct (tsv_match _ _ _ _ _ _ _ _). cbn in *. by subst.
  Qed.
  (** JSON: nothing fails *)
  Lemma pthen_stop a b : p_stop a = None -> p_stop b = None -> p_stop (pthen a b) = None.
  Proof. unfold pthen. by intros ->. Qed.
  Lemma json_results_ok b l : Forall (result_inside m) l -> p_stop (json_results fmt m lm fw b l) = None.
  Proof using Hn.
    intros H. revert b. induction H as [|r l [[v Hv] Hvia] _ IH]; intros b; [done|]. cbn [json_results].
    apply pthen_stop; [done|]. apply pthen_stop; [|apply IH]. unfold json_result, get_vocab. rewrite Hv. cbn [rexpect pres].
    apply pthen_stop; [done|]. apply pthen_stop; [done|]. apply pthen_stop; [done|]. apply pthen_stop; [|apply pthen_stop; [|done]].
    - destruct (vr_via r) as [i|]; [|done]. destruct (Hvia i eq_refl) as [w ->]. done.
    - destruct lm; [|done]. destruct (P_Json.lexicons_of_ok m v Hn) as [ls ->]. done.
  Qed.
  Lemma query_line_json seq q l : Forall (result_inside m) l -> p_stop (query_line fmt m lm fw true seq q l) = None.
  Proof using Hn.
    intros H. unfold query_line, json_match. apply pthen_stop; [done|]. apply pthen_stop; [done|]. apply pthen_stop; [done|]. apply pthen_stop; [done|].
    apply pthen_stop; [done|]. apply pthen_stop; [|done]. apply json_results_ok.
    pose proof (P_Cli.listed_selected_first (Some 0) l) as G. rewrite Forall_forall in H |- *. intros r Hr. apply H.
    revert Hr. destruct G; try done. rewrite !elem_of_app, !elem_of_cons, elem_of_app. tauto.
  Qed.
  Context (lk : str -> res (list variant_result)).
  (** one line after the other, TSV *)
  Definition tsv_says (q out : str) : Prop := exists l cells, lk q = Ok l /\
    Forall2 (result_columns fmt (vr_score fw) lm m) l cells /\ out = joined 9 (q :: concat cells) ++ [10%N].
  Lemma process_tsv lines : forall s, (forall q, Some q ∈ lines -> exists l, lk q = Ok l /\ Forall (result_inside m) l) ->
    exists outs, Forall2 tsv_says (omap (fun l => l) lines) outs /\ process_from fmt m lm fw lk false s lines = Printed (concat outs) None.
  Proof using Hn.
    induction lines as [|[q|] lines IH]; intros s H.
    - exists []. split; [constructor|done].
    - destruct (H q) as (l & E & Hl); [by left|]. destruct (IH (S s)) as (outs & F & EO); [intros q' Hq'; apply H; by right|].
      destruct (query_line_tsv (S s) q l Hl) as (cells & Fc & Ec).
      exists ((joined 9 (q :: concat cells) ++ [10%N]) :: outs). split; [constructor; [by exists l, cells|done]|].
      cbn [process_from]. rewrite E. cbn [pres]. rewrite Ec, EO. done.
    - destruct (IH s) as (outs & F & EO); [intros q' Hq'; apply H; by right|]. by exists outs.
  Qed.

  Lemma process_json lines : forall s, (forall q, Some q ∈ lines -> exists l, lk q = Ok l /\ Forall (result_inside m) l) ->
    p_stop (process_from fmt m lm fw lk true s lines) = None.
  Proof using Hn.
    induction lines as [|[q|] lines IH]; intros s H; [done| |].
    - destruct (H q) as (l & E & Hl); [by left|]. cbn [process_from]. rewrite E. cbn [pres]. apply pthen_stop; [by apply query_line_json|].
      apply IH. intros q' Hq'. apply H. by right.
    - apply IH. intros q' Hq'. apply H. by right.
  Qed.
End lines.

(** ** A whole run *)
Lemma names_input ts ns : names_typed ts ns -> input_files ts = ns.
Proof.
  intros (sel & Hs & H). assert (Forall2 (fun t n => t = TFile n) sel (omap file_name ts)) as F.
  { clear H. induction Hs as [|t ts sel (n & ->) _ IH|t ts sel Hn _ IH]; [constructor|by constructor|].
    destruct t as [| |n]; [done..|]. exfalso. eauto. }
  unfold input_files. destruct H as [[-> ->]|[Hne F']].
  - by rewrite (Forall2_nil_inv_l _ _ F).
  - assert (omap file_name ts = ns) as ->.
    { clear Hne Hs. revert ns F'. induction F as [|t n sel l -> _ IH]; intros ns F'; inversion F' as [|? n' ? ns' E' F2]; subst; [done|]. injection E' as ->. f_equal. by apply IH. }
    destruct ns; [by inversion F'; subst|done].
Qed.

(** the parameters, with offsets as they are *)
Definition byte_offsets (P : tool_parameters) : tool_parameters :=
  let p := tp_search P in
  ToolParameters (SearchParameters (p_max_anagram_distance p) (p_max_edit_distance p) (p_max_matches p) (p_score_threshold p) (p_cutoff_threshold p)
     (p_stop_criterion p) (p_max_ngram p) (p_max_seq p) (p_variantmodel_weight p) (p_lm_weight p) (p_contextrules_weight p) (p_freq_weight p) false)
    (tp_single_thread P) (tp_consolidate_matches P) (tp_lm_order P) (tp_context_weight P).

Section query.
  Context (pf : str -> option f64) (pf32 : str -> option f32) (fmt : f64 -> str) (ws lc alpha : N -> bool) (ln32 : f32 -> f32) (ln : f64 -> f64).
  Context (ps : str -> option (list edit_instruction)) (ses : str -> str -> list edit_instruction) (solve : fst_graph -> nat -> list (list nat * f32)).
  Context (o : list (N * node) -> list (N * node)) (o' : list (str * vocab_id) -> list (str * vocab_id)) (o'' : list (nat * list N) -> list (nat * list N)).
  Context (fs : str -> option (list (option str))).
  Context (ts : list typed).

  Lemma query_files fuel P m stdin ns lls : inputs_say fs stdin ns lls ->
    let p := tp_search P in
    let present := is_present Query ts in
    over_files fmt ws lc alpha ln32 ln ses solve o o' o'' fs fuel Query ts P m stdin ns =
    pall (map (fun lines => if tp_single_thread P
      then process fmt m (present (lit "output-lexmatch")) (p_freq_weight p) (lookup_in lc ses o'' fuel m p) (present (lit "json")) lines
      else process_par fmt m (present (lit "output-lexmatch")) (p_freq_weight p) (lookup_in lc ses o'' fuel m p) (present (lit "json")) (N.to_nat MAX_BATCHSIZE) lines) lls).
  Proof.
    cbn zeta. induction 1 as [stdin|stdin n ns ls lls Hn E _ IH|stdin n ns lls Hn _ IH]; [done| |]; cbn [over_files map pall].
    - assert (is_stdin n = false) as -> by (by apply bool_decide_false). unfold open. rewrite E. cbn [rexpect pres]. rewrite IH. done.
    - assert (is_stdin n = true) as -> by (by apply bool_decide_true). cbn [pres]. rewrite IH. done.
  Qed.

  Context (W : well_typed Query ts) (debug : option str) (P : tool_parameters) (stdin : list (option str)) (lls : list (list (option str))).
  Context (A : asked pf pf32 fs stdin debug ts P lls) (m : model) (C : contents_say ws pf pf32 ps fs Query ts m) (L : within_limits m).
  Context (Ho : some_order o) (Ho' : some_order o') (Ho'' : some_order o'').
  #[local] Notation prog fuel := (program pf pf32 fmt ws lc alpha ln32 ln ps ses solve o o' o'' fs stdin fuel (Invocation debug (Some Query) ts)).
  #[local] Notation p := (tp_search P).
  #[local] Notation lexm := (is_present Query ts (lit "output-lexmatch")).
  #[local] Notation js := (is_present Query ts (lit "json")).

  (** the run, its lookups and its lines *)
  Lemma whole_run : exists m', same_contents m m' /\
    (forall q, lookup_line q -> exists l, answers lc ses m m' p q l) /\
    exists lk : nat -> str -> res (list variant_result), (forall q l, finds lc ses m' q p l -> exists F, forall fuel, F <= fuel -> lk fuel q = Ok l) /\
      forall fuel, (forall ls, ls ∈ lls -> p_stop (process fmt (with_rules m [] []) lexm (p_freq_weight p) (lk fuel) js ls) = None) ->
        prog fuel = of_printed (whole_output js (map (process fmt (with_rules m [] []) lexm (p_freq_weight p) (lk fuel) js) lls)).
  Proof using W A C L Ho Ho' Ho''.
    destruct A as [Hd HP Hw Hc (ns & Hns & Hi) Hread Hlines].
    destruct (loaded_answers pf pf32 ws ps o o' fs Query ts W lc ses m Ho Ho' C L) as (m' & E & SC & An).
    exists m'. split; [done|]. split; [intros q Hq; by apply An|].
    exists (fun fuel => lookup_in lc ses o'' fuel m' (tp_search (byte_offsets P))). split.
    { intros q l (F & HF). exists F. intros fuel Hfu. unfold lookup_in. rewrite <- (HF fuel o'' Hfu Ho''). by destruct P as [[]]. }
    intros fuel Hstop. unfold program. cbn [iv_command iv_typed iv_debug]. rewrite (proj2 (accepted_spec _ _) W). unfold run.
    assert (exists k, parse_u8 (default (lit "0") debug) = Some k) as (k & ->).
    { destruct debug as [s|]; [|by eexists]. destruct (Hd s eq_refl) as (k & Hk). exists k. by apply P_Vocab.parse_uint_spec. }
    cbn [rexpect rbind]. rewrite E. cbn [ores].
    assert (tool_params pf pf32 Query ts = Ok (byte_offsets P)) as ->.
    { apply params_spec; [by apply accepted_spec|]. split; [|done]. clear -HP. destruct HP. by split. }
    cbn [ores]. assert (cutoff_refused (tp_search (byte_offsets P)) = false) as ->.
    { unfold cutoff_refused. change (p_cutoff_threshold (tp_search (byte_offsets P))) with (p_cutoff_threshold p).
      destruct (flt _ _); [by rewrite Hc|done]. }
    rewrite (names_input _ _ Hns). rewrite (query_files fuel (byte_offsets P) m' stdin ns lls Hi).
    unfold whole_output. do 4 f_equal. apply map_ext_in. intros ls Hls%elem_of_list_In.
    change (tp_single_thread (byte_offsets P)) with (tp_single_thread P). change (p_freq_weight (tp_search (byte_offsets P))) with (p_freq_weight p).
    rewrite <- (process_same _ _ _ _ _ _ _ _ SC). destruct (tp_single_thread P) eqn:Es; [done|].
    apply P_CliOut.par_whole; [unfold MAX_BATCHSIZE; lia| |].
    - destruct Hread as [?|Hread]; [congruence|]. rewrite Forall_forall in Hread. by apply Hread.
    - rewrite (process_same _ _ _ _ _ _ _ _ SC). by apply Hstop.
  Qed.

  Lemma all_found (m' : model) (lk : nat -> str -> res (list variant_result)) qs :
    (forall q, lookup_line q -> exists l, answers lc ses m m' p q l) ->
    (forall q l, finds lc ses m' q p l -> exists F, forall fuel, F <= fuel -> lk fuel q = Ok l) ->
    Forall lookup_line qs ->
    exists F, forall fuel, F <= fuel -> forall q, q ∈ qs -> exists l, answers lc ses m m' p q l /\ lk fuel q = Ok l.
  Proof using solve.
    intros An Fi. induction 1 as [|q qs Hq _ (F & IH)]; [exists 0; intros fuel _ q Hq; by apply elem_of_nil in Hq|].
    destruct (An q Hq) as (l & Hl). destruct (Fi q l (an_finds _ _ _ _ _ _ _ Hl)) as (F' & HF). exists (F `max` F'). intros fuel Hf q' [->|Hq']%elem_of_cons.
    - exists l. split; [done|]. apply HF. lia.
    - apply IH; [lia|done].
  Qed.

  Lemma queries_elem ls q : ls ∈ lls -> Some q ∈ ls -> q ∈ queries lls.
  Proof.
    intros H1 H2. unfold queries. apply elem_of_list_omap. exists (Some q). split; [|done]. apply elem_of_list_In, in_concat. exists ls. by rewrite <- !elem_of_list_In.
  Qed.
  Lemma lexmatch_is : lexmatch_typed ts lexm.
  Proof using W. unfold lexmatch_typed. apply flag_spec; [by apply accepted_spec|by vm_compute]. Qed.
  Lemma lexmatch_det b : lexmatch_typed ts b -> b = lexm.
  Proof using W. intros H. eapply bool_iff; [exact lexmatch_is|exact H]. Qed.

  Lemma columns_det' score b l cells cells' : Forall2 (result_columns fmt score b m) l cells -> Forall2 (result_columns fmt score b m) l cells' -> cells' = cells.
  Proof.
    intros F. revert cells'. induction F as [|r cs l cells (v & Hv & ->) _ IH]; intros cells' F'; inversion F' as [|? cs' ? cells2 (v' & Hv' & ->) F2]; subst; [done|].
    rewrite Hv in Hv'. injection Hv' as <-. f_equal. by apply IH.
  Qed.
  Lemma answer_line_det m' q out out' l : answers lc ses m m' p q l ->
    answer_line lc ses fmt m ts p q out -> answer_line lc ses fmt m ts p q out' -> out' = out.
  Proof using W.
    intros An (ks & l1 & cells & b & R1 & L1 & B1 & F1 & ->) (ks' & l2 & cells' & b' & R2 & L2 & B2 & F2 & ->).
    rewrite (lexmatch_det _ B1), (lexmatch_det _ B2) in *. rewrite (an_unique _ _ _ _ _ _ _ An _ _ R1 L1), (an_unique _ _ _ _ _ _ _ An _ _ R2 L2) in *.
    by rewrite (columns_det' _ _ _ _ _ F1 F2).
  Qed.
  Lemma tsv_answer m' lk q out l : answers lc ses m m' p q l -> lk q = Ok l -> tsv_says fmt (with_rules m [] []) lexm (p_freq_weight p) lk q out ->
    answer_line lc ses fmt m ts p q out.
  Proof using W.
    intros An E (l' & cells & E' & F & ->). rewrite E in E'. injection E' as <-. destruct (an_spec _ _ _ _ _ _ _ An) as (ks & R & Lk).
    exists ks, l, cells, lexm. split; [done|]. split; [done|]. split; [apply lexmatch_is|]. split; [|done].
    eapply Forall2_impl; [exact F|]. intros r cs (v & Hv & ->). exists v. split; [done|]. by rewrite (an_score _ _ _ _ _ _ _ An).
  Qed.

  Lemma json_is b : is_present Query ts (lit "json") = b <-> if b then flag_typed ts "json" else ~ flag_typed ts "json".
  Proof using W.
    pose proof (flag_spec Query ts (lit "json") (proj2 (accepted_spec _ _) W) eq_refl) as F. change (TFlag (lit "json") ∈ ts) with (flag_typed ts "json") in F.
    destruct b; [done|]. rewrite <- F. by destruct (is_present _ _ _).
  Qed.

  Lemma run_tsv : ~ flag_typed ts "json" -> exists outs, Forall2 (answer_line lc ses fmt m ts p) (queries lls) outs /\
    (forall outs', Forall2 (answer_line lc ses fmt m ts p) (queries lls) outs' -> outs' = outs) /\
    exists F, forall fuel, F <= fuel -> prog fuel = Outcome (concat outs) Ended.
  Proof using W A C L Ho Ho' Ho''.
    intros Hj%(json_is false). destruct whole_run as (m' & SC & An & lk & Fi & Run). rewrite Hj in Run.
    destruct (all_found m' lk (queries lls) An Fi (as_lines _ _ _ _ _ _ _ _ A)) as (F & HF).
    assert (forall fuel, F <= fuel -> forall lls', incl lls' lls -> exists outs, Forall2 (answer_line lc ses fmt m ts p) (queries lls') outs /\
      pall (map (process fmt (with_rules m [] []) lexm (p_freq_weight p) (lk fuel) false) lls') = Printed (concat outs) None) as G.
    { intros fuel Hfu. induction lls' as [|ls lls' IH]; intros Hin; [exists []; split; [constructor|done]|].
      destruct IH as (outs & Fo & Eo); [by intros x ?; apply Hin; right|].
      destruct (process_tsv fmt (with_rules m [] []) lexm (p_freq_weight p) (wl_files _ L) (lk fuel) ls 0) as (outs1 & F1 & E1).
      { intros q Hq. destruct (HF fuel Hfu q) as (l & Hl & El); [eapply queries_elem; [|exact Hq]; apply elem_of_list_In, Hin; by left|].
        exists l. split; [done|]. exact (an_inside _ _ _ _ _ _ _ Hl). }
      exists (outs1 ++ outs). split.
      - unfold queries. cbn [concat]. rewrite omap_app. apply Forall2_app; [|exact Fo].
        assert (forall q, q ∈ omap (fun l => l) ls -> q ∈ queries lls) as Hq.
        { intros q Hq%elem_of_list_omap. destruct Hq as (x & Hx & ->). eapply queries_elem; [|exact Hx]. apply elem_of_list_In, Hin. by left. }
        clear -F1 HF Hfu Hq W. induction F1 as [|q out qs outs H _ IH]; constructor.
        + destruct (HF fuel Hfu q) as (l & Hl & El); [apply Hq; by left|]. eapply tsv_answer; [exact Hl|exact El|exact H].
        + apply IH. intros q' Hq'. apply Hq. by right.
      - cbn [map pall]. rewrite Eo. unfold process. rewrite E1. unfold pthen. cbn [p_stop p_out]. by rewrite concat_app. }
    destruct (G F (le_n F) lls (incl_refl lls)) as (outs & Fo & _). exists outs. split; [done|].
    assert (forall outs', Forall2 (answer_line lc ses fmt m ts p) (queries lls) outs' -> outs' = outs) as U.
    { assert (forall q, q ∈ queries lls -> exists l, answers lc ses m m' p q l) as HA.
      { intros q Hq. destruct (HF F (le_n F) q Hq) as (l & Hl & _). eauto. }
      clear -Fo HA W. induction Fo as [|q out qs outs H _ IH]; intros outs' F'; inversion F' as [|? out' ? outs2 H' F2]; subst; [done|].
      f_equal; [|apply IH; [|done]; intros q' Hq'; apply HA; by right]. destruct (HA q) as (l & Hl); [by left|]. by eapply answer_line_det. }
    split; [done|]. exists F. intros fuel Hfu. destruct (G fuel Hfu lls (incl_refl lls)) as (outs' & Fo' & Eo). rewrite (U _ Fo') in Eo.
    rewrite Run.
    - unfold whole_output. rewrite Eo. unfold pthen, of_printed. cbn [p_stop p_out put]. by rewrite app_nil_r.
    - assert (Forall (fun x => p_stop x = None) (map (process fmt (with_rules m [] []) lexm (p_freq_weight p) (lk fuel) false) lls)) as Fs.
      { eapply P_CliOut.pall_out. by rewrite Eo. }
      intros ls Hls. rewrite Forall_forall in Fs. apply Fs. by apply elem_of_list_fmap_1.
  Qed.

  Lemma results_says_det b l ja jb : Forall2 (result_says fmt (final_score (p_freq_weight p)) b m) l ja ->
    Forall2 (result_says fmt (final_score (p_freq_weight p)) b m) l jb -> jb = ja.
  Proof.
    intros F. revert jb. induction F as [|r j l ja (v & Hv & ->) _ IH]; intros jb F'; inversion F' as [|? j' ? jb2 (v' & Hv' & ->) F2]; subst; [done|].
    rewrite Hv in Hv'. injection Hv' as <-. f_equal. by apply IH.
  Qed.
  Lemma first_det {X} (l a b : list X) : selected_first (Some 0) l a -> selected_first (Some 0) l b -> b = a.
  Proof.
    assert (forall c, selected_first (Some 0) l c -> c = l) as H.
    { intros c H. inversion H as [pre x post E1 E2|? ? Hle|]; subst; [|done]. apply nil_length_inv in E1. by subst pre. }
    intros H1 H2. by rewrite (H _ H1), (H _ H2).
  Qed.
  Lemma answer_value_det m' q j j' l : answers lc ses m m' p q l ->
    answer_value lc ses fmt m ts p q j -> answer_value lc ses fmt m ts p q j' -> j' = j.
  Proof using W.
    intros An (ks & l1 & b & R1 & L1 & B1 & os1 & ts1 & ms1 & O1 & T1 & V1 & ->) (ks' & l2 & b' & R2 & L2 & B2 & os2 & ts2 & ms2 & O2 & T2 & V2 & ->).
    rewrite (lexmatch_det _ B1), (lexmatch_det _ B2) in *. rewrite (an_unique _ _ _ _ _ _ _ An _ _ R1 L1), (an_unique _ _ _ _ _ _ _ An _ _ R2 L2) in *.
    inversion O1; subst. inversion O2; subst. inversion T1; subst; [|done]. inversion T2; subst; [|done]. inversion V1 as [|? ? rs1 j1 S1 F1]; subst. inversion V2 as [|? ? rs2 j2 S2 F2]; subst.
    rewrite (first_det _ _ _ S1 S2) in *. by rewrite (results_says_det _ _ _ _ F1 F2).
  Qed.
  Lemma json_answer m' lk q j l : answers lc ses m m' p q l -> lk q = Ok l ->
    (exists vs, lk q = Ok vs /\ match_says fmt (vr_score (p_freq_weight p)) lexm (with_rules m [] []) q (Some vs) (Some 0) None [] [] j) ->
    answer_value lc ses fmt m ts p q j.
  Proof using W.
    intros An E (l' & E' & (os & tg & ms & O1 & T1 & V1 & ->)). rewrite E in E'. injection E' as <-. destruct (an_spec _ _ _ _ _ _ _ An) as (ks & R & Lk).
    exists ks, l, lexm. split; [done|]. split; [done|]. split; [apply lexmatch_is|].
    inversion T1; subst; [|done]. inversion V1 as [|? ? rs j1 S1 F1]; subst. eexists _, _, _. split; [done|]. split; [constructor|]. split; [|done].
    econstructor; [exact S1|]. eapply Forall2_impl; [exact F1|]. intros r j (v & Hv & ->). exists v. split; [done|]. by rewrite (an_score _ _ _ _ _ _ _ An).
  Qed.

  Lemma fval_finite x r : P_Score.dv x r -> finite x.
  Proof. intros (_ & Hf & _). by destruct x. Qed.
  Lemma answers_showable m' q l : Forall (fun v => clean (vv_text v)) (m_decoder m) -> weight_single (p_freq_weight p) -> answers lc ses m m' p q l ->
    Forall (showable (vr_score (p_freq_weight p)) (with_rules m [] [])) l.
  Proof.
    intros Ht Hw An. eapply Forall_impl; [exact (an_ok _ _ _ _ _ _ _ An)|]. intros r Hok. pose proof Hok as [Hd Hf]. split.
    - destruct (P_Rank.vr_score_number _ _ Hw Hok) as (x & Hx & _). by eapply fval_finite.
    - apply P_Rank.modest_dv in Hd as (x & Hx & _). by eapply fval_finite.
    - apply P_Rank.unit_dv in Hf as (x & Hx & _). by eapply fval_finite.
    - intros v Hv. eapply Forall_lookup_1 in Ht; [exact Ht|exact Hv].
    - intros i v _ Hv. eapply Forall_lookup_1 in Ht; [exact Ht|exact Hv].
  Qed.

  Lemma run_json : flag_typed ts "json" -> length lls = 1 -> clean_texts m lls -> (forall x, finite x -> number (fmt x)) ->
    exists js, Forall2 (answer_value lc ses fmt m ts p) (queries lls) js /\
    (forall js', Forall2 (answer_value lc ses fmt m ts p) (queries lls) js' -> js' = js) /\
    exists F, forall fuel, F <= fuel -> exists out, prog fuel = Outcome out Ended /\ says out (JArr js).
  Proof using W A C L Ho Ho' Ho''.
    intros Hj%(json_is true) Hone [Ct1 Ct2 Ct3] Hfmt. destruct whole_run as (m' & SC & An & lk & Fi & Run). rewrite Hj in Run.
    destruct (all_found m' lk (queries lls) An Fi (as_lines _ _ _ _ _ _ _ _ A)) as (F & HF).
    destruct lls as [|ls [|]] eqn:El; try done. set (lls' := lls) in *. rewrite <- El in *. subst lls'.
    assert (queries lls = omap (fun l => l) ls) as EQ by (rewrite El; unfold queries; cbn [concat]; by rewrite app_nil_r).
    assert (forall q, Some q ∈ ls -> q ∈ queries lls) as Hin by (intros q Hq; eapply queries_elem; [rewrite El; by left|done]).
    assert (forall fuel, F <= fuel -> exists js out, Forall2 (answer_value lc ses fmt m ts p) (queries lls) js /\ prog fuel = Outcome out Ended /\ says out (JArr js)) as G.
    { intros fuel Hfu.
      assert (p_stop (process fmt (with_rules m [] []) lexm (p_freq_weight p) (lk fuel) true ls) = None) as Hst.
      { unfold process. apply process_json; [exact (wl_files _ L)|]. intros q Hq. destruct (HF fuel Hfu q (Hin q Hq)) as (l & Hl & E).
        exists l. split; [done|]. exact (an_inside _ _ _ _ _ _ _ Hl). }
      destruct (P_CliOut.query_says fmt (with_rules m [] []) lexm (p_freq_weight p) (lk fuel) ls Hfmt) as (js & Hs & Fj); [..|done|].
      - split; [done|pose proof (wl_files _ L); cbn; lia|constructor].
      - intros q vs Hq E. destruct (HF fuel Hfu q (Hin q Hq)) as (l & Hl & E'). rewrite E in E'. injection E' as <-. split.
        + rewrite Forall_forall in Ct3. by apply Ct3, Hin.
        + eapply answers_showable; [done|exact (as_weight _ _ _ _ _ _ _ _ A)|exact Hl].
      - exists js, (p_out (whole_output true [process fmt (with_rules m [] []) lexm (p_freq_weight p) (lk fuel) true ls])). split; [|split; [|done]].
        + rewrite EQ. assert (forall q, q ∈ omap (fun l => l) ls -> q ∈ queries lls) as Hq by (rewrite EQ; done).
          clear -Fj HF Hfu Hq W. revert js Fj Hq. change (@omap list _ _ _ (@Datatypes.id (option str)) ls) with (omap (fun l : option str => l) ls).
          induction (omap (fun l : option str => l) ls) as [|q qs IH]; intros js Fj Hq; inversion Fj as [|? j ? js2 H F2]; subst; constructor.
          * destruct (HF fuel Hfu q) as (l & Hl & El); [apply Hq; by left|]. eapply json_answer; [exact Hl|exact El|exact H].
          * apply IH; [done|]. intros q' Hq'. apply Hq. by right.
        + rewrite Run; [|rewrite El; intros ls' ->%elem_of_list_singleton; done]. rewrite El. cbn [map]. unfold of_printed. f_equal.
          unfold whole_output. cbn [pall]. rewrite P_Cli.pthen_nil_r. unfold pthen. cbn [p_stop put]. rewrite Hst. done. }
    destruct (G F (le_n F)) as (js & out & Fj & _). exists js. split; [done|].
    assert (forall js', Forall2 (answer_value lc ses fmt m ts p) (queries lls) js' -> js' = js) as U.
    { assert (forall q, q ∈ queries lls -> exists l, answers lc ses m m' p q l) as HA.
      { intros q Hq. destruct (HF F (le_n F) q Hq) as (l & Hl & _). eauto. }
      clear -Fj HA W. revert js Fj HA. induction (queries lls) as [|q qs IH]; intros js Fj HA js' F'; inversion F' as [|? j' ? js2 H' F2]; inversion Fj as [|? j ? js3 Hj3 F3]; subst; [done|].
      f_equal; [|eapply IH; [exact F3| |exact F2]; intros q' Hq'; apply HA; by right]. destruct (HA q) as (l & Hl); [by left|]. by eapply answer_value_det. }
    split; [done|]. exists F. intros fuel Hfu. destruct (G fuel Hfu) as (js' & out' & Fj' & Eo & So). rewrite (U _ Fj') in So. eauto.
  Qed.
End query.
