(** Property C93: the output of learn mode as a variant list. *)
From Coq Require String Ascii.
From Verif Require Import M_Base M_Utf8 M_Anahash M_Iter M_Distance M_Float M_Types M_Model M_Confusable M_ConfList M_Rules M_Search M_Text M_Values.
From Verif Require Import M_Matches M_Learn M_Cli M_Main M_Options M_Program.
From Verif Require Import S_Anahash S_Distance S_Text S_Model S_Search S_Lookup S_Values S_Rules S_Matches S_Learn S_Cli S_Main S_Options S_Program S_LearnRun.
From Verif Require Import P_Base.
From Verif Require C_Anahash P_Vocab P_Values P_CliOut P_Files C_Find C_Matches C_Options C_Program C_Model C_Main C_Learn C_LearnRun P_Solver.
Import String.StringSyntax Ascii.AsciiSyntax.
From stdpp Require Import options.

(** The lines of a variant list that give the variants of [m] back: those of the
    entries that have variants, with texts and scores, without frequencies. *)
Definition gives_back (m : model) (v : vocab_value) (e : list_line) : Prop :=
  ll_reference e = vv_text v /\ ll_freq e = None /\
  Forall2 (fun x y => exists w, m_decoder m !! x.1 = Some w /\ y = (vv_text w, x.2, None)) (linked (default [] (vv_variants v))) (ll_variants e).

Lemma fields_joined cs : cs <> [] -> Forall (fun c => 9%N ∉ c) cs -> fields_of 9 (S_Cli.joined 9 cs) cs.
Proof.
  intros Hne H. induction H as [|c cs Hc H IH]; [done|]. destruct cs as [|d cs]; [by constructor|].
  change (S_Cli.joined 9 (c :: d :: cs)) with (c ++ 9%N :: S_Cli.joined 9 (d :: cs)). apply fields_next; [done|by apply IH].
Qed.

Section reload.
  Context (pf : str -> option f64) (fmt : f64 -> str) (m : model).
  Context (Htab : Forall (fun v => 9%N ∉ vv_text v) (m_decoder m)).
  Context (Hfmt : forall v y s, v ∈ m_decoder m -> (y, s) ∈ linked (default [] (vv_variants v)) -> 9%N ∉ fmt s /\ pf (fmt s) = Some s).
  Context (Hnum : forall v y s rest w n, v ∈ m_decoder m -> linked (default [] (vv_variants v)) = (y, s) :: rest -> m_decoder m !! y = Some w ->
    ~ S_Model.decimal 4294967295 (vv_text w) n).
  #[local] Set Default Proof Using "All".

  Lemma line_back v line : v ∈ m_decoder m -> has_reference v -> learned_line fmt m v line ->
    line <> [] /\ (exists e, line_says pf false line e /\ gives_back m v e) /\ (undecided line \/ decides false line).
  Proof.
    intros Hv Hr (cells & -> & Hc).
    assert (exists y s rest, linked (default [] (vv_variants v)) = (y, s) :: rest) as (y & s & rest & El).
    { destruct Hr as (i & s & Hr). assert ((i, s) ∈ linked (default [] (vv_variants v))) as H.
      { clear - Hr. induction (default [] (vv_variants v)) as [|[j t|j t] l IH]; [by apply elem_of_nil in Hr| |]; apply elem_of_cons in Hr as [Hr|Hr]; cbn [linked].
        - injection Hr as -> ->. left.
        - right. by apply IH.
        - done.
        - by apply IH. }
      destruct (linked _) as [|[y t] rest]; [by apply elem_of_nil in H|]. by exists y, t, rest. }
    assert (Forall (fun c => 9%N ∉ c) (vv_text v :: concat cells)) as Hf.
    { constructor. { rewrite Forall_forall in Htab. by apply Htab. }
      apply Forall_concat. assert (forall x, x ∈ linked (default [] (vv_variants v)) -> 9%N ∉ fmt x.2) as H by (intros [i t] Hx; by apply (Hfmt v i t)).
      clear - Hc H Htab. induction Hc as [|x cs l cells (w & D & ->) Hc IH]; [constructor|]. constructor.
      - constructor; [rewrite Forall_forall in Htab; apply Htab; by eapply elem_of_list_lookup_2|]. constructor; [apply H; left|constructor].
      - apply IH. intros z Hz. apply H. by right. }
    pose proof (fields_joined (vv_text v :: concat cells) ltac:(done) Hf) as F. split; [|split].
    - intros E. rewrite El in Hc. inversion Hc as [|? cs ? cells' (w & _ & ->) _]; subst. cbn in E. destruct (vv_text v); done.
    - assert (exists gs, groups2 pf (concat cells) gs /\ Forall2 (fun x y => exists w, m_decoder m !! x.1 = Some w /\ y = (vv_text w, x.2, None)) (linked (default [] (vv_variants v))) gs) as (gs & G & B).
      { assert (forall x, x ∈ linked (default [] (vv_variants v)) -> pf (fmt x.2) = Some x.2) as H by (intros [i t] Hx; by apply (Hfmt v i t)).
        clear - Hc H. induction Hc as [|x cs l cells (w & D & ->) Hc IH]; [exists []; split; constructor; cbn; lia|].
        destruct IH as (gs & G & B); [intros z Hz; apply H; by right|]. exists ((vv_text w, x.2, None) :: gs). split.
        - cbn [concat app]. apply groups2_next; [apply H; left|done].
        - constructor; [by exists w|done]. }
      exists (ListLine (vv_text v) None gs). split; [by eapply line_nofreq|]. done.
    - rewrite El in Hc. inversion Hc as [|? cs ? cells' (w & D & ->) Hc']; subst. cbn [concat app] in F |- *.
      destruct (decide (Nat.modulo (length (fmt (y, s).2 :: concat cells')) 3 = 0)) as [E|E].
      + left. exists (vv_text w). split; [|intros n; by eapply Hnum]. apply Nat.mod_divides in E as [k E]; [|done]. by exists (vv_text v), (fmt s :: concat cells'), k.
      + right. by exists (vv_text v), (vv_text w), (fmt s :: concat cells').
  Qed.
  Lemma lines_back vs lines : Forall (fun v => v ∈ m_decoder m /\ has_reference v) vs -> Forall2 (learned_line fmt m) vs lines ->
    exists es, list_says pf lines es /\ Forall2 (gives_back m) vs es.
  Proof.
    intros Hvs H.
    assert (exists es, filter (fun l => l <> []) lines = lines /\ Forall2 (line_says pf false) lines es /\ Forall2 (gives_back m) vs es /\
      exists pre post, lines = pre ++ post /\ Forall undecided pre /\ forall l rest, post = l :: rest -> decides false l) as (es & E & L & B & pre & post & -> & Hu & Hd).
    { induction H as [|v line vs lines Hl H IH].
      { exists []. split; [done|]. split; [constructor|]. split; [constructor|]. exists [], []. split; [done|]. split; [constructor|]. by intros. }
      inversion Hvs as [|? ? [Hv Hr] Hvs']; subst. destruct (IH Hvs') as (es & E & L & B & pre & post & -> & Hu & Hd).
      destruct (line_back v line Hv Hr Hl) as (Hne & (e & Le & Be) & Hdec). exists (e :: es). split; [by rewrite filter_cons_True, E|].
      split; [by constructor|]. split; [by constructor|]. destruct Hdec as [Hx|Hx].
      - exists (line :: pre), post. split; [done|]. split; [by constructor|done].
      - exists [], (line :: pre ++ post). split; [done|]. split; [constructor|]. by intros l rest [= <- _]. }
    exists es. split; [|done]. apply Forall2_app_inv_l in L as (es1 & es2 & L1 & L2 & ->). by exists pre, post, false, es1, es2.
  Qed.
End reload.

(** ** C93 *)
Lemma selects_in {A} (P : A -> Prop) l l' : selects P l l' -> Forall (fun x => x ∈ l /\ P x) l'.
Proof.
  induction 1 as [|x l l' H S IH|x l l' H S IH]; [constructor| |].
  - constructor; [split; [left|done]|]. eapply Forall_impl; [exact IH|]. cbn. intros y [? ?]. split; [by right|done].
  - eapply Forall_impl; [exact IH|]. cbn. intros y [? ?]. split; [by right|done].
Qed.
(** If no text has a tab, scores are read as they are written, and the first
    variant of no entry is a number, the printed lines are a variant list that
    gives exactly the variants back. *)
Theorem C93_reload : forall pf fmt m lines,
  Forall (fun v => 9%N ∉ vv_text v) (m_decoder m) ->
  (forall v y s, v ∈ m_decoder m -> (y, s) ∈ linked (default [] (vv_variants v)) -> 9%N ∉ fmt s /\ pf (fmt s) = Some s) ->
  (forall v y s rest w n, v ∈ m_decoder m -> linked (default [] (vv_variants v)) = (y, s) :: rest -> m_decoder m !! y = Some w ->
    ~ S_Model.decimal 4294967295 (vv_text w) n) ->
  learned_lines fmt m lines ->
  exists vs es, selects has_reference (m_decoder m) vs /\ list_says pf lines es /\ Forall2 (gives_back m) vs es /\
    forall es', list_says pf lines es' -> es' = es.
Proof.
  intros pf fmt m lines H1 H2 H3 (vs & S & L). destruct (lines_back pf fmt m H1 H2 H3 vs lines (selects_in _ _ _ S) L) as (es & E & B).
  exists vs, es. split; [done|]. split; [done|]. split; [done|]. intros es' E'. exact (P_Files.list_says_det pf lines es' es E' E).
Qed.
Print Assumptions C93_reload.

(** Read into a model with the entries of lexicons, after which it is as if the
    variants had been declared: every variant is searchable, and refers to the
    entry it was learned for with the score it was learned with. *)
Theorem C93_loaded : forall pf fmt m lines A w l0 m0 name m',
  Forall (fun v => 9%N ∉ vv_text v) (m_decoder m) ->
  (forall v y s, v ∈ m_decoder m -> (y, s) ∈ linked (default [] (vv_variants v)) -> 9%N ∉ fmt s /\ pf (fmt s) = Some s) ->
  (forall v y s rest w n, v ∈ m_decoder m -> linked (default [] (vv_variants v)) = (y, s) :: rest -> m_decoder m !! y = Some w ->
    ~ S_Model.decimal 4294967295 (vv_text w) n) ->
  learned_lines fmt m lines ->
  run_adds (new_with_alphabet A w) l0 = Ok m0 -> Forall (fun a => flag (declared_type a) searchable_bit = true) l0 ->
  read_variants pf m0 name lines None false = Ok m' ->
  forall v y s u, v ∈ m_decoder m -> (y, s) ∈ linked (default [] (vv_variants v)) -> m_decoder m !! y = Some u -> vv_text u <> vv_text v -> ~ special_text (vv_text u) ->
  exists i j x, m_encoder m' !! vv_text v = Some i /\ m_encoder m' !! vv_text u = Some j /\ indexed m' j x /\ vv_text x = vv_text u /\ (i, s) ∈ stored_references x.
Proof.
  intros pf fmt m lines A w l0 m0 name m' H1 H2 H3 Hl R0 T0 Rd v y s u Hv Hy Du Hne Hsp.
  destruct (C93_reload pf fmt m lines H1 H2 H3 Hl) as (vs & es & Sel & Ls & B & Un). pose proof (P_Vocab.history_run _ _ _ _ R0) as Hh0.
  destruct (C_Main.C69_list_reads pf m0 name lines None false m' (P_Vocab.hi_inv _ _ Hh0) Rd) as (es' & r & L & Ls' & Rr & Lb & Ee & Ed & _).
  rewrite (Un _ Ls') in *. clear Un Ls' es'. set (adds := concat _) in Rr.
  assert (run_adds (new_with_alphabet A w) (l0 ++ adds) = Ok r) as R by (rewrite P_Vocab.run_adds_app, R0; exact Rr).
  pose proof (P_Vocab.history_run _ _ _ _ R) as Hh.
  assert (v ∈ vs) as Hvs.
  { assert (has_reference v) as Hr. { clear - Hy. exists y, s. induction (default [] (vv_variants v)) as [|[j t|j t] l IH]; cbn [linked] in Hy; [by apply elem_of_nil in Hy| |].
      - apply elem_of_cons in Hy as [[= -> ->]|Hy]; [left|]. right. by apply IH.
      - right. by apply IH. }
    clear - Hv Hr Sel. induction Sel as [|x l l' Hx S IH|x l l' Hx S IH]; [done| |]; apply elem_of_cons in Hv as [->|Hv]; [left|right; by apply IH|done|by apply IH]. }
  apply elem_of_list_lookup in Hvs as [k Hk]. destruct (Forall2_lookup_l _ _ _ _ _ B Hk) as (e & He & Er & _ & Bv).
  apply elem_of_list_lookup in Hy as [k2 Hk2]. destruct (Forall2_lookup_l _ _ _ _ _ Bv Hk2) as (g & Hg & u' & Du' & ->). cbn [fst] in Du'. rewrite Du in Du'. injection Du' as <-.
  apply elem_of_list_lookup_2 in He, Hg.
  assert ((vv_text v, vv_text u, s) ∈ concat (map line_links es)) as Hlink.
  { apply elem_of_list_In, in_concat. exists (line_links e). split; [apply in_map, elem_of_list_In, He|]. apply elem_of_list_In. unfold line_links. rewrite Er.
    apply elem_of_list_fmap. by exists (vv_text u, s, None). }
  apply elem_of_list_lookup in Hlink as [k3 Hk3]. destruct (Forall2_lookup_l _ _ _ _ _ Lb Hk3) as ([[i j] s'] & HL & Ei & Ej & Es). cbn [fst snd] in Ei, Ej, Es. subst s'.
  apply elem_of_list_lookup_2 in HL.
  pose proof (proj1 (P_Vocab.hi_inv _ _ Hh _ _) Ej) as (x & Dx & Tx).
  assert (i <> j) as Hij. { intros ->. pose proof (proj1 (P_Vocab.hi_inv _ _ Hh _ _) Ei) as (x' & Dx' & Tx'). congruence. }
  assert (forall id v, m_decoder r !! id = Some v -> vv_variants v = None) as H0.
  { intros id z D. assert (m_encoder r !! vv_text z = Some id) as E by (apply (P_Vocab.hi_inv _ _ Hh); eauto).
    destruct (P_Vocab.hi_entry _ _ Hh (vv_text z) z) as []; [by exists id|done]. }
  destruct (C_Model.C36_links_stored r L H0 j x Dx) as (x' & Dx' & _ & Rx & Ex).
  exists i, j, x'. rewrite Ee. split; [done|]. split; [done|]. split; [split; [by rewrite Ed|]|].
  - assert (vv_type x' = vv_type x) as -> by (rewrite Ex; reflexivity).
    destruct (C_Model.C33_flags A w _ r _ _ R (ex_intro _ j (conj Ej Dx)) Hsp) as (a & rest & Ea & Fs & _). rewrite Fs.
    assert (a ∈ about (vv_text u) (l0 ++ adds)) as Ha by (rewrite Ea; left). apply elem_of_list_filter in Ha as [_ Ha]. apply elem_of_app in Ha as [Ha|Ha].
    { rewrite Forall_forall in T0. by apply T0. }
    unfold adds in Ha. apply elem_of_list_In, in_concat in Ha as (la & Hla & Ha). apply in_map_iff in Hla as (e' & <- & _). apply elem_of_list_In in Ha.
    unfold line_additions in Ha. apply elem_of_cons in Ha as [->|Ha]; [by vm_compute|]. apply elem_of_list_fmap in Ha as (z & -> & _). by vm_compute.
  - split; [rewrite Ex; exact Tx|]. rewrite Rx. unfold declared_references. apply elem_of_list_fmap. exists (i, j, s). split; [done|].
    apply elem_of_list_filter. done.
Qed.
Print Assumptions C93_loaded.

(** The lexicon has "7777", the input "777" and "77777".  What is printed cannot
    be loaded again: the first variant is taken for a frequency. *)
#[local] Notation row := C_Program.row.
#[local] Arguments C_Program.row s%string_scope.
Definition nnum (s : str) : option f64 := if bool_decide (s = lit "1.0") then Some f1 else if bool_decide (s = lit "77777") then Some f2 else C_Options.exnum s.
Definition nfs (n : str) : option (list (option str)) :=
  if bool_decide (n = lit "a.tsv") then Some [row "7"; row "8"]
  else if bool_decide (n = lit "l.tsv") then Some [row "7777"]
  else if bool_decide (n = lit "v.tsv") then Some [row "7777	777	1.0	77777	1.0"]
  else if bool_decide (n = lit "in.txt") then Some [row "777"; row "77777"]
  else None.
Definition nts (variants : bool) : list typed := [C_Options.opt "alphabet" "a.tsv"; C_Options.opt "lexicon" "l.tsv";
  C_Options.flg "strict"; TFile (lit "in.txt")] ++
  if variants then [C_Options.opt "variants" "v.tsv"] else [].
Definition nrun (variants : bool) : outcome := program nnum C_Options.exnum32 (fun _ => lit "1.0") C_Matches.space C_Find.lower C_Find.lower C_Matches.step_ln32 C_Matches.step_ln
  (fun _ => None) C_Find.script (P_Solver.some_solver Datatypes.id) Datatypes.id Datatypes.id Datatypes.id nfs [] 1000 (Invocation None (Some Learn) (nts variants)).
Theorem C93_refuted : nrun false = Outcome (lit "7777	777	1.0	77777	1.0
") Ended /\ nfs (lit "v.tsv") = Some [row "7777	777	1.0	77777	1.0"] /\ exists p, nrun true = Outcome [] (Panicked p).
Proof. split; [by vm_compute|]. split; [by vm_compute|]. eexists. by vm_compute. Qed.
Print Assumptions C93_refuted.

(** "bbab" learned for "baab", as in [C38_exact_match_refuted], loaded again. *)
Definition exscore : f64 := S754_finite false 5404319552844595 (-53).
Definition expf (s : str) : option f64 := if bool_decide (s = lit "0.6") then Some exscore else None.
Definition exlist : list str := [lit "baab	bbab	0.6"].
Definition exlex : list addition := [(lit "baab", None, vocab_params_default)].
Lemma exlinked v y s rest : v ∈ m_decoder C_Learn.exLearned -> linked (default [] (vv_variants v)) = (y, s) :: rest -> y = 6 /\ s = exscore /\ rest = [].
Proof.
  intros Hv. assert (Forall (fun v => linked (default [] (vv_variants v)) = [] \/ linked (default [] (vv_variants v)) = [(6, exscore)]) (m_decoder C_Learn.exLearned)) as H.
  { vm_compute. repeat constructor; (left; reflexivity) || (right; reflexivity). }
  rewrite Forall_forall in H. destruct (H v Hv) as [-> | ->]; [done|]. by intros [= <- <- <-].
Qed.
Example C93_ex :
  Forall (fun v => 9%N ∉ vv_text v) (m_decoder C_Learn.exLearned) /\
  (forall v y s, v ∈ m_decoder C_Learn.exLearned -> (y, s) ∈ linked (default [] (vv_variants v)) -> 9%N ∉ lit "0.6" /\ expf (lit "0.6") = Some s) /\
  (forall v y s rest w n, v ∈ m_decoder C_Learn.exLearned -> linked (default [] (vv_variants v)) = (y, s) :: rest -> m_decoder C_Learn.exLearned !! y = Some w ->
    ~ S_Model.decimal 4294967295 (vv_text w) n) /\
  learned_lines (fun _ => lit "0.6") C_Learn.exLearned exlist /\
  (exists m0 m', run_adds (new_with_alphabet C_Anahash.exA C_Model.w1) exlex = Ok m0 /\ read_variants expf m0 (lit "v.tsv") exlist None false = Ok m' /\
    map (fun v => map fst (stored_references v)) (m_decoder m') = [[]; []; []; []; [3]]).
Proof.
  split. { apply (bool_decide_unpack _). by vm_compute. }
  split. { intros v y s Hv Hy. split; [apply (bool_decide_unpack _); by vm_compute|]. destruct (linked (default [] (vv_variants v))) as [|[y' s'] rest] eqn:E; [by apply elem_of_nil in Hy|].
    destruct (exlinked _ _ _ _ Hv E) as (-> & -> & ->). apply elem_of_list_singleton in Hy. injection Hy as _ ->. by vm_compute. }
  split. { intros v y s rest w n Hv E D. destruct (exlinked _ _ _ _ Hv E) as (-> & _ & _). assert (vv_text w = lit "bbab") as ->.
    { assert (option_map vv_text (m_decoder C_Learn.exLearned !! 6) = Some (lit "bbab")) as H by (by vm_compute). rewrite D in H. by injection H. }
    intros (ds & [<-|E2] & _ & H & _); [|discriminate E2]. apply Forall_inv in H. destruct H as [_ H]. vm_compute in H. by apply H. }
  split.
  - assert (exists v1 v2 v3 v4 v5 v6 v7, m_decoder C_Learn.exLearned = [v1; v2; v3; v4; v5; v6; v7] /\ vv_variants v1 = None /\ vv_variants v2 = None /\ vv_variants v3 = None /\
      vv_variants v4 = None /\ vv_variants v5 = None /\ vv_variants v6 = Some [ReferenceFor 6 exscore] /\ vv_variants v7 = Some [VariantOf 5 exscore] /\
      vv_text v6 = lit "baab" /\ vv_text v7 = lit "bbab") as (v1 & v2 & v3 & v4 & v5 & v6 & v7 & E & E1 & E2 & E3 & E4 & E5 & E6 & E7 & T6 & T7).
    { do 7 eexists. vm_compute. split; [reflexivity|]. cbn. split_and!; reflexivity. }
    assert (forall v, vv_variants v = None -> ~ has_reference v) as Hn. { intros v Ev (i & s & H). rewrite Ev in H. by apply elem_of_nil in H. }
    exists [v6]. split.
    + rewrite E. do 5 (apply selects_skip; [by apply Hn|]). apply selects_keep. { exists 6, exscore. rewrite E6. left. }
      apply selects_skip; [|constructor]. intros (i & s & H). rewrite E7 in H. apply elem_of_list_singleton in H. discriminate H.
    + constructor; [|constructor]. exists [[lit "bbab"; lit "0.6"]]. rewrite E6, T6. split; [reflexivity|]. constructor; [|constructor]. exists v7. rewrite E, T7. by split.
  - destruct (run_adds (new_with_alphabet C_Anahash.exA C_Model.w1) exlex) as [m0|] eqn:E; [|by vm_compute in E]. exists m0.
    destruct (read_variants expf m0 (lit "v.tsv") exlist None false) as [m'|] eqn:E'.
    + exists m'. split; [done|]. split; [done|]. vm_compute in E. injection E as <-. vm_compute in E'. injection E' as <-. by vm_compute.
    + exfalso. vm_compute in E. injection E as <-. by vm_compute in E'.
Qed.
