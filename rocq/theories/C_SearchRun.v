(** Property C80: the command line tool in search mode, from the command line
    to the output. *)
From Coq Require String Ascii.
From Verif Require Import M_Base M_Anahash M_Iter M_Distance M_Float M_Types M_Model M_Confusable M_ConfList M_Rules M_Search M_Text M_Values.
From Verif Require Import M_Matches M_Learn M_Cli M_Main M_Options M_Program.
From Verif Require Import S_Anahash S_Distance S_Text S_Model S_Search S_Lookup S_Values S_Rules S_Matches S_Cli S_Main S_Options S_SearchAll S_Program S_SearchRun.
From Verif Require Import P_Base P_Options P_Start P_Query P_SearchRun.
From Verif Require C_Find C_Options C_Program C_Matches P_Solver.
Import String.StringSyntax Ascii.AsciiSyntax.
From stdpp Require Import options.

(** ** C80 *)
(** The input is cut into texts in one way. *)
Theorem C80_texts : forall newline_as_space per_line n lines ts, 0 < n ->
  M_Cli.texts newline_as_space per_line n lines = Some ts <-> texts_say per_line (if newline_as_space then 32%N else 10%N) n lines ts.
Proof. intros sp pl n lines ts Hn. symmetry. by apply texts_iff. Qed.
Print Assumptions C80_texts.
(** The language model loaded is what the entries say. *)
Theorem C80_counts pf pf32 ws ps o o' fs c ts m :
  well_typed c ts -> some_order o' -> (forall ss, sources_typed fs ts ss -> length ss <= 256) ->
  loaded_model pf pf32 ws ps o o' fs c ts = Ok m -> Forall (fun v => count_spaces (vv_text v) < 255) (m_decoder m) -> counts_say m.
Proof. intros W. exact (loaded_counts pf pf32 ws ps o o' fs c ts W m). Qed.
Print Assumptions C80_counts.
Theorem C80_counts_unique : forall m m', same_contents m m' -> counts_say m -> counts_say m' -> m_ngrams m' = m_ngrams m /\ m_have_lm m' = m_have_lm m.
Proof. exact counts_unique. Qed.
Print Assumptions C80_counts_unique.

Section search.
  Context (pf : str -> option f64) (pf32 : str -> option f32) (fmt : f64 -> str) (ws lc alpha : N -> bool) (ln32 : f32 -> f32) (ln : f64 -> f64).
  Context (ps : str -> option (list edit_instruction)) (ses : str -> str -> list edit_instruction) (solve : fst_graph -> nat -> list (list nat * f32)).
  Context (o : list (N * node) -> list (N * node)) (o' : list (str * vocab_id) -> list (str * vocab_id)) (o'' : list (nat * list N) -> list (nat * list N)).
  Context (fs : str -> option (list (option str))) (stdin : list (option str)) (debug : option str) (ts : list typed).
  (** the run with [fuel] steps for every lookup *)
  #[local] Notation runs fuel := (program pf pf32 fmt ws lc alpha ln32 ln ps ses solve o o' o'' fs stdin fuel (Invocation debug (Some Search) ts)).

  (** Tab separated output: for every file the lines of the matches of its texts. *)
  Theorem C80_search_tsv P lls m :
    well_typed Search ts -> search_asked pf pf32 alpha fs stdin debug ts P lls -> contents_say ws pf pf32 ps fs Search ts m -> within_limits m ->
    counts_say m -> Forall rule_ok (m_context_rules m) -> solver_sound solve -> solver_complete solve -> alpha 32%N = false ->
    some_order o -> some_order o' -> some_order o'' -> ~ flag_typed ts "json" ->
    exists outs, Forall2 (file_output lc ses ln32 ln ws alpha solve fmt m ts (tp_search P)) lls outs /\
      (forall outs', Forall2 (file_output lc ses ln32 ln ws alpha solve fmt m ts (tp_search P)) lls outs' -> outs' = outs) /\
      exists F, forall fuel, F <= fuel -> runs fuel = Outcome (concat outs) Ended.
  Proof.
    intros W A C L K R Hs Hc Hsp Ho Ho' Ho'' Hj.
    exact (search_tsv pf pf32 fmt ws lc alpha ln32 ln ps ses solve o o' o'' fs ts W debug P stdin lls A m C L K R Hs Hc Hsp Ho Ho' Ho'' Hj).
  Qed.
  (** JSON, for one file of texts that need no escapes: an array of the matches. *)
  Theorem C80_search_json P ls m :
    well_typed Search ts -> search_asked pf pf32 alpha fs stdin debug ts P [ls] -> contents_say ws pf pf32 ps fs Search ts m -> within_limits m ->
    counts_say m -> Forall rule_ok (m_context_rules m) -> solver_sound solve -> solver_complete solve -> alpha 32%N = false ->
    some_order o -> some_order o' -> some_order o'' -> flag_typed ts "json" ->
    clean_search m ts [ls] -> (forall x, finite x -> number (fmt x)) ->
    exists texts jss, input_texts ts ls texts /\ Forall2 (text_values lc ses ln32 ln ws alpha solve fmt m ts (tp_search P)) texts jss /\
      (forall texts' jss', input_texts ts ls texts' -> Forall2 (text_values lc ses ln32 ln ws alpha solve fmt m ts (tp_search P)) texts' jss' -> jss' = jss) /\
      exists F, forall fuel, F <= fuel -> exists out, runs fuel = Outcome out Ended /\ says out (JArr (concat jss)).
  Proof.
    intros W A C L K R Hs Hc Hsp Ho Ho' Ho'' Hj H2 H3.
    exact (search_json pf pf32 fmt ws lc alpha ln32 ln ps ses solve o o' o'' fs ts W debug P stdin [ls] A m C L K R Hs Hc Hsp Ho Ho' Ho'' ls Hj eq_refl H2 H3).
  Qed.
End search.
Print Assumptions C80_search_tsv.
Print Assumptions C80_search_json.

(** files: an alphabet, a lexicon, a language model, context rules, an input *)
#[local] Notation row := C_Program.row.
#[local] Arguments C_Program.row s%string_scope.
Definition exfs (n : str) : option (list (option str)) :=
  if bool_decide (n = lit "a.tsv") then Some [row "a"; row "b"; row "c"]
  else if bool_decide (n = lit "l.tsv") then Some [row "baaa	9"; row "baab"]
  else if bool_decide (n = lit "lm.tsv") then Some [row "baab baab	5"; row "baab	7"]
  else if bool_decide (n = lit "r.tsv") then Some [row "# rules"; row "baab;@l.tsv	3.0	x;y	0:1;1:1"]
  else if bool_decide (n = lit "in.txt") then Some [row "baab"; row "baaa"; row ""; row "abb"; None; row "baab"]
  else None.
Definition exs (json : bool) : list typed := [C_Options.opt "alphabet" "a.tsv"; C_Options.opt "lexicon" "l.tsv"; C_Options.opt "lm" "lm.tsv"; C_Options.opt "contextrules" "r.tsv";
  C_Options.opt "max-ngram-order" "2"; C_Options.opt "max-seq" "9"; C_Options.opt "max-edit-distance" "1"; C_Options.opt "max-anagram-distance" "1"] ++
  if json then [C_Options.flg "json"; C_Options.flg "output-lexmatch"; TFile (lit "in.txt")] else [TFile (lit "in.txt"); TFile (lit "-"); C_Options.flg "output-lexmatch"].
Definition exin : list (option str) := [row "baaa"; row "baab"].
Definition exload (json : bool) := loaded_model C_Options.exnum C_Options.exnum32 C_Matches.space (fun _ => None) Datatypes.id Datatypes.id exfs Search (exs json).
Definition exrun (json : bool) : outcome := program C_Options.exnum C_Options.exnum32 (fun _ => lit "0.5") C_Matches.space C_Find.lower C_Find.lower C_Matches.step_ln32 C_Matches.step_ln
  (fun _ => None) C_Find.script (P_Solver.some_solver Datatypes.id) Datatypes.id Datatypes.id Datatypes.id exfs exin 1000 (Invocation None (Some Search) (exs json)).
Definition exm (json : bool) : model := C_Find.the (exload json).
Definition exfile : list (option str) := [row "baab"; row "baaa"; row ""; row "abb"; None; row "baab"].
Definition exlls (json : bool) : list (list (option str)) := exfile :: if json then [] else [exin].
Lemma exload_ok json : exload json = Ok (exm json).
Proof.
  assert (match exload json with Ok _ => true | _ => false end = true) as H by (destruct json; by vm_compute).
  unfold exm. by destruct (exload json).
Qed.
Definition exss : list source :=
  [Given (RLexicon (File (lit "l.tsv") [lit "baaa	9"; lit "baab"])); Lm (File (lit "lm.tsv") [lit "baab baab	5"; lit "baab	7"])].
Lemma exsources json ss : sources_typed exfs (exs json) ss -> length ss <= 256.
Proof.
  intros H. enough (ss = exss) as -> by (cbn; lia).
  eapply sources_typed_det; [exact H|]. exists [C_Options.opt "lexicon" "l.tsv"], (take 1 exss), [File (lit "lm.tsv") [lit "baab baab	5"; lit "baab	7"]]. split; [|split; [|split; [|reflexivity]]].
  - destruct json; cbv [exs app C_Options.opt C_Options.flg]; repeat first [apply selects_nil
      |apply selects_keep; [by (eexists; first [by left|by right; left|by right; right])|]
      |apply selects_skip; [by intros (n & [[=]|[[=]|[=]]])|]].
  - constructor; [|constructor]; eapply given_lexicon; first [done|eexists; by split].
  - exists [C_Options.opt "lm" "lm.tsv"]. split; [|constructor; [|constructor]; eexists; split; [done|by eexists; split]].
    destruct json; cbv [exs app C_Options.opt C_Options.flg]; repeat first [apply selects_nil|apply selects_keep; [by eexists|]|apply selects_skip; [by intros (n & [=])|]].
Qed.
Lemma exlimits json : within_limits (exm json).
Proof.
  split.
  - destruct json; vm_compute; lia.
  - assert (m_weights (exm json) = C_Program.the_weights) as -> by (destruct json; by vm_compute). split; [|by vm_compute]. by repeat (constructor; [by vm_compute|]).
  - destruct json; vm_compute; lia.
  - assert (forallb (fun v => (count_spaces (vv_text v) <? 255) && (N.of_nat (length (vv_text v)) <? 65536)%N) (m_decoder (exm json)) = true) as H by (destruct json; by vm_compute).
    apply Forall_forall. intros v Hv. rewrite forallb_forall in H. apply elem_of_list_In, H in Hv. apply andb_prop in Hv as [H1 H2]. apply Nat.ltb_lt in H1. apply N.ltb_lt in H2. done.
  - destruct json; by vm_compute.
  - apply C_Find.links_check. destruct json; by vm_compute.
  - destruct json; vm_compute; lia.
  - assert (m_confusables (exm json) = []) as -> by (destruct json; by vm_compute). constructor.
Qed.
Definition exP (json : bool) : tool_parameters :=
  match tool_params C_Options.exnum C_Options.exnum32 Search (exs json) with Ok P => P | Panic _ => ToolParameters (C_Find.sp (C_Find.upto 3) (C_Find.upto 3) 0 f0 f0 f0) true true 0 f0 end.
Lemma extyped json : well_typed Search (exs json).
Proof. apply accepted_spec. destruct json; by vm_compute. Qed.
(** the texts; the second line of the file belongs to the first text, as does the empty line *)
Definition extexts : list (list str) := [[lit "baab baaa "; lit "abb"]; [lit "baaa baab"]].
Lemma extexts_say json ls texts t : ls ∈ exlls json -> input_texts (exs json) ls texts -> t ∈ texts -> t ∈ concat extexts.
Proof.
  intros Hls Ht Hin. apply (input_texts_iff (exs json) (extyped json)) in Ht. unfold exlls in Hls. apply elem_of_cons in Hls as [->|Hls].
  - assert (Some texts = Some [lit "baab baaa "; lit "abb"]) as [= ->] by (rewrite <- Ht; destruct json; by vm_compute).
    apply elem_of_cons in Hin as [->|Hin]; [by left|]. apply elem_of_list_singleton in Hin as ->. right. by left.
  - destruct json; [by apply elem_of_nil in Hls|]. apply elem_of_list_singleton in Hls as ->.
    assert (Some texts = Some [lit "baaa baab"]) as [= ->] by (rewrite <- Ht; by vm_compute). apply elem_of_list_singleton in Hin as ->. right. right. by left.
Qed.
Lemma exasked json : search_asked C_Options.exnum C_Options.exnum32 C_Find.lower exfs exin None (exs json) (exP json) (exlls json).
Proof.
  split.
  - done.
  - assert (tool_params C_Options.exnum C_Options.exnum32 Search (exs json) = Ok (exP json)) as E.
    { assert (match tool_params C_Options.exnum C_Options.exnum32 Search (exs json) with Ok _ => true | _ => false end = true) as H by (destruct json; by vm_compute).
      unfold exP. by destruct (tool_params _ _ _ _). }
    apply params_spec in E; [apply E|]. destruct json; by vm_compute.
  - destruct json; by vm_compute.
  - destruct json; by vm_compute.
  - destruct json; vm_compute; lia.
  - destruct json.
    + exists [lit "in.txt"]. split.
      * exists [TFile (lit "in.txt")]. split; [|right; split; [done|by repeat constructor]]. cbv [exs app C_Options.opt C_Options.flg].
        repeat first [apply selects_nil|apply selects_keep; [by eexists|]|apply selects_skip; [by intros (n & [=])|]].
      * apply inputs_file; [|done|constructor]. unfold standard_input. eapply bool_decide_eq_true_1. by vm_compute.
    + exists [lit "in.txt"; lit "-"]. split.
      * exists [TFile (lit "in.txt"); TFile (lit "-")]. split; [|right; split; [done|by repeat constructor]]. cbv [exs app C_Options.opt C_Options.flg].
        repeat first [apply selects_nil|apply selects_keep; [by eexists|]|apply selects_skip; [by intros (n & [=])|]].
      * apply inputs_file; [|done|apply inputs_stdin; [by left|constructor]]. unfold standard_input. eapply bool_decide_eq_true_1. by vm_compute.
  - intros ls texts t H1 H2 H3. pose proof (extexts_say json ls texts t H1 H2 H3) as H.
    assert (length t <= 255) as Hl; [|split; [lia|by apply short_text]].
    assert (Forall (fun t => length t <= 255) (concat extexts)) as F by (repeat constructor; vm_compute; lia). rewrite Forall_forall in F. by apply F.
Qed.
Lemma excontents json : contents_say C_Matches.space C_Options.exnum C_Options.exnum32 (fun _ => None) exfs Search (exs json) (exm json).
Proof. eapply C_Program.C77_start; [apply extyped| |apply exsources|apply exload_ok]. by intros l. Qed.
Lemma excounts json : counts_say (exm json).
Proof.
  eapply C80_counts; [apply extyped| |apply exsources|apply exload_ok|]; [by intros l|].
  eapply Forall_impl; [exact (wl_entries _ (exlimits json))|]. by intros v [? _].
Qed.
Lemma exrules json : length (m_context_rules (exm json)) = 1 /\ Forall rule_ok (m_context_rules (exm json)).
Proof.
  assert (m_context_rules (exm json) = [{| cr_pattern := [PVocab 4; PFromLexicon 0]; cr_score := S754_finite false 12582912 (-22); cr_tag := [0; 1]%N; cr_tagoffset := [(0, 1); (1, 1)] |}]) as ->
    by (destruct json; by vm_compute).
  split; [done|]. constructor; [|constructor]. split; [by repeat constructor|]. split; [repeat constructor; cbn; lia|cbn; lia].
Qed.
Lemma exclean : clean_search (exm true) (exs true) (exlls true).
Proof.
  assert (forall l, forallb (forallb (fun c => (32 <=? c)%N && negb (c =? 92)%N)) l = true -> Forall clean l) as K.
  { intros l H. apply Forall_forall. intros s Hs. rewrite forallb_forall in H. apply elem_of_list_In, H in Hs. rewrite forallb_forall in Hs.
    apply Forall_forall. intros c Hc. apply elem_of_list_In, Hs, andb_prop in Hc as [H1 H2]. apply N.leb_le in H1. split; [done|]. intros ->. done. }
  split; [|apply K; by vm_compute| |].
  - pose proof (K (map vv_text (m_decoder (exm true))) ltac:(by vm_compute)) as G. by rewrite Forall_map in G.
  - assert (m_tags (exm true) = [lit "x"; lit "y"]) as -> by (by vm_compute). pose proof (K [lit "x"; lit "y"] ltac:(by vm_compute)) as G.
    inversion G as [|? ? G1 G2]; subst. inversion G2; subst. constructor; [|constructor; [|constructor]]; (split; [done|]); eapply bool_decide_eq_true_1; by vm_compute.
  - intros ls texts t H1 H2 H3. pose proof (extexts_say true ls texts t H1 H2 H3) as H.
    pose proof (K (concat extexts) ltac:(by vm_compute)) as G. rewrite Forall_forall in G. by apply G.
Qed.
Lemma exsolver : solver_sound (P_Solver.some_solver Datatypes.id) /\ solver_complete (P_Solver.some_solver Datatypes.id).
Proof. split; [apply P_Solver.some_solver_sound; by intros l|apply P_Solver.some_solver_complete; by intros l]. Qed.
(** A file with two texts, cut short by an unreadable line, and standard input;
    a language model and a context rule. *)
Example C80_ex :
  well_typed Search (exs false) /\ search_asked C_Options.exnum C_Options.exnum32 C_Find.lower exfs exin None (exs false) (exP false) (exlls false) /\
  contents_say C_Matches.space C_Options.exnum C_Options.exnum32 (fun _ => None) exfs Search (exs false) (exm false) /\ within_limits (exm false) /\
  counts_say (exm false) /\ m_have_lm (exm false) = true /\ Forall rule_ok (m_context_rules (exm false)) /\ length (m_context_rules (exm false)) = 1 /\
  solver_sound (P_Solver.some_solver Datatypes.id) /\ solver_complete (P_Solver.some_solver Datatypes.id) /\
  ~ flag_typed (exs false) "json" /\
  exrun false = Outcome (lit "baab	0:4	baab	0.5		""l.tsv;lm.tsv""
baaa	5:9	baaa	0.5		""l.tsv""

abb	0:3
baaa	0:4	baaa	0.5		""l.tsv""
baab	5:9	baab	0.5		""l.tsv;lm.tsv""
") Ended.
Proof.
  split; [apply extyped|]. split; [apply exasked|]. split; [apply excontents|]. split; [apply exlimits|]. split; [apply excounts|]. split; [by vm_compute|].
  destruct (exrules false). split; [done|]. split; [done|]. destruct exsolver. split; [done|]. split; [done|].
  split; [|by vm_compute]. intros (i & Hi)%elem_of_list_lookup. by do 11 (destruct i; [discriminate Hi|]).
Qed.
Example C80_ex_json :
  well_typed Search (exs true) /\ search_asked C_Options.exnum C_Options.exnum32 C_Find.lower exfs exin None (exs true) (exP true) [exfile] /\
  contents_say C_Matches.space C_Options.exnum C_Options.exnum32 (fun _ => None) exfs Search (exs true) (exm true) /\ within_limits (exm true) /\
  counts_say (exm true) /\ Forall rule_ok (m_context_rules (exm true)) /\
  flag_typed (exs true) "json" /\ clean_search (exm true) (exs true) [exfile] /\
  exrun true = Outcome (lit "[
    { ""input"": ""baab"", ""begin"": 0, ""end"": 4, ""tag"": [""x""], ""seqnr"": [ 0], ""variants"": [ 
        { ""text"": ""baab"", ""score"": 0.5, ""dist_score"": 0.5, ""freq_score"": 0.5, ""lexicons"": [ ""l.tsv"", ""lm.tsv"" ] }
    ] }
    ,{ ""input"": ""baaa"", ""begin"": 5, ""end"": 9, ""tag"": [""y""], ""seqnr"": [ 0], ""variants"": [ 
        { ""text"": ""baaa"", ""score"": 0.5, ""dist_score"": 0.5, ""freq_score"": 0.5, ""lexicons"": [ ""l.tsv"" ] }
    ] }

    ,{ ""input"": ""abb"", ""begin"": 0, ""end"": 3, ""variants"": [ 

    ] }
]
") Ended.
Proof.
  split; [apply extyped|]. split; [apply (exasked true)|]. split; [apply excontents|]. split; [apply exlimits|]. split; [apply excounts|].
  split; [apply exrules|]. split; [apply elem_of_list_lookup; by exists 8|]. split; [exact exclean|by vm_compute].
Qed.
