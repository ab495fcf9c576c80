(** Properties C89 and C90: the command line tool and the Python bindings give
    the same answers; their defaults. *)
From Coq Require String Ascii.
From Coq Require Import Lia.
From Verif Require Import M_Base M_Anahash M_Iter M_Distance M_Float M_Types M_Model M_Confusable M_Rules M_Search M_Text M_Matches M_Cli M_Main M_Options M_Program.
From Verif Require Import S_Anahash S_Model S_Search S_Lookup S_Confusable S_Rules S_Matches S_Cli S_Main S_Options S_SearchAll S_RuleFile S_Program S_SearchRun.
From Verif Require Import M_Python S_Session S_Agree.
From Verif Require Import P_Base P_Options P_Agree P_AgreeRun P_Defaults.
From Verif Require C_Find C_Options C_Program C_Matches C_SearchRun P_Solver.
Import String.StringSyntax Ascii.AsciiSyntax.
From stdpp Require Import options.

(** ** C89 *)
(** The calls for the options of a command line say the same content. *)
Theorem C89_contents ws pf pf32 ps fs c ts cs alphabet w m :
  well_typed c ts -> same_session ts cs -> TOption (name "alphabet") alphabet ∈ ts -> weights_say pf c ts w ->
  contents_say ws pf pf32 ps fs c ts m -> session_says ws pf pf32 ps fs alphabet w cs m.
Proof. intros W Hs. exact (session_of ws pf pf32 ps fs c ts cs Hs alphabet w m W). Qed.
Print Assumptions C89_contents.

Section agree.
  Context (pf : str -> option f64) (pf32 : str -> option f32) (fmt : f64 -> str) (ws lc alpha : N -> bool) (ln32 : f32 -> f32) (ln : f64 -> f64).
  Context (ps : str -> option (list edit_instruction)) (ses : str -> str -> list edit_instruction) (solve : fst_graph -> nat -> list (list nat * f32)).
  (** the orders of the maps in the tool and in the session *)
  Context (o q : list (N * node) -> list (N * node)) (o' q' : list (str * vocab_id) -> list (str * vocab_id)) (o'' : list (nat * list N) -> list (nat * list N)).
  Context (fs : str -> option (list (option str))) (stdin : list (option str)) (debug : option str) (ts : list typed).
  Context (alphabet : str) (w : weights) (cs : list py_call) (m : model).
  (** the run of the tool with [fuel] steps for every lookup *)
  #[local] Notation runs c fuel := (program pf pf32 fmt ws lc alpha ln32 ln ps ses solve o o' o'' fs stdin fuel (Invocation debug (Some c) ts)).
  (** the session leaves the model [m'] *)
  #[local] Notation leaves := (fun m' => exists m0, py_model ws fs alphabet w = Returned m0 /\ py_steps ws pf pf32 ps q q' fs m0 cs = Returned m').

  (** Lookups: the JSON shows the objects. *)
  Theorem C89_query P ls :
    well_typed Query ts -> asked pf pf32 fs stdin debug ts P [ls] -> contents_say ws pf pf32 ps fs Query ts m -> within_limits m -> clean_texts m [ls] ->
    some_order o -> some_order o' -> some_order o'' -> some_order q -> some_order q' -> flag_typed ts "json" -> flag_typed ts "output-lexmatch" -> (forall x, finite x -> number (fmt x)) ->
    TOption (name "alphabet") alphabet ∈ ts -> weights_say pf Query ts w -> same_session ts cs ->
    exists m' ds js, leaves m' /\ Forall2 (shows fmt) ds js /\
      (exists F, forall lookup, looks_up lc ses F m' (tp_search P) lookup -> py_find_variants_par m' (p_freq_weight (tp_search P)) lookup (queries [ls]) = Ok (PyList ds)) /\
      exists F, forall fuel, F <= fuel -> exists out, runs Query fuel = Outcome out Ended /\ says out (JArr js).
  Proof.
    intros W A C L Cl Ho Ho' Ho'' Hq Hq' Hj Hl Hf Ha Hw Hs.
    exact (query_agrees pf pf32 fmt ws lc alpha ln32 ln ps ses solve o q o' q' o'' fs stdin debug ts Ho Ho' Ho'' Hq Hq' alphabet w cs m Hs Ha L Hj Hl Hf P [ls] W A C Hw eq_refl Cl).
  Qed.
  (** Searches: the JSON shows the objects for the texts that the input is cut into. *)
  Theorem C89_search P ls :
    well_typed Search ts -> search_asked pf pf32 alpha fs stdin debug ts P [ls] -> contents_say ws pf pf32 ps fs Search ts m -> within_limits m -> clean_search m ts [ls] ->
    counts_say m -> Forall rule_ok (m_context_rules m) -> solver_sound solve -> solver_complete solve -> alpha 32%N = false ->
    some_order o -> some_order o' -> some_order o'' -> some_order q -> some_order q' -> flag_typed ts "json" -> flag_typed ts "output-lexmatch" -> (forall x, finite x -> number (fmt x)) ->
    TOption (name "alphabet") alphabet ∈ ts -> weights_say pf Search ts w -> same_session ts cs ->
    exists m' texts dss js, leaves m' /\ input_texts ts ls texts /\ Forall2 (match_shows fmt) (concat dss) js /\
      Forall2 (fun t ds => exists F, forall lookup, looks_up lc ses F m' (in_bytes (tp_search P)) lookup ->
        py_find_all_matches m' (p_freq_weight (tp_search P)) (fun t => find_all_matches ln32 ln ws solve alpha lookup m' t (in_bytes (tp_search P))) t = Ok (PyList ds)) texts dss /\
      exists F, forall fuel, F <= fuel -> exists out, runs Search fuel = Outcome out Ended /\ says out (JArr js).
  Proof.
    intros W A C L Cl K R H1 H2 Hsp Ho Ho' Ho'' Hq Hq' Hj Hl Hf Ha Hw Hs.
    exact (search_agrees pf pf32 fmt ws lc alpha ln32 ln ps ses solve o q o' q' o'' fs stdin debug ts Ho Ho' Ho'' Hq Hq' alphabet w cs m Hs Ha L Hj Hl Hf P ls W A C Hw K R H1 H2 Hsp Cl).
  Qed.
End agree.
Print Assumptions C89_query.
Print Assumptions C89_search.

(** the sessions for the command lines of [C77_ex_json] and [C80_ex_json] *)
Definition exqs : list py_call := [CLexicon (lit "l.tsv"); CVariantList (lit "v.tsv") false; CBuild].
Definition exss : list py_call := [CLexicon (lit "l.tsv"); CLanguageModel (lit "lm.tsv"); CBuild; CRules (lit "r.tsv")].
Ltac picks := cbv [C_Program.exq C_SearchRun.exs app C_Options.opt C_Options.flg]; repeat first [apply selects_nil
  |apply selects_keep; [by eexists; econstructor|]
  |apply selects_skip; [intros (? & X); by inversion X|]].
Lemma exqs_same : same_session (C_Program.exq true) exqs.
Proof.
  exists [CLexicon (lit "l.tsv"); CVariantList (lit "v.tsv") false], [], [], []. split; [|split; [|split; [|split; [|reflexivity]]]].
  - exists [C_Options.opt "lexicon" "l.tsv"; C_Options.opt "variants" "v.tsv"]. split; [picks|]. constructor; [apply ec_lexicon|]. constructor; [apply ec_variants|constructor].
  - exists []. split; [picks|constructor].
  - exists []. split; [picks|constructor].
  - exists []. split; [picks|constructor].
Qed.
Lemma exss_same : same_session (C_SearchRun.exs true) exss.
Proof.
  exists [CLexicon (lit "l.tsv")], [CLanguageModel (lit "lm.tsv")], [], [CRules (lit "r.tsv")]. split; [|split; [|split; [|split; [|reflexivity]]]].
  - exists [C_Options.opt "lexicon" "l.tsv"]. split; [picks|]. constructor; [apply ec_lexicon|constructor].
  - exists [C_Options.opt "lm" "lm.tsv"]. split; [picks|]. constructor; [apply lc_lm|constructor].
  - exists []. split; [picks|constructor].
  - exists [C_Options.opt "contextrules" "r.tsv"]. split; [picks|]. constructor; [apply rc_rules|constructor].
Qed.
Lemma weights_of c ts : well_typed c ts -> tool_weights C_Options.exnum c ts = Ok weights_default -> weights_say C_Options.exnum c ts weights_default.
Proof. intros W H. apply accepted_spec in W. by apply P_Options.weights_spec. Qed.
Definition exmodel (fs : str -> option (list (option str))) (cs : list py_call) : pyres model :=
  pybind (py_model C_Matches.space fs (lit "a.tsv") weights_default) (fun m0 => py_steps C_Matches.space C_Options.exnum C_Options.exnum32 (fun _ => None) Datatypes.id Datatypes.id fs m0 cs).
Definition left_by (r : pyres model) : model := match r with Returned m => m | _ => model_new C_Matches.space [] weights_default end.
(** a lookup with [fuel] steps *)
Definition exask (m : model) (p : search_parameters) (q : str) : res (list variant_result) := find_variants C_Find.lower C_Find.script 1000 Datatypes.id m q p.
Definition texts_of (d : pyval) : list (list pyval) :=
  match d with PyDict l => map (fun kv : str * pyval => match kv.2 with PyList vs => map (fun v => match v with PyDict (x :: _) => x.2 | v => v end) vs | v => [v] end) l | _ => [] end.
(** What the theorem asks of a command line with a lexicon and a variant list;
    the texts of the inputs and variants returned in Python. *)
Example C89_ex_query :
  well_typed Query (C_Program.exq true) /\
  asked C_Options.exnum C_Options.exnum32 C_Program.exfs C_Program.exin None (C_Program.exq true) (C_Program.exP true) [[C_Program.row "baac"; C_Program.row "abb"]] /\
  contents_say C_Matches.space C_Options.exnum C_Options.exnum32 (fun _ => None) C_Program.exfs Query (C_Program.exq true) (C_Program.exm true) /\ within_limits (C_Program.exm true) /\
  clean_texts (C_Program.exm true) [[C_Program.row "baac"; C_Program.row "abb"]] /\ flag_typed (C_Program.exq true) "json" /\ flag_typed (C_Program.exq true) "output-lexmatch" /\
  TOption (name "alphabet") (lit "a.tsv") ∈ C_Program.exq true /\ weights_say C_Options.exnum Query (C_Program.exq true) weights_default /\ same_session (C_Program.exq true) exqs /\
  rmap (fun d => match d with PyList l => map texts_of l | _ => [] end)
    (py_find_variants_par (left_by (exmodel C_Program.exfs exqs)) f0 (exask (left_by (exmodel C_Program.exfs exqs)) (tp_search (C_Program.exP true))) [lit "baac"; lit "abb"]) =
    Ok [[[PyStr (lit "baac")]; [PyStr (lit "baac"); PyStr (lit "baaa"); PyStr (lit "baab")]]; [[PyStr (lit "abb")]; []]] /\
  exists rest, oc_out (C_Program.exrun true) = lit "[
    { ""input"": ""baac"", ""variants"": [ 
        { ""text"": ""baac"", ""score"": 0.5, ""dist_score"": 0.5, ""freq_score"": 0.5, ""lexicons"": [ ""v.tsv"" ] }" ++ rest.
Proof.
  split; [apply C_Program.extyped|]. split; [apply (C_Program.exasked true)|]. split; [exact (C_Program.excontents true)|]. split; [apply C_Program.exlimits|]. split; [exact C_Program.exclean|].
  split; [apply elem_of_list_lookup; by exists 5|]. split; [apply elem_of_list_lookup; by exists 3|]. split; [by left|].
  split; [apply weights_of; [apply C_Program.extyped|by vm_compute]|]. split; [exact exqs_same|]. split; [by vm_compute|]. eexists. by vm_compute.
Qed.
(** The same with a language model and a context rule. *)
Example C89_ex_search :
  well_typed Search (C_SearchRun.exs true) /\
  search_asked C_Options.exnum C_Options.exnum32 C_Find.lower C_SearchRun.exfs C_SearchRun.exin None (C_SearchRun.exs true) (C_SearchRun.exP true) [C_SearchRun.exfile] /\
  contents_say C_Matches.space C_Options.exnum C_Options.exnum32 (fun _ => None) C_SearchRun.exfs Search (C_SearchRun.exs true) (C_SearchRun.exm true) /\
  within_limits (C_SearchRun.exm true) /\ clean_search (C_SearchRun.exm true) (C_SearchRun.exs true) [C_SearchRun.exfile] /\ counts_say (C_SearchRun.exm true) /\
  Forall rule_ok (m_context_rules (C_SearchRun.exm true)) /\ solver_sound (P_Solver.some_solver Datatypes.id) /\ solver_complete (P_Solver.some_solver Datatypes.id) /\
  flag_typed (C_SearchRun.exs true) "json" /\ flag_typed (C_SearchRun.exs true) "output-lexmatch" /\
  TOption (name "alphabet") (lit "a.tsv") ∈ C_SearchRun.exs true /\ weights_say C_Options.exnum Search (C_SearchRun.exs true) weights_default /\ same_session (C_SearchRun.exs true) exss /\
  (let m := left_by (exmodel C_SearchRun.exfs exss) in let p := in_bytes (tp_search (C_SearchRun.exP true)) in
   rmap (fun d => match d with PyList l => map texts_of l | _ => [] end)
    (py_find_all_matches m f0 (fun t => find_all_matches C_Matches.step_ln32 C_Matches.step_ln C_Matches.space (P_Solver.some_solver Datatypes.id) C_Find.lower (exask m p) m t p) (lit "baab baaa ")) =
    Ok [[[PyStr (lit "baab")]; [PyDict [(lit "begin", PyInt 0); (lit "end", PyInt 4)]]; [PyStr (lit "x")]; [PyInt 0]; [PyStr (lit "baab")]];
        [[PyStr (lit "baaa")]; [PyDict [(lit "begin", PyInt 5); (lit "end", PyInt 9)]]; [PyStr (lit "y")]; [PyInt 0]; [PyStr (lit "baaa")]]]).
Proof.
  split; [apply C_SearchRun.extyped|]. split; [apply (C_SearchRun.exasked true)|]. split; [exact (C_SearchRun.excontents true)|]. split; [apply C_SearchRun.exlimits|]. split; [exact C_SearchRun.exclean|].
  split; [apply C_SearchRun.excounts|]. split; [apply C_SearchRun.exrules|]. destruct C_SearchRun.exsolver. split; [done|]. split; [done|].
  split; [apply elem_of_list_lookup; by exists 8|]. split; [apply elem_of_list_lookup; by exists 9|]. split; [by left|].
  split; [apply weights_of; [apply C_SearchRun.extyped|by vm_compute]|]. split; [exact exss_same|]. by vm_compute.
Qed.

(** ** C90 *)
(** Without options for them, the tool's weights are those of [Weights()]. *)
Theorem C90_weights : forall pf pf32 c ts w, reads_defaults pf pf32 -> sets_nothing ts -> weights_say pf c ts w -> w = py_weights [].
Proof. intros pf pf32 c ts w Hr Hs. exact (default_weights pf pf32 c ts Hr Hs w). Qed.
Print Assumptions C90_weights.
(** The tool's lookups are those of parameters with two settings. *)
Theorem C90_lookups : forall pf pf32 c ts P, reads_defaults pf pf32 -> sets_nothing ts -> parameters_say pf pf32 c ts P ->
  same_lookups (tp_search P) (tp_search (py_parameters pf32 [(name "max_edit_distance", PyInt 2); (name "max_matches", PyInt 10)])).
Proof. intros pf pf32 c ts P Hr Hs. exact (default_lookups pf pf32 c ts Hr Hs P). Qed.
Print Assumptions C90_lookups.
(** So are all its parameters in search mode. *)
Theorem C90_search : forall pf pf32 ts P, reads_defaults pf pf32 -> sets_nothing ts -> parameters_say pf pf32 Search ts P ->
  let P' := py_parameters pf32 [(name "max_edit_distance", PyInt 2); (name "max_matches", PyInt 10)] in
  in_bytes (tp_search P) = tp_search P' /\ tp_single_thread P = tp_single_thread P' /\ tp_consolidate_matches P = tp_consolidate_matches P' /\
  tp_lm_order P = tp_lm_order P' /\ tp_context_weight P = tp_context_weight P'.
Proof. intros pf pf32 ts P Hr Hs. exact (default_search pf pf32 ts Hr Hs P). Qed.
Print Assumptions C90_search.

Lemma exreads : reads_defaults C_Options.exnum C_Options.exnum32.
Proof. split; by vm_compute. Qed.
Ltac finds H := repeat (apply elem_of_cons in H as [H|H]; [first [discriminate H|injection H as ->; eapply bool_decide_eq_true_1; by vm_compute|injection H as -> ->; eapply bool_decide_eq_true_1; by vm_compute]|]); by apply elem_of_nil in H.
Example C90_ex : reads_defaults C_Options.exnum C_Options.exnum32 /\ sets_nothing (C_Program.exq true) /\
  parameters_say C_Options.exnum C_Options.exnum32 Query (C_Program.exq true) (C_Program.exP true) /\ weights_say C_Options.exnum Query (C_Program.exq true) weights_default.
Proof.
  split; [exact exreads|]. split; [split|].
  - intros l v H. cbv [C_Program.exq app C_Options.opt C_Options.flg] in H. finds H.
  - intros l H. cbv [C_Program.exq app C_Options.opt C_Options.flg] in H. finds H.
  - split; [exact (as_parameters _ _ _ _ _ _ _ _ (C_Program.exasked true))|]. apply weights_of; [apply C_Program.extyped|by vm_compute].
Qed.

(** The defaults differ: with the same file and nothing else said, a word is
    found in Python and not by the tool. *)
Definition dfs (n : str) : option (list (option str)) :=
  if bool_decide (n = lit "a.tsv") then Some [C_Program.row "a"; C_Program.row "b"]
  else if bool_decide (n = lit "l.tsv") then Some [C_Program.row "aaaaaaaa"]
  else if bool_decide (n = lit "in.txt") then Some [C_Program.row "aaaaaaaabbb"] else None.
Definition dts : list typed := [C_Options.opt "alphabet" "a.tsv"; C_Options.opt "lexicon" "l.tsv"; TFile (lit "in.txt")].
Definition dcs : list py_call := [CLexicon (lit "l.tsv"); CBuild].
Theorem C90_refuted : exists m, well_typed Query dts /\ sets_nothing dts /\ reads_defaults C_Options.exnum C_Options.exnum32 /\ same_session dts dcs /\
  (exists m0, py_model C_Matches.space dfs (lit "a.tsv") (py_weights []) = Returned m0 /\
    py_steps C_Matches.space C_Options.exnum C_Options.exnum32 (fun _ => None) Datatypes.id Datatypes.id dfs m0 dcs = Returned m) /\
  program C_Options.exnum C_Options.exnum32 (fun _ => lit "0.5") C_Matches.space C_Find.lower C_Find.lower Datatypes.id Datatypes.id (fun _ => None) C_Find.script (fun _ _ => [])
    Datatypes.id Datatypes.id Datatypes.id dfs [] 1000 (Invocation None (Some Query) dts) = Outcome (lit "aaaaaaaabbb
") Ended /\
  let answer kws := py_find_variants m (p_freq_weight (tp_search (py_parameters C_Options.exnum32 kws))) (exask m (tp_search (py_parameters C_Options.exnum32 kws))) (lit "aaaaaaaabbb") in
  (exists x, answer [] = Ok (PyList [PyDict ((name "text", PyStr (lit "aaaaaaaa")) :: x)])) /\
  answer [(name "max_edit_distance", PyInt 2); (name "max_matches", PyInt 10)] = Ok (PyList []).
Proof.
  exists (left_by (exmodel dfs dcs)). split; [apply accepted_spec; by vm_compute|]. split; [split|].
  - intros l v H. cbv [dts C_Options.opt C_Options.flg] in H. finds H.
  - intros l H. cbv [dts C_Options.opt C_Options.flg] in H. finds H.
  - split; [exact exreads|]. split; [|split; [|split; [by vm_compute|]]].
    + exists [CLexicon (lit "l.tsv")], [], [], []. split; [|split; [|split; [|split; [|reflexivity]]]]; cbv [dts].
      * exists [C_Options.opt "lexicon" "l.tsv"]. split; [picks|]. constructor; [apply ec_lexicon|constructor].
      * exists []. split; [picks|constructor].
      * exists []. split; [picks|constructor].
      * exists []. split; [picks|constructor].
    + assert (match exmodel dfs dcs with Returned _ => true | _ => false end = true) as H by (by vm_compute). change (py_weights []) with weights_default.
      unfold left_by, exmodel in *. destruct (py_model _ _ _ _) as [m0| |]; cbn [pybind] in *; [|done..]. exists m0. split; [done|]. by destruct (py_steps _ _ _ _ _ _ _ _ _).
    + cbv zeta. split; [eexists|]; by vm_compute.
Qed.
Print Assumptions C90_refuted.
