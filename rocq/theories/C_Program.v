(** Property C77: the command line tool in query mode, from the command line
    to the output. *)
From Coq Require String Ascii.
From Verif Require Import M_Base M_Anahash M_Iter M_Distance M_Float M_Types M_Model M_Confusable M_ConfList M_Rules M_Search M_Text M_Values.
From Verif Require Import M_Matches M_Learn M_Cli M_Main M_Options M_Program.
From Verif Require Import S_Anahash S_Distance S_Model S_Search S_Lookup S_Values S_Cli S_Main S_Options S_Program P_Base P_Options P_Start P_Query.
From Verif Require C_Find C_Options.
Import String.StringSyntax Ascii.AsciiSyntax.
From stdpp Require Import options.

(** ** C77 *)
(** What start-up loads is what the files named on the command line say. *)
Theorem C77_start pf pf32 ws ps o o' fs c ts m :
  well_typed c ts -> some_order o' -> (forall ss, sources_typed fs ts ss -> length ss <= 256) ->
  loaded_model pf pf32 ws ps o o' fs c ts = Ok m -> contents_say ws pf pf32 ps fs c ts m.
Proof. intros W Ho Hl E. by apply (load_contents pf pf32 ws ps o o' fs c ts W m Ho Hl E). Qed.
Print Assumptions C77_start.
(** They say one thing only. *)
Theorem C77_contents_unique ws pf pf32 ps fs c ts m m' :
  well_typed c ts -> contents_say ws pf pf32 ps fs c ts m -> contents_say ws pf pf32 ps fs c ts m' -> same_contents m m'.
Proof. intros W. exact (contents_unique pf pf32 ws ps fs c ts W m m'). Qed.
Print Assumptions C77_contents_unique.
(** Start-up does not fail if they say something within the limits. *)
Theorem C77_start_succeeds pf pf32 ws ps o o' fs c ts m :
  well_typed c ts -> some_order o' ->
  contents_say ws pf pf32 ps fs c ts m -> within_limits m -> exists m', loaded_model pf pf32 ws ps o o' fs c ts = Ok m'.
Proof. intros W. exact (load_succeeds pf pf32 ws ps o o' fs c ts W m). Qed.
Print Assumptions C77_start_succeeds.

Section query.
  Context (pf : str -> option f64) (pf32 : str -> option f32) (fmt : f64 -> str) (ws lc alpha : N -> bool) (ln32 : f32 -> f32) (ln : f64 -> f64).
  Context (ps : str -> option (list edit_instruction)) (ses : str -> str -> list edit_instruction) (solve : fst_graph -> nat -> list (list nat * f32)).
  Context (o : list (N * node) -> list (N * node)) (o' : list (str * vocab_id) -> list (str * vocab_id)) (o'' : list (nat * list N) -> list (nat * list N)).
  Context (fs : str -> option (list (option str))) (stdin : list (option str)) (debug : option str) (ts : list typed).
  (** the run with [fuel] steps for every lookup *)
  #[local] Notation runs fuel := (program pf pf32 fmt ws lc alpha ln32 ln ps ses solve o o' o'' fs stdin fuel (Invocation debug (Some Query) ts)).

  (** Tab separated output: the lines of the answers, in the order of the input,
      and nothing else, with one thread or several. *)
  Theorem C77_query_tsv P lls m :
    well_typed Query ts -> asked pf pf32 fs stdin debug ts P lls -> contents_say ws pf pf32 ps fs Query ts m -> within_limits m ->
    some_order o -> some_order o' -> some_order o'' -> ~ flag_typed ts "json" ->
    exists outs, Forall2 (answer_line lc ses fmt m ts (tp_search P)) (queries lls) outs /\
      (forall outs', Forall2 (answer_line lc ses fmt m ts (tp_search P)) (queries lls) outs' -> outs' = outs) /\
      exists F, forall fuel, F <= fuel -> runs fuel = Outcome (concat outs) Ended.
  Proof.
    intros W A C L Ho Ho' Ho'' Hj.
    exact (run_tsv pf pf32 fmt ws lc alpha ln32 ln ps ses solve o o' o'' fs ts W debug P stdin lls A m C L Ho Ho' Ho'' Hj).
  Qed.
  (** JSON, for one file of texts that need no escapes: an array of the answers. *)
  Theorem C77_query_json P lls m :
    well_typed Query ts -> asked pf pf32 fs stdin debug ts P lls -> contents_say ws pf pf32 ps fs Query ts m -> within_limits m ->
    some_order o -> some_order o' -> some_order o'' -> flag_typed ts "json" ->
    length lls = 1 -> clean_texts m lls -> (forall x, finite x -> number (fmt x)) ->
    exists js, Forall2 (answer_value lc ses fmt m ts (tp_search P)) (queries lls) js /\
      (forall js', Forall2 (answer_value lc ses fmt m ts (tp_search P)) (queries lls) js' -> js' = js) /\
      exists F, forall fuel, F <= fuel -> exists out, runs fuel = Outcome out Ended /\ says out (JArr js).
  Proof.
    intros W A C L Ho Ho' Ho'' Hj H1 H2 H3.
    exact (run_json pf pf32 fmt ws lc alpha ln32 ln ps ses solve o o' o'' fs ts W debug P stdin lls A m C L Ho Ho' Ho'' Hj H1 H2 H3).
  Qed.
End query.
Print Assumptions C77_query_tsv.
Print Assumptions C77_query_json.

(** files: an alphabet, a lexicon with frequencies, a variant list, confusables, two inputs *)
Definition row (s : String.string) : option str := Some (lit s).
Arguments row s%string_scope.
Definition exfs (n : str) : option (list (option str)) :=
  if bool_decide (n = lit "a.tsv") then Some [row "a"; row "b"; row "c"]
  else if bool_decide (n = lit "l.tsv") then Some [row "baaa	9"; None; row "baab"]
  else if bool_decide (n = lit "v.tsv") then Some [row "baaa	baac	0.5"]
  else if bool_decide (n = lit "in.txt") then Some [row "baac"; row "abb"]
  else None.
Definition exq (json : bool) : list typed := [C_Options.opt "alphabet" "a.tsv"; C_Options.opt "lexicon" "l.tsv"; C_Options.opt "variants" "v.tsv"; C_Options.flg "output-lexmatch"; TFile (lit "in.txt")] ++
  if json then [C_Options.flg "json"] else [TFile (lit "-"); C_Options.flg "single-thread"].
Definition exin : list (option str) := [None; row "baaa"].
Definition the_weights : weights :=
  let e := S754_finite false 4503599627370496 (-55) in Weights (S754_finite false 4503599627370496 (-53)) e e e e.
Definition exload (json : bool) := loaded_model C_Options.exnum C_Options.exnum32 (fun c => (c =? 32)%N) (fun _ => None) Datatypes.id Datatypes.id exfs Query (exq json).
Definition exrun (json : bool) : outcome := program C_Options.exnum C_Options.exnum32 (fun _ => lit "0.5") (fun c => (c =? 32)%N) C_Find.lower C_Find.lower Datatypes.id Datatypes.id
  (fun _ => None) C_Find.script (fun _ _ => []) Datatypes.id Datatypes.id Datatypes.id exfs exin 1000 (Invocation None (Some Query) (exq json)).
Definition exm (json : bool) : model := C_Find.the (exload json).
Definition exlls (json : bool) : list (list (option str)) := if json then [[row "baac"; row "abb"]] else [[row "baac"; row "abb"]; exin].
Lemma exload_ok json : exload json = Ok (exm json).
Proof.
  assert (match exload json with Ok _ => true | _ => false end = true) as H by (destruct json; by vm_compute).
  unfold exm. by destruct (exload json).
Qed.
Definition exss : list source :=
  [Given (RLexicon (File (lit "l.tsv") [lit "baaa	9"; lit "baab"])); Given (RVariants (File (lit "v.tsv") [lit "baaa	baac	0.5"]))].
Lemma exsources json ss : sources_typed exfs (exq json) ss -> length ss <= 256.
Proof.
  intros H. enough (ss = exss) as -> by (cbn; lia).
  eapply sources_typed_det; [exact H|]. exists [C_Options.opt "lexicon" "l.tsv"; C_Options.opt "variants" "v.tsv"], exss, []. split; [|split; [|split; [|reflexivity]]].
  - destruct json; cbv [exq app C_Options.opt C_Options.flg]; repeat first [apply selects_nil
      |apply selects_keep; [by (eexists; first [by left|by right; left|by right; right])|]
      |apply selects_skip; [by intros (n & [[=]|[[=]|[=]]])|]].
  - constructor; [|constructor; [|constructor]]; [eapply given_lexicon|eapply given_variants]; first [done|eexists; by split].
  - exists []. split; [|constructor]. destruct json; cbv [exq app C_Options.opt C_Options.flg]; repeat first [apply selects_nil|apply selects_skip; [by intros (n & [=])|]].
Qed.
Lemma exlimits json : within_limits (exm json).
Proof.
  split.
  - destruct json; vm_compute; lia.
  - assert (m_weights (exm json) = the_weights) as -> by (destruct json; by vm_compute). split; [|by vm_compute]. by repeat (constructor; [by vm_compute|]).
  - destruct json; vm_compute; lia.
  - assert (forallb (fun v => (count_spaces (vv_text v) <? 255) && (N.of_nat (length (vv_text v)) <? 65536)%N) (m_decoder (exm json)) = true) as H by (destruct json; by vm_compute).
    apply Forall_forall. intros v Hv. rewrite forallb_forall in H. apply elem_of_list_In, H in Hv. apply andb_prop in Hv as [H1 H2]. apply Nat.ltb_lt in H1. apply N.ltb_lt in H2. done.
  - destruct json; by vm_compute.
  - apply C_Find.links_check. destruct json; by vm_compute.
  - destruct json; vm_compute; lia.
  - assert (m_confusables (exm json) = []) as -> by (destruct json; by vm_compute). constructor.
Qed.
Definition exP (json : bool) : tool_parameters :=
  match tool_params C_Options.exnum C_Options.exnum32 Query (exq json) with Ok P => P | Panic _ => ToolParameters (C_Find.sp (C_Find.upto 3) (C_Find.upto 3) 0 f0 f0 f0) true true 0 f0 end.
Lemma extyped json : well_typed Query (exq json).
Proof. apply accepted_spec. destruct json; by vm_compute. Qed.
Lemma exasked json : asked C_Options.exnum C_Options.exnum32 exfs exin None (exq json) (exP json) (exlls json).
Proof.
  split.
  - done.
  - assert (tool_params C_Options.exnum C_Options.exnum32 Query (exq json) = Ok (exP json)) as E.
    { assert (match tool_params C_Options.exnum C_Options.exnum32 Query (exq json) with Ok _ => true | _ => false end = true) as H by (destruct json; by vm_compute).
      unfold exP. by destruct (tool_params _ _ _ _). }
    apply params_spec in E; [apply E|]. destruct json; by vm_compute.
  - destruct json; by vm_compute.
  - destruct json; by vm_compute.
  - destruct json.
    + exists [lit "in.txt"]. split.
      * exists [TFile (lit "in.txt")]. split; [|right; split; [done|by repeat constructor]]. cbv [exq app C_Options.opt C_Options.flg].
        repeat first [apply selects_nil|apply selects_keep; [by eexists|]|apply selects_skip; [by intros (n & [=])|]].
      * apply inputs_file; [|done|constructor]. unfold standard_input. eapply bool_decide_eq_true_1. by vm_compute.
    + exists [lit "in.txt"; lit "-"]. split.
      * exists [TFile (lit "in.txt"); TFile (lit "-")]. split; [|right; split; [done|by repeat constructor]]. cbv [exq app C_Options.opt C_Options.flg].
        repeat first [apply selects_nil|apply selects_keep; [by eexists|]|apply selects_skip; [by intros (n & [=])|]].
      * apply inputs_file; [|done|apply inputs_stdin; [by left|constructor]]. unfold standard_input. eapply bool_decide_eq_true_1. by vm_compute.
  - destruct json; [right|left; by vm_compute]. repeat constructor. eapply bool_decide_eq_true_1. by vm_compute.
  - destruct json; repeat constructor; vm_compute; lia.
Qed.
Lemma excontents json : contents_say (fun c => (c =? 32)%N) C_Options.exnum C_Options.exnum32 (fun _ => None) exfs Query (exq json) (exm json).
Proof. eapply C77_start; [apply extyped| |apply exsources|apply exload_ok]. by intros l. Qed.
Lemma exclean : clean_texts (exm true) (exlls true).
Proof.
  assert (forall l, forallb (forallb (fun c => (32 <=? c)%N && negb (c =? 92)%N)) l = true -> Forall clean l) as K.
  { intros l H. apply Forall_forall. intros s Hs. rewrite forallb_forall in H. apply elem_of_list_In, H in Hs. rewrite forallb_forall in Hs.
    apply Forall_forall. intros c Hc. apply elem_of_list_In, Hs, andb_prop in Hc as [H1 H2]. apply N.leb_le in H1. split; [done|]. intros ->. done. }
  split; [|apply K; by vm_compute..]. pose proof (K (map vv_text (m_decoder (exm true))) ltac:(by vm_compute)) as G. by rewrite Forall_map in G.
Qed.
(** The input is one file and, with one thread, standard input with an unreadable line. *)
Example C77_ex :
  well_typed Query (exq false) /\ asked C_Options.exnum C_Options.exnum32 exfs exin None (exq false) (exP false) (exlls false) /\
  contents_say (fun c => (c =? 32)%N) C_Options.exnum C_Options.exnum32 (fun _ => None) exfs Query (exq false) (exm false) /\ within_limits (exm false) /\
  ~ flag_typed (exq false) "json" /\
  queries (exlls false) = [lit "baac"; lit "abb"; lit "baaa"] /\
  exrun false = Outcome (lit "baac	baac	0.5		""v.tsv""	baaa	0.5		""l.tsv;v.tsv""	baab	0.5		""l.tsv""
abb
baaa	baaa	0.5		""l.tsv;v.tsv""	baab	0.5		""l.tsv""	baac	0.5		""v.tsv""
") Ended.
Proof.
  split; [apply extyped|]. split; [apply exasked|]. split; [apply excontents|]. split; [apply exlimits|].
  split; [|split; [done|by vm_compute]]. intros (i & H)%elem_of_list_lookup. by do 8 (destruct i; [discriminate H|]).
Qed.
Example C77_ex_json :
  well_typed Query (exq true) /\ asked C_Options.exnum C_Options.exnum32 exfs exin None (exq true) (exP true) (exlls true) /\
  contents_say (fun c => (c =? 32)%N) C_Options.exnum C_Options.exnum32 (fun _ => None) exfs Query (exq true) (exm true) /\ within_limits (exm true) /\
  flag_typed (exq true) "json" /\ clean_texts (exm true) (exlls true) /\ oc_end (exrun true) = Ended.
Proof.
  split; [apply extyped|]. split; [apply exasked|]. split; [apply excontents|]. split; [apply exlimits|].
  split; [apply elem_of_list_lookup; by exists 5|]. split; [exact exclean|by vm_compute].
Qed.
