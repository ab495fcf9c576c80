(** Property C91: the command line tool in learning mode, from the command line
    to the output. *)
From Coq Require String Ascii.
From Verif Require Import M_Base M_Utf8 M_Anahash M_Iter M_Distance M_Float M_Types M_Model M_Confusable M_ConfList M_Rules M_Search M_Text M_Values.
From Verif Require Import M_Matches M_Learn M_Cli M_Main M_Options M_Program.
From Verif Require Import S_Anahash S_Distance S_Text S_Model S_Search S_Lookup S_Values S_Rules S_Matches S_Learn S_Cli S_Main S_Options S_SearchAll S_Program S_SearchRun S_LearnRun.
From Verif Require Import P_Base P_Options P_Start P_Query P_SearchRun P_LearnRun.
From Verif Require C_Find C_Options C_Program C_Matches C_SearchRun P_Solver.
Import String.StringSyntax Ascii.AsciiSyntax.
From stdpp Require Import options.

(** ** C91 *)
Section learn.
  Context (pf : str -> option f64) (pf32 : str -> option f32) (fmt : f64 -> str) (ws lc alpha : N -> bool) (ln32 : f32 -> f32) (ln : f64 -> f64).
  Context (ps : str -> option (list edit_instruction)) (ses : str -> str -> list edit_instruction) (solve : fst_graph -> nat -> list (list nat * f32)).
  Context (o : list (N * node) -> list (N * node)) (o' : list (str * vocab_id) -> list (str * vocab_id)) (o'' : list (nat * list N) -> list (nat * list N)).
  Context (fs : str -> option (list (option str))) (stdin : list (option str)) (debug : option str) (ts : list typed).
  (** the run with [fuel] steps for every lookup *)
  #[local] Notation runs fuel := (program pf pf32 fmt ws lc alpha ln32 ln ps ses solve o o' o'' fs stdin fuel (Invocation debug (Some Learn) ts)).
  #[local] Notation pairs m P strict := (pairs_of lc ses ln32 ln ws alpha solve m (tp_search P) strict).

  (** With "--strict": every line is looked up as a whole. *)
  Theorem C91_learn_strict P lines m :
    well_typed Learn ts -> learn_asked pf pf32 alpha fs stdin debug ts P true lines -> contents_say ws pf pf32 ps fs Learn ts m -> within_limits m -> room m lines ->
    some_order o -> some_order o' -> some_order o'' -> ~ flag_typed ts "json" -> ~ flag_typed ts "multi-output" ->
    exists all m1 outs, Forall2 (pairs m P true) lines all /\ learned None (concat all) m m1 /\ in_order (concat all) m m1 /\ learned_lines fmt m1 outs /\
      (forall all' m1' outs', Forall2 (pairs m P true) lines all' -> learned None (concat all') m m1' -> in_order (concat all') m m1' -> learned_lines fmt m1' outs' ->
        all' = all /\ outs' = outs) /\
      exists F, forall fuel, F <= fuel -> runs fuel = Outcome (concat (map (fun l => l ++ [10%N]) outs)) Ended.
  Proof.
    intros W A C L R Ho Ho' Ho'' Hj Hm.
    refine (learn_run_tsv pf pf32 fmt ws lc alpha ln32 ln ps ses solve o o' o'' fs ts W debug P stdin true lines A m C L R _ Ho Ho' Ho'' Hj Hm). intros H. discriminate H.
  Qed.
  (** Without: every line is searched, and of every match what was selected counts. *)
  Theorem C91_learn P lines m :
    well_typed Learn ts -> learn_asked pf pf32 alpha fs stdin debug ts P false lines -> contents_say ws pf pf32 ps fs Learn ts m -> within_limits m -> room m lines ->
    counts_say m -> Forall rule_ok (m_context_rules m) -> solver_sound solve -> solver_complete solve -> alpha 32%N = false ->
    some_order o -> some_order o' -> some_order o'' -> ~ flag_typed ts "json" -> ~ flag_typed ts "multi-output" ->
    exists all m1 outs, Forall2 (pairs m P false) lines all /\ learned None (concat all) m m1 /\ in_order (concat all) m m1 /\ learned_lines fmt m1 outs /\
      (forall all' m1' outs', Forall2 (pairs m P false) lines all' -> learned None (concat all') m m1' -> in_order (concat all') m m1' -> learned_lines fmt m1' outs' ->
        all' = all /\ outs' = outs) /\
      exists F, forall fuel, F <= fuel -> runs fuel = Outcome (concat (map (fun l => l ++ [10%N]) outs)) Ended.
  Proof.
    intros W A C L R K Ru Hs Hc Hsp Ho Ho' Ho'' Hj Hm.
    refine (learn_run_tsv pf pf32 fmt ws lc alpha ln32 ln ps ses solve o o' o'' fs ts W debug P stdin false lines A m C L R (fun _ => _) Ho Ho' Ho'' Hj Hm).
    split; [exact K|]. split; [exact Ru|]. split; [exact Hs|]. split; [exact Hc|exact Hsp].
  Qed.
End learn.
Print Assumptions C91_learn_strict.
Print Assumptions C91_learn.

(** files: an alphabet, a lexicon, variants that are known, an input *)
#[local] Notation row := C_Program.row.
#[local] Arguments C_Program.row s%string_scope.
Definition exfs (n : str) : option (list (option str)) :=
  if bool_decide (n = lit "a.tsv") then Some [row "a"; row "b"; row "c"]
  else if bool_decide (n = lit "l.tsv") then Some [row "baaa	9"; row "baab"]
  else if bool_decide (n = lit "v.tsv") then Some [row "baab	bab	0.5"]
  else if bool_decide (n = lit "in.txt") then Some [row "bab baab"; row "baaa"; row "baac"; row "baac"; None; row "bbab"]
  else None.
Definition exts (strict : bool) : list typed := [C_Options.opt "alphabet" "a.tsv"; C_Options.opt "lexicon" "l.tsv"; C_Options.opt "variants" "v.tsv";
  C_Options.opt "max-ngram-order" "2"; C_Options.opt "max-seq" "9"; C_Options.opt "max-edit-distance" "2"; C_Options.opt "max-anagram-distance" "3"; TFile (lit "in.txt")] ++
  if strict then [C_Options.flg "strict"] else [].
Definition exload (strict : bool) := loaded_model C_Options.exnum C_Options.exnum32 C_Matches.space (fun _ => None) Datatypes.id Datatypes.id exfs Learn (exts strict).
Definition exrun (strict : bool) : outcome := program C_Options.exnum C_Options.exnum32 (fun x => if feq x f1 then lit "1" else lit "0.5") C_Matches.space C_Find.lower C_Find.lower C_Matches.step_ln32 C_Matches.step_ln
  (fun _ => None) C_Find.script (P_Solver.some_solver Datatypes.id) Datatypes.id Datatypes.id Datatypes.id exfs [] 1000 (Invocation None (Some Learn) (exts strict)).
Definition exm (strict : bool) : model := C_Find.the (exload strict).
Definition exlines : list str := [lit "bab baab"; lit "baaa"; lit "baac"; lit "baac"].
Lemma exload_ok strict : exload strict = Ok (exm strict).
Proof.
  assert (match exload strict with Ok _ => true | _ => false end = true) as H by (destruct strict; by vm_compute).
  unfold exm. by destruct (exload strict).
Qed.
Lemma extyped strict : well_typed Learn (exts strict).
Proof. apply accepted_spec. destruct strict; by vm_compute. Qed.
Definition exss : list source :=
  [Given (RLexicon (File (lit "l.tsv") [lit "baaa	9"; lit "baab"])); Given (RVariants (File (lit "v.tsv") [lit "baab	bab	0.5"]))].
Lemma exsources strict ss : sources_typed exfs (exts strict) ss -> length ss <= 256.
Proof.
  intros H. enough (ss = exss) as -> by (cbn; lia).
  eapply sources_typed_det; [exact H|]. exists [C_Options.opt "lexicon" "l.tsv"; C_Options.opt "variants" "v.tsv"], exss, []. split; [|split; [|split; [|reflexivity]]].
  - destruct strict; cbv [exts app C_Options.opt C_Options.flg]; repeat first [apply selects_nil
      |apply selects_keep; [by (eexists; first [by left|by right; left|by right; right])|]
      |apply selects_skip; [by intros (n & [[=]|[[=]|[=]]])|]].
  - constructor; [|constructor; [|constructor]]; [eapply given_lexicon|eapply given_variants]; first [done|eexists; by split].
  - exists []. split; [|constructor].
    destruct strict; cbv [exts app C_Options.opt C_Options.flg]; repeat first [apply selects_nil|apply selects_skip; [by intros (n & [=])|]].
Qed.
Lemma exlimits strict : within_limits (exm strict).
Proof.
  split.
  - destruct strict; vm_compute; lia.
  - assert (m_weights (exm strict) = C_Program.the_weights) as -> by (destruct strict; by vm_compute). split; [|by vm_compute]. by repeat (constructor; [by vm_compute|]).
  - destruct strict; vm_compute; lia.
  - assert (forallb (fun v => (count_spaces (vv_text v) <? 255) && (N.of_nat (length (vv_text v)) <? 65536)%N) (m_decoder (exm strict)) = true) as H by (destruct strict; by vm_compute).
    apply Forall_forall. intros v Hv. rewrite forallb_forall in H. apply elem_of_list_In, H in Hv. apply andb_prop in Hv as [H1 H2]. apply Nat.ltb_lt in H1. apply N.ltb_lt in H2. done.
  - destruct strict; by vm_compute.
  - apply C_Find.links_check. destruct strict; by vm_compute.
  - destruct strict; vm_compute; lia.
  - assert (m_confusables (exm strict) = []) as -> by (destruct strict; by vm_compute). constructor.
Qed.
Definition exP (strict : bool) : tool_parameters :=
  match tool_params C_Options.exnum C_Options.exnum32 Learn (exts strict) with Ok P => P | Panic _ => ToolParameters (C_Find.sp (C_Find.upto 3) (C_Find.upto 3) 0 f0 f0 f0) true true 0 f0 end.
Lemma exnames strict : names_typed (exts strict) [lit "in.txt"].
Proof.
  exists [TFile (lit "in.txt")]. split; [|right; split; [done|by repeat constructor]]. destruct strict; cbv [exts app C_Options.opt C_Options.flg];
    repeat first [apply selects_nil|apply selects_keep; [by eexists|]|apply selects_skip; [by intros (n & [=])|]].
Qed.
Lemma exasked strict : learn_asked C_Options.exnum C_Options.exnum32 C_Find.lower exfs [] None (exts strict) (exP strict) strict exlines.
Proof.
  split.
  - done.
  - assert (tool_params C_Options.exnum C_Options.exnum32 Learn (exts strict) = Ok (exP strict)) as E.
    { assert (match tool_params C_Options.exnum C_Options.exnum32 Learn (exts strict) with Ok _ => true | _ => false end = true) as H by (destruct strict; by vm_compute).
      unfold exP. by destruct (tool_params _ _ _ _). }
    apply params_spec in E; [apply E|]. destruct strict; by vm_compute.
  - destruct strict; by vm_compute.
  - destruct strict; by vm_compute.
  - refine (proj1 (parsed_spec Learn (exts strict) (proj2 (accepted_spec _ _) (extyped strict)) parse_small (counts_to 255) _ _ (fun s y => small_spec s y) _) _); destruct strict; by vm_compute.
  - unfold flag_typed. rewrite <- (flag_spec Learn (exts strict) _ (proj2 (accepted_spec _ _) (extyped strict))) by (by vm_compute). destruct strict; by vm_compute.
  - exists (lit "in.txt"), [row "bab baab"; row "baaa"; row "baac"; row "baac"; None; row "bbab"]. split; [apply exnames|]. split.
    + apply inputs_file; [|done|constructor]. unfold standard_input. eapply bool_decide_eq_true_1. by vm_compute.
    + exists [None; row "bbab"]. split; [done|by right].
  - repeat constructor; vm_compute; lia.
  - destruct strict; [repeat constructor; vm_compute; lia|]. split; [vm_compute; lia|].
    assert (Forall (fun s => length s <= 255) exlines) as F by (repeat constructor; vm_compute; lia). eapply Forall_impl; [exact F|]. cbn. intros s Hs. split; [lia|by apply short_text].
Qed.
Lemma excontents strict : contents_say C_Matches.space C_Options.exnum C_Options.exnum32 (fun _ => None) exfs Learn (exts strict) (exm strict).
Proof.
  refine (C_Program.C77_start C_Options.exnum C_Options.exnum32 C_Matches.space (fun _ => None) Datatypes.id Datatypes.id exfs Learn (exts strict) (exm strict) (extyped strict) _ (exsources strict) (exload_ok strict)).
  by intros l.
Qed.
Lemma excounts strict : counts_say (exm strict).
Proof.
  refine (C_SearchRun.C80_counts C_Options.exnum C_Options.exnum32 C_Matches.space (fun _ => None) Datatypes.id Datatypes.id exfs Learn (exts strict) (exm strict) (extyped strict) _ (exsources strict) (exload_ok strict) _); [by intros l|].
  eapply Forall_impl; [exact (wl_entries _ (exlimits strict))|]. by intros v [? _].
Qed.
Lemma exflag strict (l : str) : flag_defined Learn l = true -> is_present Learn (exts strict) l = false -> ~ TFlag l ∈ exts strict.
Proof. intros D E F. apply (flag_spec Learn (exts strict) l (proj2 (accepted_spec _ _) (extyped strict)) D) in F. congruence. Qed.
(** The lexicon has "baaa" and "baab", the latter with the variant "bab"; the
    input ends at an unreadable line.  Looking up whole lines, "baac" becomes a
    variant of both words, and "baaa" one of "baab". *)
Example C91_ex_strict :
  well_typed Learn (exts true) /\ learn_asked C_Options.exnum C_Options.exnum32 C_Find.lower exfs [] None (exts true) (exP true) true exlines /\
  contents_say C_Matches.space C_Options.exnum C_Options.exnum32 (fun _ => None) exfs Learn (exts true) (exm true) /\ within_limits (exm true) /\ room (exm true) exlines /\
  ~ flag_typed (exts true) "json" /\ ~ flag_typed (exts true) "multi-output" /\
  exrun true = Outcome (lit "baaa	baac	0.5
baab	bab	0.5	baaa	0.5	baac	0.5
") Ended.
Proof.
  split; [apply extyped|]. split; [apply exasked|]. split; [apply excontents|]. split; [apply exlimits|]. split; [by vm_compute|].
  split; [apply exflag; by vm_compute|]. split; [apply exflag; by vm_compute|]. by vm_compute.
Qed.
(** Searching the lines, only the best result for "baac" counts. *)
Example C91_ex :
  well_typed Learn (exts false) /\ learn_asked C_Options.exnum C_Options.exnum32 C_Find.lower exfs [] None (exts false) (exP false) false exlines /\
  contents_say C_Matches.space C_Options.exnum C_Options.exnum32 (fun _ => None) exfs Learn (exts false) (exm false) /\ within_limits (exm false) /\ room (exm false) exlines /\
  counts_say (exm false) /\ Forall rule_ok (m_context_rules (exm false)) /\ C_Find.lower 32 = false /\
  solver_sound (P_Solver.some_solver Datatypes.id) /\ solver_complete (P_Solver.some_solver Datatypes.id) /\
  ~ flag_typed (exts false) "json" /\ ~ flag_typed (exts false) "multi-output" /\
  exrun false = Outcome (lit "baaa	baac	0.5
baab	bab	0.5
") Ended.
Proof.
  split; [apply extyped|]. split; [apply exasked|]. split; [apply excontents|]. split; [apply exlimits|]. split; [by vm_compute|]. split; [apply excounts|].
  split. { assert (m_context_rules (exm false) = []) as -> by (by vm_compute). constructor. }
  split; [by vm_compute|]. destruct C_SearchRun.exsolver. split; [done|]. split; [done|].
  split; [apply exflag; by vm_compute|]. split; [apply exflag; by vm_compute|]. by vm_compute.
Qed.
