(** Property C98: learning mode with several iterations and inputs, from the
    command line to the output. *)
From Coq Require String Ascii.
From Coq Require Import Lia.
From Verif Require Import M_Base M_Utf8 M_Anahash M_Iter M_Distance M_Float M_Types M_Model M_Confusable M_ConfList M_Rules M_Search M_Text M_Values.
From Verif Require Import M_Matches M_Learn M_Cli M_Main M_Options M_Program.
From Verif Require Import S_Anahash S_Distance S_Text S_Model S_Search S_Lookup S_Values S_Rules S_Matches S_Learn S_Cli S_Main S_Options S_SearchAll S_Program S_SearchRun S_LearnRun S_LearnMore.
From Verif Require Import P_Base P_Options P_Start P_Query P_SearchRun P_LearnRun P_LearnMore.
From Verif Require C_Find C_Options C_Program C_Matches C_SearchRun C_LearnRun P_Solver.
Import String.StringSyntax Ascii.AsciiSyntax.
From stdpp Require Import options.

(** ** C98 *)
Section learn.
  Context (pf : str -> option f64) (pf32 : str -> option f32) (fmt : f64 -> str) (ws lc alpha : N -> bool) (ln32 : f32 -> f32) (ln : f64 -> f64).
  Context (ps : str -> option (list edit_instruction)) (ses : str -> str -> list edit_instruction) (solve : fst_graph -> nat -> list (list nat * f32)).
  Context (o : list (N * node) -> list (N * node)) (o' : list (str * vocab_id) -> list (str * vocab_id)) (o'' : list (nat * list N) -> list (nat * list N)).
  Context (fs : str -> option (list (option str))) (stdin : list (option str)) (debug : option str) (ts : list typed).
  #[local] Notation runs fuel := (program pf pf32 fmt ws lc alpha ln32 ln ps ses solve o o' o'' fs stdin fuel (Invocation debug (Some Learn) ts)).

  (** Any number of iterations and of inputs, with "--strict" and without confusables. *)
  Theorem C98_repeated P k lls m :
    well_typed Learn ts -> strict_asked pf pf32 fs stdin debug ts P k lls -> contents_say ws pf pf32 ps fs Learn ts m -> within_limits m ->
    m_confusables m = [] -> room_for m (k * length lls) (all_bytes lls) ->
    some_order o -> some_order o' -> some_order o'' -> ~ flag_typed ts "json" -> ~ flag_typed ts "multi-output" ->
    exists outs, learned_from lc ses (tp_search P) fmt k lls m outs /\
      exists F, forall fuel, F <= fuel -> runs fuel = Outcome (concat (map (fun l => l ++ [10%N]) outs)) Ended.
  Proof.
    intros W A C L Cf R Ho Ho' Ho'' Hj Hm.
    exact (more_run pf pf32 fmt ws lc alpha ln32 ln ps ses solve o o' o'' fs ts W debug P stdin k lls A m C L Cf R Ho Ho' Ho'' Hj Hm).
  Qed.
End learn.
Print Assumptions C98_repeated.

(** Entries stay where they are, and keep their variants, whatever is learned. *)
Theorem C98_kept lc ses p lines k m m' : iterations lc ses p lines k m m' ->
  forall id v, m_decoder m !! id = Some v ->
    exists v', m_decoder m' !! id = Some v' /\ vv_text v' = vv_text v /\ stored_variants v `prefix_of` stored_variants v' /\ (vv_frequency v <= vv_frequency v')%N.
Proof.
  assert (forall l m m1, iteration lc ses p lines m l m1 -> forall id v, m_decoder m !! id = Some v ->
    exists v', m_decoder m1 !! id = Some v' /\ vv_text v' = vv_text v /\ stored_variants v `prefix_of` stored_variants v' /\ (vv_frequency v <= vv_frequency v')%N) as One.
  { intros l m1 m2 (all & _ & _ & L & _) id v D. destruct (le_old _ _ _ _ L id v D) as (v' & D' & K). exists v'. split; [done|]. split; [apply K|]. split.
    - rewrite (el_variants _ _ _ _ _ K). by eexists.
    - rewrite (el_frequency _ _ _ _ _ K). lia. }
  induction 1 as [m|k m l m1 It _|k m l m1 m2 It _ _ IH]; intros id v D.
  - exists v. split; [done|]. split; [done|]. split; [reflexivity|apply N.le_refl].
  - by eapply One.
  - destruct (One _ _ _ It id v D) as (v1 & D1 & T1 & P1 & F1). destruct (IH id v1 D1) as (v2 & D2 & T2 & P2 & F2). exists v2. split; [done|]. split; [congruence|].
    split; [by etransitivity|]. by eapply N.le_trans.
Qed.
Print Assumptions C98_kept.

(** two iterations over two inputs; the second is standard input *)
#[local] Notation row := C_Program.row.
#[local] Arguments C_Program.row s%string_scope.
Definition exfs (n : str) : option (list (option str)) :=
  if bool_decide (n = lit "a.tsv") then Some [row "a"; row "b"; row "c"]
  else if bool_decide (n = lit "l.tsv") then Some [row "baaa	9"; row "baab"]
  else if bool_decide (n = lit "in.txt") then Some [row "baac"; row "baac"; None; row "bbab"]
  else None.
Definition exstdin : list (option str) := [row "bbab"].
Definition exts : list typed := [C_Options.opt "alphabet" "a.tsv"; C_Options.opt "lexicon" "l.tsv"; C_Options.opt "iterations" "2";
  C_Options.opt "max-ngram-order" "2"; C_Options.opt "max-seq" "9"; C_Options.opt "max-edit-distance" "1"; C_Options.opt "max-anagram-distance" "3"; TFile (lit "in.txt"); TFile (lit "-"); C_Options.flg "strict"].
Definition exload := loaded_model C_Options.exnum C_Options.exnum32 C_Matches.space (fun _ => None) Datatypes.id Datatypes.id exfs Learn exts.
Definition exrun : outcome := program C_Options.exnum C_Options.exnum32 (fun x => if feq x f1 then lit "1" else lit "0.5") C_Matches.space C_Find.lower C_Find.lower C_Matches.step_ln32 C_Matches.step_ln
  (fun _ => None) C_Find.script (P_Solver.some_solver Datatypes.id) Datatypes.id Datatypes.id Datatypes.id exfs exstdin 1000 (Invocation None (Some Learn) exts).
Definition exm : model := C_Find.the exload.
Definition exlls : list (list str) := [[lit "baac"; lit "baac"]; [lit "bbab"]].
Lemma exload_ok : exload = Ok exm.
Proof.
  assert (match exload with Ok _ => true | _ => false end = true) as H by (by vm_compute).
  unfold exm. by destruct exload.
Qed.
Lemma extyped : well_typed Learn exts.
Proof. apply accepted_spec. by vm_compute. Qed.
Definition exss : list source := [Given (RLexicon (File (lit "l.tsv") [lit "baaa	9"; lit "baab"]))].
Lemma exsources ss : sources_typed exfs exts ss -> length ss <= 256.
Proof.
  intros H. enough (ss = exss) as -> by (cbn; lia).
  eapply sources_typed_det; [exact H|]. exists [C_Options.opt "lexicon" "l.tsv"], exss, []. split; [|split; [|split; [|reflexivity]]].
  - cbv [exts app C_Options.opt C_Options.flg]; repeat first [apply selects_nil
      |apply selects_keep; [by (eexists; first [by left|by right; left|by right; right])|]
      |apply selects_skip; [by intros (n & [[=]|[[=]|[=]]])|]].
  - constructor; [|constructor]; eapply given_lexicon; first [done|eexists; by split].
  - exists []. split; [|constructor].
    cbv [exts app C_Options.opt C_Options.flg]; repeat first [apply selects_nil|apply selects_skip; [by intros (n & [=])|]].
Qed.
Lemma exlimits : within_limits exm.
Proof.
  split.
  - vm_compute; lia.
  - assert (m_weights exm = C_Program.the_weights) as -> by (by vm_compute). split; [|by vm_compute]. by repeat (constructor; [by vm_compute|]).
  - vm_compute; lia.
  - assert (forallb (fun v => (count_spaces (vv_text v) <? 255) && (N.of_nat (length (vv_text v)) <? 65536)%N) (m_decoder exm) = true) as H by (by vm_compute).
    apply Forall_forall. intros v Hv. rewrite forallb_forall in H. apply elem_of_list_In, H in Hv. apply andb_prop in Hv as [H1 H2]. apply Nat.ltb_lt in H1. apply N.ltb_lt in H2. done.
  - by vm_compute.
  - apply C_Find.links_check. by vm_compute.
  - vm_compute; lia.
  - assert (m_confusables exm = []) as -> by (by vm_compute). constructor.
Qed.
Definition exP : tool_parameters :=
  match tool_params C_Options.exnum C_Options.exnum32 Learn exts with Ok P => P | Panic _ => ToolParameters (C_Find.sp (C_Find.upto 3) (C_Find.upto 3) 0 f0 f0 f0) true true 0 f0 end.
Lemma exnames : names_typed exts [lit "in.txt"; lit "-"].
Proof.
  exists [TFile (lit "in.txt"); TFile (lit "-")]. split; [|right; split; [done|by repeat constructor]]. cbv [exts app C_Options.opt C_Options.flg];
    repeat first [apply selects_nil|apply selects_keep; [by eexists|]|apply selects_skip; [by intros (n & [=])|]].
Qed.
Lemma exasked : strict_asked C_Options.exnum C_Options.exnum32 exfs exstdin None exts exP 2 exlls.
Proof.
  split.
  - done.
  - assert (tool_params C_Options.exnum C_Options.exnum32 Learn exts = Ok exP) as E.
    { assert (match tool_params C_Options.exnum C_Options.exnum32 Learn exts with Ok _ => true | _ => false end = true) as H by (by vm_compute).
      unfold exP. by destruct (tool_params _ _ _ _). }
    apply params_spec in E; [apply E|]. by vm_compute.
  - by vm_compute.
  - by vm_compute.
  - refine (proj1 (parsed_spec Learn exts (proj2 (accepted_spec _ _) extyped) parse_small (counts_to 255) _ _ (fun s y => small_spec s y) _) _); by vm_compute.
  - unfold flag_typed. rewrite <- (flag_spec Learn exts _ (proj2 (accepted_spec _ _) extyped)) by (by vm_compute). by vm_compute.
  - exists [lit "in.txt"; lit "-"], [[row "baac"; row "baac"; None; row "bbab"]; exstdin]. split; [apply exnames|]. split.
    + apply inputs_file; [|done|]. { unfold standard_input. eapply bool_decide_eq_true_1. by vm_compute. }
      apply inputs_stdin; [|constructor]. unfold standard_input. eapply bool_decide_eq_true_1. by vm_compute.
    + constructor; [|constructor; [|constructor]].
      * exists [None; row "bbab"]. split; [done|by right].
      * exists []. split; [done|by left].
  - repeat constructor; vm_compute; lia.
Qed.
Lemma excontents : contents_say C_Matches.space C_Options.exnum C_Options.exnum32 (fun _ => None) exfs Learn exts exm.
Proof.
  refine (C_Program.C77_start C_Options.exnum C_Options.exnum32 C_Matches.space (fun _ => None) Datatypes.id Datatypes.id exfs Learn exts exm extyped _ exsources exload_ok).
  by intros l.
Qed.
Lemma exflag (l : str) : flag_defined Learn l = true -> is_present Learn exts l = false -> ~ TFlag l ∈ exts.
Proof. intros D E F. apply (flag_spec Learn exts l (proj2 (accepted_spec _ _) extyped) D) in F. congruence. Qed.
(** The variants from the first input are printed again after the second. *)
Example C98_ex :
  well_typed Learn exts /\ strict_asked C_Options.exnum C_Options.exnum32 exfs exstdin None exts exP 2 exlls /\
  contents_say C_Matches.space C_Options.exnum C_Options.exnum32 (fun _ => None) exfs Learn exts exm /\ within_limits exm /\
  m_confusables exm = [] /\ room_for exm (2 * length exlls) (all_bytes exlls) /\
  ~ flag_typed exts "json" /\ ~ flag_typed exts "multi-output" /\
  exrun = Outcome (lit "baaa	baac	0.5
baab	baac	0.5
baaa	baac	0.5
baab	baac	0.5	bbab	0.5
") Ended.
Proof.
  split; [apply extyped|]. split; [apply exasked|]. split; [apply excontents|]. split; [apply exlimits|]. split; [by vm_compute|]. split; [by vm_compute|].
  split; [apply exflag; by vm_compute|]. split; [apply exflag; by vm_compute|]. by vm_compute.
Qed.
