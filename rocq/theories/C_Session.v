(** Property C84: sessions with the Python bindings, from the calls to the
    objects returned. *)
From Coq Require String Ascii.
From Coq Require Import Lia.
From Verif Require Import M_Base M_Anahash M_Iter M_Distance M_Float M_Types M_Model M_Confusable M_Rules M_Search M_Text M_Values M_Matches M_Cli M_Main.
From Verif Require Import S_Anahash S_Distance S_Text S_Model S_Search S_Lookup S_Rules S_Matches S_Cli S_Main S_SearchAll S_Program.
From Verif Require Import M_Python S_Session P_Base P_Session P_Objects.
From Verif Require C_Find C_Options C_Program C_Matches C_SearchRun P_Solver P_SearchRun.
Import String.StringSyntax Ascii.AsciiSyntax.
From stdpp Require Import options.

(** ** C84 *)
Section session.
  Context (ws : N -> bool) (pf : str -> option f64) (pf32 : str -> option f32) (ps : str -> option (list edit_instruction)).
  Context (o : list (N * node) -> list (N * node)) (o' : list (str * vocab_id) -> list (str * vocab_id)).
  Context (fs : str -> option (list (option str))) (alphabet : str) (w : weights) (cs : list py_call).
  (** the calls on a new model all return, and leave the model [m] *)
  #[local] Notation leaves := (fun m => exists m0, py_model ws fs alphabet w = Returned m0 /\ py_steps ws pf pf32 ps o o' fs m0 cs = Returned m).

  (** The model has the content that the calls and files say. *)
  Theorem C84_session m : orderly cs -> some_order o' -> leaves m ->
    session_says ws pf pf32 ps fs alphabet w cs m /\ (Forall (fun v => count_spaces (vv_text v) < 255) (m_decoder m) -> counts_say m).
  Proof.
    intros Od Ho (m0 & E1 & E2). split; [exact (proj1 (session_content ws pf pf32 ps o o' fs alphabet w cs m0 m Ho Od E1 E2))|].
    exact (session_counts ws pf pf32 ps o o' fs alphabet w cs m0 m Ho Od E1 E2).
  Qed.
  (** They say one content. *)
  Theorem C84_session_unique m m' :
    session_says ws pf pf32 ps fs alphabet w cs m -> session_says ws pf pf32 ps fs alphabet w cs m' -> same_contents m m'.
  Proof. exact (content_unique ws pf pf32 ps (fun l => l) (fun l => l) fs alphabet w cs m m'). Qed.
  (** If they say a content that is within the limits, no call raises or panics. *)
  Theorem C84_session_succeeds m : orderly cs -> some_order o' -> session_says ws pf pf32 ps fs alphabet w cs m -> within_limits m -> exists m', leaves m'.
  Proof.
    intros Od Ho C L. destruct (content_succeeds ws pf pf32 ps o o' fs alphabet w cs m Ho Od C L) as (m0 & m' & E). by exists m', m0.
  Qed.

  (** Lookups return the list that the calls, files and parameters define. *)
  Theorem C84_find_variants m lc ses : orderly cs -> some_order o -> some_order o' ->
    session_says ws pf pf32 ps fs alphabet w cs m -> within_limits m ->
    exists m', leaves m' /\ forall p, weight_single (p_freq_weight p) -> forall q, lookup_line q ->
      exists d, (forall d', variants_object lc ses m p q d' <-> d' = d) /\
        exists F, forall lookup, looks_up lc ses F m' p lookup -> py_find_variants m' (p_freq_weight p) lookup q = Ok d.
  Proof. intros Od Ho Ho' C L. exact (variants_returned ws pf pf32 ps o o' fs Ho Ho' alphabet w cs Od m C L lc ses). Qed.
  Theorem C84_find_variants_par m lc ses : orderly cs -> some_order o -> some_order o' ->
    session_says ws pf pf32 ps fs alphabet w cs m -> within_limits m ->
    exists m', leaves m' /\ forall p, weight_single (p_freq_weight p) -> forall qs, Forall lookup_line qs ->
      exists d, (forall d', inputs_object lc ses m p qs d' <-> d' = d) /\
        exists F, forall lookup, looks_up lc ses F m' p lookup -> py_find_variants_par m' (p_freq_weight p) lookup qs = Ok d.
  Proof. intros Od Ho Ho' C L. exact (inputs_returned ws pf pf32 ps o o' fs Ho Ho' alphabet w cs Od m C L lc ses). Qed.
  (** Searches in running text return the list of matches that they define. *)
  Theorem C84_find_all_matches m lc ses alpha ln32 ln solve : orderly cs -> some_order o -> some_order o' ->
    session_says ws pf pf32 ps fs alphabet w cs m -> within_limits m ->
    counts_say m -> Forall rule_ok (m_context_rules m) -> solver_sound solve -> solver_complete solve -> alpha 32%N = false ->
    exists m', leaves m' /\ forall p, weight_single (p_freq_weight p) -> 0 < p_max_seq p -> forall t, (N.of_nat (length t) < 65281)%N -> short_stretches alpha p t ->
      exists d, (forall d', matches_object lc ses m p ln32 ln ws alpha solve t d' <-> d' = d) /\
        exists F, forall lookup, looks_up lc ses F m' p lookup ->
          py_find_all_matches m' (p_freq_weight p) (fun t => find_all_matches ln32 ln ws solve alpha lookup m' t p) t = Ok d.
  Proof.
    intros Od Ho Ho' C L. exact (matches_returned ws pf pf32 ps o o' fs Ho Ho' alphabet w cs Od m C L lc ses alpha ln32 ln solve).
  Qed.
End session.
Print Assumptions C84_session.
Print Assumptions C84_session_unique.
Print Assumptions C84_session_succeeds.
Print Assumptions C84_find_variants.
Print Assumptions C84_find_variants_par.
Print Assumptions C84_find_all_matches.

(** a session: a lexicon, a variant list, a language model and a single entry; a
    rule before and a rule file after the index is built *)
#[local] Notation row := C_Program.row.
#[local] Arguments C_Program.row s%string_scope.
#[local] Arguments lit s%string_scope.
Definition exfs (n : str) : option (list (option str)) :=
  if bool_decide (n = lit "v.tsv") then Some [row "baab	baba	0.5"] else C_SearchRun.exfs n.
Definition excs : list py_call := [CLexicon (lit "l.tsv"); CEarly; CVariantList (lit "v.tsv") true; CLanguageModel (lit "lm.tsv");
  CAdd (lit "cab") (Some 4%N) vocab_params_default; CRule (lit "cab") (S754_finite false 8388608 (-22)) [lit "z"] []; CBuild; CRules (lit "r.tsv")].
Definition exsession : pyres model := pybind (py_model C_Matches.space exfs (lit "a.tsv") C_Program.the_weights)
  (fun m => py_steps C_Matches.space C_Options.exnum C_Options.exnum32 (fun _ => None) Datatypes.id Datatypes.id exfs m excs).
Definition exm : model := match exsession with Returned m => m | _ => model_new C_Matches.space [] C_Program.the_weights end.
Lemma exsession_ok : exists m0, py_model C_Matches.space exfs (lit "a.tsv") C_Program.the_weights = Returned m0 /\
  py_steps C_Matches.space C_Options.exnum C_Options.exnum32 (fun _ => None) Datatypes.id Datatypes.id exfs m0 excs = Returned exm.
Proof.
  assert (match exsession with Returned _ => true | _ => false end = true) as H by (by vm_compute).
  unfold exm, exsession in *. destruct (py_model _ _ _ _) as [m0| |]; cbn [pybind] in *; [|done..]. exists m0. split; [done|]. by destruct (py_steps _ _ _ _ _ _ _ _ _).
Qed.
Lemma exorderly : orderly excs.
Proof.
  split.
  - exists (take 6 excs), (drop 7 excs). split; [done|]. split; [by repeat (constructor; [by intros [=]|])|].
    constructor; [|constructor]. split; [done|]. intros (n & p & H). inversion H.
  - intros before c after E Hg.
    repeat match goal with E : _ = ?b ++ _ |- _ => is_var b; destruct b as [|? ?]; [injection E as <- <-; try (by destruct Hg)|cbn [app] in E; injection E as _ E] end.
    + repeat (apply Forall_cons; split; [intros (? & ? & X); inversion X|]). constructor.
    + by destruct (app_cons_not_nil _ _ _ E).
  - intros t f p H. assert (f = Some 4%N) as ->; [|done]. unfold excs in H. repeat (apply elem_of_cons in H as [H|H]; [by inversion H|]). by apply elem_of_nil in H.
  - intros files H. assert (length files <= length excs) as Hl; [|cbn in Hl; lia]. induction H; cbn; lia.
Qed.

Lemma exlimits : within_limits exm.
Proof.
  split.
  - vm_compute; lia.
  - assert (m_weights exm = C_Program.the_weights) as -> by (by vm_compute). split; [|by vm_compute]. by repeat (constructor; [by vm_compute|]).
  - vm_compute; lia.
  - assert (forallb (fun v => (count_spaces (vv_text v) <? 255) && (N.of_nat (length (vv_text v)) <? 65536)%N) (m_decoder exm) = true) as H by (by vm_compute).
    apply Forall_forall. intros v Hv. rewrite forallb_forall in H. apply elem_of_list_In, H in Hv. apply andb_prop in Hv as [H1 H2]. apply Nat.ltb_lt in H1. apply N.ltb_lt in H2. done.
  - by vm_compute.
  - apply C_Find.links_check. by vm_compute.
  - vm_compute; lia.
  - assert (m_confusables exm = []) as -> by (by vm_compute). constructor.
Qed.
Lemma excontents : session_says C_Matches.space C_Options.exnum C_Options.exnum32 (fun _ => None) exfs (lit "a.tsv") C_Program.the_weights excs exm /\ counts_say exm.
Proof.
  destruct (C84_session C_Matches.space C_Options.exnum C_Options.exnum32 (fun _ => None) Datatypes.id Datatypes.id exfs (lit "a.tsv") C_Program.the_weights excs exm) as [H1 H2];
    [exact exorderly|by intros l|exact exsession_ok|]. split; [done|]. apply H2. eapply Forall_impl; [exact (wl_entries _ exlimits)|]. by intros v [? _].
Qed.
Lemma exrules : m_context_rules exm = [
    {| cr_pattern := [PVocab 7]; cr_score := S754_finite false 8388608 (-22); cr_tag := [0]%N; cr_tagoffset := [(0, 1)] |};
    {| cr_pattern := [PVocab 4; PFromLexicon 0]; cr_score := S754_finite false 12582912 (-22); cr_tag := [1; 2]%N; cr_tagoffset := [(0, 1); (1, 1)] |}].
Proof. by vm_compute. Qed.
Definition exp : search_parameters := SearchParameters (TAbsolute 2) (TAbsolute 2) 20 f0 f0 Exhaustive 2 9 f1 f1 f1 f0 true.
Definition ask (q : str) : res (list variant_result) := find_variants C_Find.lower C_Find.script 1000 Datatypes.id exm q exp.
Definition exsearch (t : str) : res (list tmatch) :=
  find_all_matches C_Matches.step_ln32 C_Matches.step_ln C_Matches.space (P_Solver.some_solver Datatypes.id) C_Find.lower ask exm t exp.
Lemma exsolver : solver_sound (P_Solver.some_solver Datatypes.id) /\ solver_complete (P_Solver.some_solver Datatypes.id).
Proof. split; [apply P_Solver.some_solver_sound; by intros l|apply P_Solver.some_solver_complete; by intros l]. Qed.
(** The calls return; what they say is within the limits; what lookups and
    searches return. *)
Example C84_ex :
  orderly excs /\ (exists m0, py_model C_Matches.space exfs (lit "a.tsv") C_Program.the_weights = Returned m0 /\
    py_steps C_Matches.space C_Options.exnum C_Options.exnum32 (fun _ => None) Datatypes.id Datatypes.id exfs m0 excs = Returned exm) /\
  session_says C_Matches.space C_Options.exnum C_Options.exnum32 (fun _ => None) exfs (lit "a.tsv") C_Program.the_weights excs exm /\ within_limits exm /\
  counts_say exm /\ m_have_lm exm = true /\ m_confusables_before_pruning exm = true /\ m_lexicons exm = [lit "l.tsv"; lit "v.tsv"; lit "lm.tsv"] /\
  Forall rule_ok (m_context_rules exm) /\ length (m_context_rules exm) = 2 /\ weight_single (p_freq_weight exp) /\ 0 < p_max_seq exp /\
  solver_sound (P_Solver.some_solver Datatypes.id) /\ solver_complete (P_Solver.some_solver Datatypes.id) /\ lookup_line (lit "babb") /\ short_stretches C_Find.lower exp (lit "cab baab baaa").
Proof.
  split; [exact exorderly|]. split; [exact exsession_ok|]. destruct excontents. split; [done|]. split; [exact exlimits|]. split; [done|]. split; [by vm_compute|]. split; [by vm_compute|].
  split; [by vm_compute|]. split; [|split; [by rewrite exrules|]].
  - rewrite exrules. constructor; [|constructor; [|constructor]]; (split; [by repeat constructor|]); (split; [repeat constructor; cbn; lia|cbn; lia]).
  - split; [done|]. split; [cbn; lia|]. destruct exsolver. split; [done|]. split; [done|]. split; [unfold lookup_line; cbn; lia|]. apply P_SearchRun.short_text. cbn. lia.
Qed.
Definition dnum (m : positive) (e : Z) : pyval := PyFloat (S754_finite false m e).
Example C84_ex_find : py_find_variants_par exm f0 ask [lit "babb"; lit "acc"] = Ok (PyList
  [PyDict [(lit "input", PyStr (lit "babb")); (lit "variants", PyList
     [PyDict [(lit "text", PyStr (lit "baab")); (lit "score", dnum 5910974510923776 (-53)); (lit "dist_score", dnum 5910974510923776 (-53));
              (lit "freq_score", dnum 4503599627370496 (-52)); (lit "lexicons", PyList [PyStr (lit "l.tsv"); PyStr (lit "v.tsv"); PyStr (lit "lm.tsv")])]])];
   PyDict [(lit "input", PyStr (lit "acc")); (lit "variants", PyList [])]]) /\
  py_find_variants exm f0 ask (lit "acc") = Ok (PyList []).
Proof. split; by vm_compute. Qed.
(** only the first variant of each match *)
Definition first_variant (v : pyval) : pyval :=
  match v with PyDict l => PyDict (map (fun kv : str * pyval => match kv.2 with PyList (x :: _) => (kv.1, PyList [x]) | _ => kv end) l) | _ => v end.
Example C84_ex_search : rmap (fun d => match d with PyList l => map first_variant l | _ => [] end) (py_find_all_matches exm f0 exsearch (lit "baab cab")) = Ok
  [PyDict [(lit "input", PyStr (lit "baab")); (lit "offset", PyDict [(lit "begin", PyInt 0); (lit "end", PyInt 4)]); (lit "tag", PyList [PyStr (lit "x")]); (lit "seqnr", PyList [PyInt 0]);
     (lit "variants", PyList [PyDict [(lit "text", PyStr (lit "baab")); (lit "score", dnum 4503599627370496 (-52)); (lit "dist_score", dnum 4503599627370496 (-52));
              (lit "freq_score", dnum 7005599420354105 (-53)); (lit "lexicons", PyList [PyStr (lit "l.tsv"); PyStr (lit "v.tsv"); PyStr (lit "lm.tsv")])]])];
   PyDict [(lit "input", PyStr (lit "cab")); (lit "offset", PyDict [(lit "begin", PyInt 5); (lit "end", PyInt 8)]); (lit "tag", PyList [PyStr (lit "y")]); (lit "seqnr", PyList [PyInt 0]);
     (lit "variants", PyList [PyDict [(lit "text", PyStr (lit "cab")); (lit "score", dnum 4503599627370496 (-52)); (lit "dist_score", dnum 4503599627370496 (-52));
              (lit "freq_score", dnum 4503599627370496 (-52)); (lit "lexicons", PyList [PyStr (lit "l.tsv")])]])]].
Proof. by vm_compute. Qed.
