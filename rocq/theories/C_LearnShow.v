(** Property C100: learning mode with "--json" and "--multi-output", from the
    command line to the output. *)
From Coq Require String Ascii.
From Coq Require Import Lia.
From Verif Require Import M_Base M_Utf8 M_Anahash M_Iter M_Distance M_Float M_Types M_Model M_Confusable M_ConfList M_Rules M_Search M_Text M_Values.
From Verif Require Import M_Matches M_Learn M_Cli M_Main M_Options M_Program.
From Verif Require Import S_Anahash S_Distance S_Text S_Model S_Search S_Lookup S_Values S_Rules S_Matches S_Learn S_Cli S_Main S_Options S_SearchAll S_Program S_SearchRun S_LearnRun S_LearnMore S_LearnShow.
From Verif Require Import P_Base P_Options P_Start P_Query P_SearchRun P_LearnRun P_LearnMore P_LearnShow P_LearnJson.
From Verif Require C_Find C_Options C_Program C_Matches C_SearchRun C_LearnRun C_Multi P_Solver.
Import String.StringSyntax Ascii.AsciiSyntax.
From stdpp Require Import options.
#[local] Arguments lit s%string_scope.

(** ** C100 *)
Section learn.
  Context (pf : str -> option f64) (pf32 : str -> option f32) (fmt : f64 -> str) (ws lc alpha : N -> bool) (ln32 : f32 -> f32) (ln : f64 -> f64).
  Context (ps : str -> option (list edit_instruction)) (ses : str -> str -> list edit_instruction) (solve : fst_graph -> nat -> list (list nat * f32)).
  Context (o : list (N * node) -> list (N * node)) (o' : list (str * vocab_id) -> list (str * vocab_id)) (o'' : list (nat * list N) -> list (nat * list N)).
  Context (fs : str -> option (list (option str))) (stdin : list (option str)) (debug : option str) (ts : list typed).
  #[local] Notation runs fuel := (program pf pf32 fmt ws lc alpha ln32 ln ps ses solve o o' o'' fs stdin fuel (Invocation debug (Some Learn) ts)).
  #[local] Notation models P k lls m ms := (learned_models lc ses (tp_search P) k lls m ms).

  Lemma present_flag l : well_typed Learn ts -> flag_defined Learn l = true -> TFlag l ∈ ts -> is_present Learn ts l = true.
  Proof. intros W D F. by apply (flags ts W l D). Qed.
  Lemma absent_flag l : well_typed Learn ts -> flag_defined Learn l = true -> ~ TFlag l ∈ ts -> is_present Learn ts l = false.
  Proof. intros W D F. destruct (is_present Learn ts l) eqn:E; [|done]. exfalso. by apply F, (flags ts W l D). Qed.
  Lemma models_length P k lls m ms : models P k lls m ms -> length ms = length lls.
  Proof. induction 1 as [|lines lls m m1 ms _ _ IH]; cbn; [done|by f_equal]. Qed.
  Lemma models_good P k lls m ms : contents_say ws pf pf32 ps fs Learn ts m -> models P k lls m ms -> Forall (fun m1 => exists mi B, P_LearnMore.state (tp_search P) m1 mi B) ms ->
    all_clean m -> Forall (Forall clean) lls -> Forall (fun m1 => good m1 /\ variants_inside m1) ms.
  Proof.
    intros C M Fi Hc Hl. pose proof (models_stay lc ses (tp_search P) lls k m ms M Hl (conj (contents_mirrored _ _ _ _ _ _ _ _ C) Hc)) as Fs.
    apply Forall_forall. intros m1 H1. rewrite Forall_forall in Fi, Fs. destruct (Fi m1 H1) as (mi & B & St). destruct (Fs m1 H1) as [Mi Hc1].
    split; [|exact (st_inside _ _ _ _ St)]. split; [done|]. exact (state_finite _ _ _ _ St Mi).
  Qed.

  (** The words that have variants, one on each line, after each input. *)
  Theorem C100_words P k lls m :
    well_typed Learn ts -> strict_asked pf pf32 fs stdin debug ts P k lls -> contents_say ws pf pf32 ps fs Learn ts m -> within_limits m ->
    m_confusables m = [] -> room_for m (k * length lls) (all_bytes lls) ->
    some_order o -> some_order o' -> some_order o'' -> ~ flag_typed ts "json" -> flag_typed ts "multi-output" ->
    exists ms outs, models P k lls m ms /\ Forall2 words_shown ms outs /\ exists F, forall fuel, F <= fuel -> runs fuel = Outcome (concat outs) Ended.
  Proof.
    intros W A C L Cf R Ho Ho' Ho'' Hj Hm.
    destruct (shown_run pf pf32 fmt ws lc alpha ln32 ln ps ses solve o o' o'' fs ts W debug P stdin k lls A m C L Cf R Ho Ho' Ho'') as (ms & M & Fi & F & HF).
    unfold typed_json, typed_multi in HF. rewrite (absent_flag (lit "json") W eq_refl Hj), (present_flag (lit "multi-output") W eq_refl Hm) in HF.
    exists ms, (map (fun m1 => p_out (shows fmt true false m1)) ms). split; [done|]. split.
    - apply Forall2_fmap_r, Forall_Forall2_diag. eapply Forall_impl; [exact Fi|]. intros m1 (mi & B & St). exact (words_out fmt m1 (st_inside _ _ _ _ St)).
    - exists F. intros fuel Hf. rewrite (HF fuel Hf). cbn [app]. by rewrite app_nil_r.
  Qed.

  (** "--json": after each input an object with the words and their variants. This
      is JSON only if there is one input and no word has variants. *)
  Theorem C100_json P k lls m :
    well_typed Learn ts -> strict_asked pf pf32 fs stdin debug ts P k lls -> contents_say ws pf pf32 ps fs Learn ts m -> within_limits m ->
    m_confusables m = [] -> room_for m (k * length lls) (all_bytes lls) ->
    some_order o -> some_order o' -> some_order o'' -> flag_typed ts "json" -> ~ flag_typed ts "multi-output" ->
    all_clean m -> Forall (Forall clean) lls -> (forall x, finite x -> number (fmt x)) ->
    exists ms out, models P k lls m ms /\ array_shown (fun m1 => object_shown (word_shown fmt m1) m1) ms out /\
      (json_text out <-> length lls <= 1 /\ Forall no_variants ms) /\
      exists F, forall fuel, F <= fuel -> runs fuel = Outcome out Ended.
  Proof.
    intros W A C L Cf R Ho Ho' Ho'' Hj Hm Hc Hl Hfmt.
    destruct (shown_run pf pf32 fmt ws lc alpha ln32 ln ps ses solve o o' o'' fs ts W debug P stdin k lls A m C L Cf R Ho Ho' Ho'') as (ms & M & Fi & F & HF).
    unfold typed_json, typed_multi in HF. rewrite (present_flag (lit "json") W eq_refl Hj), (absent_flag (lit "multi-output") W eq_refl Hm) in HF.
    pose proof (models_good P k lls m ms C M Fi Hc Hl) as G.
    eexists ms, (lit "[" ++ newline ++ concat (map (fun m1 => p_out (shows fmt false true m1)) ms) ++ lit "]" ++ newline). split; [done|]. split; [|split].
    - eexists. split; [|reflexivity]. apply Forall2_fmap_r, Forall_Forall2_diag. eapply Forall_impl; [exact G|]. intros m1 [[Hc1 _] V]. exact (object_out fmt m1 V Hc1).
    - rewrite <- (models_length P k lls m ms M). apply (json_whole fmt Hfmt ms). eapply Forall_impl; [exact G|]. by intros m1 [? _].
    - exists F. intros fuel Hf. rewrite (HF fuel Hf). by rewrite <- !app_assoc.
  Qed.

  (** Both: the words with empty lists. This is JSON only if there is one input and
      at most one word has variants. *)
  Theorem C100_multi_json P k lls m :
    well_typed Learn ts -> strict_asked pf pf32 fs stdin debug ts P k lls -> contents_say ws pf pf32 ps fs Learn ts m -> within_limits m ->
    m_confusables m = [] -> room_for m (k * length lls) (all_bytes lls) ->
    some_order o -> some_order o' -> some_order o'' -> flag_typed ts "json" -> flag_typed ts "multi-output" ->
    all_clean m -> Forall (Forall clean) lls ->
    exists ms out, models P k lls m ms /\ array_shown (object_shown word_shown_only) ms out /\
      (json_text out <-> length lls <= 1 /\ Forall one_variant_list ms) /\
      exists F, forall fuel, F <= fuel -> runs fuel = Outcome out Ended.
  Proof.
    intros W A C L Cf R Ho Ho' Ho'' Hj Hm Hc Hl.
    destruct (shown_run pf pf32 fmt ws lc alpha ln32 ln ps ses solve o o' o'' fs ts W debug P stdin k lls A m C L Cf R Ho Ho' Ho'') as (ms & M & Fi & F & HF).
    unfold typed_json, typed_multi in HF. rewrite (present_flag (lit "json") W eq_refl Hj), (present_flag (lit "multi-output") W eq_refl Hm) in HF.
    pose proof (models_good P k lls m ms C M Fi Hc Hl) as G.
    assert (Forall2 (object_shown word_shown_only) ms (map (fun m1 => p_out (shows fmt true true m1)) ms)) as S.
    { apply Forall2_fmap_r, Forall_Forall2_diag. eapply Forall_impl; [exact G|]. intros m1 [[Hc1 _] V]. exact (only_out fmt m1 V Hc1). }
    eexists ms, (lit "[" ++ newline ++ concat (map (fun m1 => p_out (shows fmt true true m1)) ms) ++ lit "]" ++ newline). split; [done|]. split; [|split].
    - eexists. split; [exact S|reflexivity].
    - rewrite <- (models_length P k lls m ms M). exact (only_whole ms _ S).
    - exists F. intros fuel Hf. rewrite (HF fuel Hf). by rewrite <- !app_assoc.
  Qed.
End learn.
Print Assumptions C100_words.
Print Assumptions C100_json.
Print Assumptions C100_multi_json.

(** ** Cases that meet the hypotheses *)
(** two iterations over one input, with the flags asked for *)
#[local] Notation row := C_Program.row.
#[local] Arguments C_Program.row s%string_scope.
Definition exfs (n : str) : option (list (option str)) :=
  if bool_decide (n = lit "a.tsv") then Some [row "a"; row "b"; row "c"]
  else if bool_decide (n = lit "l.tsv") then Some [row "baaa	9"; row "baab"]
  else if bool_decide (n = lit "in.txt") then Some [row "baac"; row "baac"; None; row "bbab"]
  else if bool_decide (n = lit "none.txt") then Some [row "c"]
  else None.
Definition exstdin : list (option str) := [row "bbab"].
Definition exts (n : str) (mu js : bool) : list typed := [C_Options.opt "alphabet" "a.tsv"; C_Options.opt "lexicon" "l.tsv"; C_Options.opt "iterations" "2";
  C_Options.opt "max-ngram-order" "2"; C_Options.opt "max-seq" "9"; C_Options.opt "max-edit-distance" "1"; C_Options.opt "max-anagram-distance" "3"; TFile n; C_Options.flg "strict"] ++
  (if mu then [C_Options.flg "multi-output"] else []) ++ (if js then [C_Options.flg "json"] else []).
Definition exload (mu js : bool) := loaded_model C_Options.exnum C_Options.exnum32 C_Matches.space (fun _ => None) Datatypes.id Datatypes.id exfs Learn (exts (lit "in.txt") mu js).
Definition exrun (n : str) (mu js : bool) : outcome := program C_Options.exnum C_Options.exnum32 C_Multi.half C_Matches.space C_Find.lower C_Find.lower C_Matches.step_ln32 C_Matches.step_ln
  (fun _ => None) C_Find.script (P_Solver.some_solver Datatypes.id) Datatypes.id Datatypes.id Datatypes.id exfs exstdin 1000 (Invocation None (Some Learn) (exts n mu js)).
Definition exm (mu js : bool) : model := C_Find.the (exload mu js).
Definition exlls : list (list str) := [[lit "baac"; lit "baac"]].
Definition exP (mu js : bool) : tool_parameters :=
  match tool_params C_Options.exnum C_Options.exnum32 Learn (exts (lit "in.txt") mu js) with Ok P => P | Panic _ => ToolParameters (C_Find.sp (C_Find.upto 3) (C_Find.upto 3) 0 f0 f0 f0) true true 0 f0 end.
Section flags.
  Context (mu js : bool).
  #[local] Notation xts := (exts (lit "in.txt") mu js).
  #[local] Notation xm := (exm mu js).
Lemma exload_ok : exload mu js = Ok xm.
Proof.
  assert (match exload mu js with Ok _ => true | _ => false end = true) as H by (by (destruct mu, js; vm_compute)).
  unfold exm. by destruct (exload mu js).
Qed.
Lemma extyped : well_typed Learn xts.
Proof. apply accepted_spec. by (destruct mu, js; vm_compute). Qed.
Definition exss : list source := [Given (RLexicon (File (lit "l.tsv") [lit "baaa	9"; lit "baab"]))].
Lemma exsources ss : sources_typed exfs xts ss -> length ss <= 256.
Proof.
  intros H. enough (ss = exss) as -> by (cbn; lia).
  eapply sources_typed_det; [exact H|]. exists [C_Options.opt "lexicon" "l.tsv"], exss, []. split; [|split; [|split; [|reflexivity]]].
  - destruct mu, js; cbv [exts app C_Options.opt C_Options.flg]; repeat first [apply selects_nil
      |apply selects_keep; [by (eexists; first [by left|by right; left|by right; right])|]
      |apply selects_skip; [by intros (n & [[=]|[[=]|[=]]])|]].
  - constructor; [|constructor]; eapply given_lexicon; first [done|eexists; by split].
  - exists []. split; [|constructor].
    destruct mu, js; cbv [exts app C_Options.opt C_Options.flg]; repeat first [apply selects_nil|apply selects_skip; [by intros (n & [=])|]].
Qed.
Lemma exlimits : within_limits xm.
Proof.
  split.
  - destruct mu, js; vm_compute; lia.
  - assert (m_weights xm = C_Program.the_weights) as -> by (by (destruct mu, js; vm_compute)). split; [|by (destruct mu, js; vm_compute)]. by repeat (constructor; [by (destruct mu, js; vm_compute)|]).
  - destruct mu, js; vm_compute; lia.
  - assert (forallb (fun v => (count_spaces (vv_text v) <? 255) && (N.of_nat (length (vv_text v)) <? 65536)%N) (m_decoder xm) = true) as H by (by (destruct mu, js; vm_compute)).
    apply Forall_forall. intros v Hv. rewrite forallb_forall in H. apply elem_of_list_In, H in Hv. apply andb_prop in Hv as [H1 H2]. apply Nat.ltb_lt in H1. apply N.ltb_lt in H2. done.
  - by (destruct mu, js; vm_compute).
  - apply C_Find.links_check. by (destruct mu, js; vm_compute).
  - destruct mu, js; vm_compute; lia.
  - assert (m_confusables xm = []) as -> by (by (destruct mu, js; vm_compute)). constructor.
Qed.
Lemma exnames : names_typed xts [lit "in.txt"].
Proof.
  exists [TFile (lit "in.txt")]. split; [|right; split; [done|by repeat constructor]]. destruct mu, js; cbv [exts app C_Options.opt C_Options.flg];
    repeat first [apply selects_nil|apply selects_keep; [by eexists|]|apply selects_skip; [by intros (n & [=])|]].
Qed.
Lemma exasked : strict_asked C_Options.exnum C_Options.exnum32 exfs exstdin None xts (exP mu js) 2 exlls.
Proof.
  split.
  - done.
  - assert (tool_params C_Options.exnum C_Options.exnum32 Learn xts = Ok (exP mu js)) as E.
    { assert (match tool_params C_Options.exnum C_Options.exnum32 Learn xts with Ok _ => true | _ => false end = true) as H by (by (destruct mu, js; vm_compute)).
      unfold exP. by destruct (tool_params _ _ _ _). }
    apply params_spec in E; [apply E|]. by (destruct mu, js; vm_compute).
  - by (destruct mu, js; vm_compute).
  - by (destruct mu, js; vm_compute).
  - refine (proj1 (parsed_spec Learn xts (proj2 (accepted_spec _ _) extyped) parse_small (counts_to 255) _ _ (fun s y => small_spec s y) _) _); by (destruct mu, js; vm_compute).
  - unfold flag_typed. rewrite <- (flag_spec Learn xts _ (proj2 (accepted_spec _ _) extyped)) by (by (destruct mu, js; vm_compute)). by (destruct mu, js; vm_compute).
  - exists [lit "in.txt"], [[row "baac"; row "baac"; None; row "bbab"]]. split; [apply exnames|]. split.
    + apply inputs_file; [|done|]. { unfold standard_input. eapply bool_decide_eq_true_1. by (destruct mu, js; vm_compute). }
      constructor.
    + constructor; [|constructor].
      * exists [None; row "bbab"]. split; [done|by right].
  - repeat constructor; destruct mu, js; vm_compute; lia.
Qed.
Lemma excontents : contents_say C_Matches.space C_Options.exnum C_Options.exnum32 (fun _ => None) exfs Learn xts xm.
Proof.
  refine (C_Program.C77_start C_Options.exnum C_Options.exnum32 C_Matches.space (fun _ => None) Datatypes.id Datatypes.id exfs Learn xts xm extyped _ exsources exload_ok).
  by intros l.
Qed.
Lemma exflag (l : str) : flag_defined Learn l = true -> is_present Learn xts l = false -> ~ TFlag l ∈ xts.
Proof. intros D E F. apply (flag_spec Learn xts l (proj2 (accepted_spec _ _) extyped) D) in F. congruence. Qed.
Lemma exclean : all_clean xm.
Proof.
  intros v Hv. assert (forallb (fun v => forallb (fun c => (32 <=? c)%N && negb (c =? 92)%N) (vv_text v)) (m_decoder xm) = true) as B by (by (destruct mu, js; vm_compute)).
  rewrite forallb_forall in B. apply elem_of_list_In, B in Hv. rewrite forallb_forall in Hv. apply Forall_forall. intros c Hc. apply elem_of_list_In, Hv, andb_prop in Hc as [H1 H2].
  apply N.leb_le in H1. apply negb_true_iff, N.eqb_neq in H2. done.
Qed.
Lemma exmeets : well_typed Learn xts /\ strict_asked C_Options.exnum C_Options.exnum32 exfs exstdin None xts (exP mu js) 2 exlls /\
  contents_say C_Matches.space C_Options.exnum C_Options.exnum32 (fun _ => None) exfs Learn xts xm /\ within_limits xm /\
  m_confusables xm = [] /\ room_for xm (2 * length exlls) (all_bytes exlls) /\ all_clean xm /\ Forall (Forall clean) exlls /\ (forall x, finite x -> number (C_Multi.half x)).
Proof.
  split; [apply extyped|]. split; [apply exasked|]. split; [apply excontents|]. split; [apply exlimits|]. split; [by (destruct mu, js; vm_compute)|]. split; [by (destruct mu, js; vm_compute)|].
  split; [apply exclean|]. split; [|intros x _; exact C_Multi.number_half]. repeat constructor; vm_compute; congruence.
Qed.
End flags.

Example C100_words_ex : flag_typed (exts (lit "in.txt") true false) "multi-output" /\ ~ flag_typed (exts (lit "in.txt") true false) "json" /\
  exrun (lit "in.txt") true false = Outcome (lit "baaa
baab
") Ended.
Proof.
  split; [|split; [apply exflag; by vm_compute|by vm_compute]]. unfold flag_typed. by rewrite <- (flag_spec Learn _ _ (proj2 (accepted_spec _ _) (extyped true false))) by (by vm_compute).
Qed.
(** one input, nothing learned: this is JSON *)
Example C100_json_ex : exrun (lit "none.txt") false true = Outcome (lit "[
{
}
]
") Ended /\ exrun (lit "none.txt") true true = Outcome (lit "[
{
}
]
") Ended.
Proof. split; by vm_compute. Qed.
(** one input, with something learned: the output is not JSON *)
Definition exjson : str := lit "[
{
    ""baaa"": [ 
        { ""text"": ""baac"", ""score"": 0.5, ""freq"": 2 }, 
    ]
    ""baab"": [ 
        { ""text"": ""baac"", ""score"": 0.5, ""freq"": 2 }, 
    ]
}
]
".
Definition exwords : str := lit "[
{
    ""baaa"": [ 
    ]
    ""baab"": [ 
    ]
}
]
".
Theorem C100_json_refuted :
  flag_typed (exts (lit "in.txt") false true) "json" /\ ~ flag_typed (exts (lit "in.txt") false true) "multi-output" /\
  exrun (lit "in.txt") false true = Outcome exjson Ended /\ ~ json_text exjson.
Proof.
  split; [|split; [apply exflag; by vm_compute|split; [by vm_compute|by apply P_Json.not_json]]].
  unfold flag_typed. by rewrite <- (flag_spec Learn _ _ (proj2 (accepted_spec _ _) (extyped false true))) by (by vm_compute).
Qed.
Print Assumptions C100_json_refuted.
Theorem C100_multi_json_refuted :
  flag_typed (exts (lit "in.txt") true true) "json" /\ flag_typed (exts (lit "in.txt") true true) "multi-output" /\
  exrun (lit "in.txt") true true = Outcome exwords Ended /\ ~ json_text exwords.
Proof.
  split; [|split; [|split; [by vm_compute|by apply P_Json.not_json]]];
    unfold flag_typed; by rewrite <- (flag_spec Learn _ _ (proj2 (accepted_spec _ _) (extyped true true))) by (by vm_compute).
Qed.
Print Assumptions C100_multi_json_refuted.
