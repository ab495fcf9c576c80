(** Properties C47, C57, C65-C67: the command line tool. *)
From Verif Require Import M_Base M_Anahash M_Float M_Types M_Model M_Search M_Text M_Cli M_Par.
From Verif Require Import S_Anahash S_Cli P_Cli P_Json P_JsonOut P_JsonRead P_CliOut.
From Verif Require Import C_Anahash C_Model C_Search C_Find.
Import String.StringSyntax Ascii.AsciiSyntax.
From stdpp Require Import options.

(** ** C47: parallel and batched processing *)
(** Any schedule of the worker threads: what is collected is what the
    computations give alone, in the order of the inputs; a failure is the
    failure of some input. *)
Theorem C47_schedule {A L B} (step : L -> L + res B) (start : A -> L) (f : A -> res B) inputs ts o :
  (forall a, a ∈ inputs -> alone step (start a) (f a)) ->
  rtc (pool_step step) (map (fun a => Running (start a)) inputs) ts -> collected ts o ->
  match o with
  | Ok bs => Forall2 (fun a b => f a = Ok b) inputs bs
  | Panic p => exists a, a ∈ inputs /\ f a = Panic p
  end.
Proof. exact (schedule_results step start f inputs ts o). Qed.
Print Assumptions C47_schedule.

(** When no worker can go on there is a result. *)
Theorem C47_schedule_ends {L B} (step : L -> L + res B) ts :
  (forall ts', ~ pool_step step ts ts') -> exists o, collected ts o.
Proof. exact (schedule_ends step ts). Qed.
Print Assumptions C47_schedule_ends.

(** Query mode: batches of any size print what is printed line by line, if all
    lines can be read and all lookups succeed ... *)
Theorem C47_batches fmt m lexmatch fw lookup json n lines :
  0 < n -> None ∉ lines -> p_stop (process fmt m lexmatch fw lookup json lines) = None ->
  process_par fmt m lexmatch fw lookup json n lines = process fmt m lexmatch fw lookup json lines.
Proof. exact (par_whole fmt m lexmatch fw lookup json n lines). Qed.
Print Assumptions C47_batches.

(** ... and never anything else. *)
Theorem C47_prefix fmt m lexmatch fw lookup json n lines :
  p_out (process_par fmt m lexmatch fw lookup json n lines) `prefix_of` p_out (process fmt m lexmatch fw lookup json lines).
Proof. exact (par_prefix fmt m lexmatch fw lookup json (S (length lines)) n 0 lines). Qed.
Print Assumptions C47_prefix.

(** Search mode: every line up to the first unreadable one is in exactly one of
    the texts that are searched, in order. *)
Theorem C47_texts sp per_line n lines :
  0 < n ->
  exists groups, M_Cli.texts sp per_line n lines = Some (map (joined (if sp then 32%N else 10%N)) groups) /\
    Forall (fun g => length g <= n) groups /\
    (lines = map Some (concat groups) \/ exists rest, lines = map Some (concat groups) ++ None :: rest).
Proof. exact (texts_all sp per_line n lines). Qed.
Print Assumptions C47_texts.

Definition found (vs : list variant_result) : str -> res (list variant_result) := fun _ => Ok vs.
(** lookups that fail for the empty text, as C29_empty_text_refuted says *)
Definition not_empty : str -> res (list variant_result) := fun l => match l with [] => Panic AssertFailed | _ => Ok [] end.
Definition some_line (s : String.string) : option str := Some (lit s).
Arguments some_line s%string_scope.
(** a search that finds the whole text *)
Definition whole_text : str -> res (list tmatch) := fun t => Ok [new_empty t 0 (length t)].

(** Three lookups of two or three steps; the schedule goes back and forth between them. *)
Definition count_step (l : nat * nat) : (nat * nat) + res nat :=
  match l with (0, n) => inr (Ok n) | (S k, n) => inl (k, n) end.
Example C47_ex :
  (exists ts, rtc (pool_step count_step) (map (fun a => Running (a, a)) [1; 2]) ts /\ collected ts (Ok [1; 2])) /\
  (let p := process_par (fun _ => [49%N]) exF false f32_1 (found []) true in
   p 2 [some_line "a"; some_line "b"; some_line "c"] = p 1000 [some_line "a"; some_line "b"; some_line "c"] /\
   p_out (p 2 [some_line "a"; some_line "b"; some_line "c"]) = lit "    { ""input"": ""a"", ""variants"": [ 

    ] }
    ,{ ""input"": ""b"", ""variants"": [ 

    ] }
    ,{ ""input"": ""c"", ""variants"": [ 

    ] }
").
Proof.
  split; [|by vm_compute]. exists [Finished (Ok 1); Finished (Ok 2)]. split; [|by apply (collected_all [1; 2])].
  eapply rtc_l; [by apply (pool_step_at _ _ 1)|]. eapply rtc_l; [by apply (pool_step_at _ _ 0)|]. eapply rtc_l; [by apply (pool_step_at _ _ 1)|].
  eapply rtc_l; [by apply (pool_step_at _ _ 1)|]. eapply rtc_l; [by apply (pool_step_at _ _ 0)|]. apply rtc_refl.
Qed.

(** A line that cannot be read is skipped in one mode and ends the other, which
    loses what comes before it. *)
Theorem C47_unreadable_line_refuted : exists fmt m lookup lines,
  p_stop (process fmt m false f32_1 lookup false lines) = None /\
  p_out (process fmt m false f32_1 lookup false lines) = lit "a
b
" /\
  process_par fmt m false f32_1 lookup false 1000 lines = fail ExpectNone.
Proof. exists (fun _ => [49%N]), exF, (found []), [some_line "a"; None; some_line "b"]. by vm_compute. Qed.
Print Assumptions C47_unreadable_line_refuted.

(** An empty line makes both modes fail, parallel mode before it has printed
    the results for the lines that precede it. *)
Theorem C47_failing_lookup_refuted : exists fmt m lookup lines,
  p_out (process fmt m false f32_1 lookup false lines) = lit "a
" /\
  process_par fmt m false f32_1 lookup false 1000 lines = fail AssertFailed.
Proof. exists (fun _ => [49%N]), exF, not_empty, [some_line "a"; some_line ""]. by vm_compute. Qed.
Print Assumptions C47_failing_lookup_refuted.

(** In search mode the offsets start again with every batch. *)
Theorem C47_search_batches_refuted : exists fmt m search lines,
  p_out (process_search fmt m false f32_1 search false false false 1 lines) <>
  p_out (process_search fmt m false f32_1 search false false false 2 lines) /\
  p_out (process_search fmt m false f32_1 search false false false 1 lines) = lit "a	0:1

b	0:1

	0:0
".
Proof. exists (fun _ => [49%N]), exF, whole_text, [some_line "a"; some_line "b"]. split; [by vm_compute|by vm_compute]. Qed.
Print Assumptions C47_search_batches_refuted.

(** ** C57: the selected variant comes first, the others follow once and in order *)
Theorem C57_order selected variants : selected_first selected variants (listed selected variants).
Proof. exact (listed_selected_first selected variants). Qed.
Print Assumptions C57_order.

(** The line of tab separated columns for a match. *)
Theorem C57_tsv fmt m lexmatch fw input vs sel off :
  p_stop (tsv_match fmt m lexmatch fw input vs sel off) = None -> length (m_lexicons m) <= 256 ->
  exists rs os cells, selected_first sel (default [] vs) rs /\ offset_columns off os /\
    Forall2 (result_columns fmt (vr_score fw) lexmatch m) rs cells /\
    p_out (tsv_match fmt m lexmatch fw input vs sel off) = joined 9 (input :: os ++ concat cells) ++ [10%N].
Proof. exact (tsv_match_line fmt m lexmatch fw input vs sel off). Qed.
Print Assumptions C57_tsv.

Theorem C57_tsv_succeeds fmt m lexmatch fw input vs sel off :
  length (m_lexicons m) <= 32 -> Forall (fun r => is_Some (m_decoder m !! vr_id r)) (default [] vs) ->
  p_stop (tsv_match fmt m lexmatch fw input vs sel off) = None.
Proof. exact (tsv_match_ok fmt m lexmatch fw input vs sel off). Qed.
Print Assumptions C57_tsv_succeeds.

(** Columns without tabs can be told apart again. *)
Theorem C57_columns cs cs' :
  cs <> [] -> Forall (fun c => 9%N ∉ c) cs -> columns cs (joined 9 cs) /\ (columns cs' (joined 9 cs) -> cs' = cs).
Proof. exact (columns_unique cs cs'). Qed.
Print Assumptions C57_columns.

(** The JSON object for a match. *)
Theorem C57_json fmt m lexmatch fw input vs sel off seqnr tag tagseq :
  (forall x, finite x -> number (fmt x)) -> printable m -> clean input -> Forall (showable (vr_score fw) m) (default [] vs) ->
  p_stop (json_match fmt m lexmatch fw input vs sel off seqnr tag tagseq) = None ->
  exists v j, value v j /\ match_says fmt (vr_score fw) lexmatch m input vs sel off tag tagseq j /\
    p_out (json_match fmt m lexmatch fw input vs sel off seqnr tag tagseq) =
    (if 1 <? seqnr then lit "    ," else lit "    ") ++ v ++ [10%N].
Proof. exact (json_match_says fmt m lexmatch fw input vs sel off seqnr tag tagseq). Qed.
Print Assumptions C57_json.

(** Numbers are written without leading zeros and are read back as they were. *)
Theorem C57_decimal n : decimal n (show n) /\ ((n < 4294967296)%N -> parse_uint 4294967295 (show n) = Some n).
Proof. exact (show_reads n). Qed.
Print Assumptions C57_decimal.

Definition vres (id : nat) : variant_result := VariantResult id f1 fhalf None.
Example C57_ex :
  p_out (tsv_match (fun _ => lit "0.5") exF true f32_1 (lit "baad") (Some [vres 3; vres 4; vres 5]) (Some 1) (Some (10, 14))) =
  lit "baad	10:14	baac	0.5		""""	baaa	0.5		""""	baab	0.5		""""
" /\
  p_out (json_match (fun _ => lit "0.5") exF false f32_1 (lit "ba""d") (Some [vres 3; vres 4]) (Some 1) None 2 [] []) =
  lit "    ,{ ""input"": ""ba\""d"", ""variants"": [ 
        { ""text"": ""baac"", ""score"": 0.5, ""dist_score"": 0.5, ""freq_score"": 0.5 },
        { ""text"": ""baaa"", ""score"": 0.5, ""dist_score"": 0.5, ""freq_score"": 0.5 }
    ] }
".
Proof. by vm_compute. Qed.

(** ** C65: the JSON output *)
(** Query mode, one file: the output is a JSON text that says, for every line,
    its input and the results of its lookup. *)
Theorem C65_query_output fmt m lexmatch fw lookup lines :
  (forall x, finite x -> number (fmt x)) -> printable m ->
  (forall l vs, Some l ∈ lines -> lookup l = Ok vs -> clean l /\ Forall (showable (vr_score fw) m) vs) ->
  p_stop (process fmt m lexmatch fw lookup true lines) = None ->
  exists js, says (p_out (whole_output true [process fmt m lexmatch fw lookup true lines])) (JArr js) /\
    Forall2 (fun l j => exists vs, lookup l = Ok vs /\ match_says fmt (vr_score fw) lexmatch m l (Some vs) (Some 0) None [] [] j)
      (omap id lines) js.
Proof. exact (query_says fmt m lexmatch fw lookup lines). Qed.
Print Assumptions C65_query_output.

(** Search mode, one file. *)
Theorem C65_search_output fmt m lexmatch fw search sp per_line n lines ts :
  (forall x, finite x -> number (fmt x)) -> printable m ->
  M_Cli.texts sp per_line n lines = Some ts ->
  (forall t ms, t ∈ ts -> search t = Ok ms -> Forall (found_showable (vr_score fw) m) ms) ->
  p_stop (process_search fmt m lexmatch fw search true sp per_line n lines) = None ->
  exists jss, says (p_out (whole_output true [process_search fmt m lexmatch fw search true sp per_line n lines])) (JArr (concat jss)) /\
    Forall2 (fun t js => exists ms, search t = Ok ms /\ Forall2 (found_says fmt (vr_score fw) lexmatch m) ms js) ts jss.
Proof. exact (search_says fmt m lexmatch fw search sp per_line n lines ts). Qed.
Print Assumptions C65_search_output.

(** A JSON text says one thing only. *)
Theorem C65_unambiguous s j j' : says s j -> says s j' -> j = j'.
Proof. exact (says_det s j j'). Qed.
Print Assumptions C65_unambiguous.

Example C65_ex :
  p_out (whole_output true [process (fun _ => lit "0.5") exF false f32_1 (found [vres 3]) true [some_line "a"; some_line "b"]]) = lit "[
    { ""input"": ""a"", ""variants"": [ 
        { ""text"": ""baaa"", ""score"": 0.5, ""dist_score"": 0.5, ""freq_score"": 0.5 }
    ] }
    ,{ ""input"": ""b"", ""variants"": [ 
        { ""text"": ""baaa"", ""score"": 0.5, ""dist_score"": 0.5, ""freq_score"": 0.5 }
    ] }
]
" /\ printable exF /\ Forall clean [lit "a"; lit "b"] /\ showable (vr_score f32_1) exF (vres 3).
Proof.
  split; [by vm_compute|]. split; [|split].
  - constructor; [vm_compute; by repeat constructor|vm_compute; lia|vm_compute; constructor].
  - repeat constructor; vm_compute; done.
  - constructor; [vm_compute; done..| |done]. intros v Hv. replace (vv_text v) with (lit "baaa").
    + repeat constructor; vm_compute; done.
    + vm_compute in Hv. injection Hv as <-. done.
Qed.

(** A backslash or a control character in the input, for every way of printing
    numbers and every model. *)
Theorem C65_backslash_refuted fmt m lexmatch fw :
  ~ json_text (p_out (whole_output true [process fmt m lexmatch fw (found []) true [some_line "a\c"]])).
Proof. by apply not_json. Qed.
Print Assumptions C65_backslash_refuted.
Theorem C65_tab_refuted fmt m lexmatch fw :
  ~ json_text (p_out (whole_output true [process fmt m lexmatch fw (found []) true [some_line "a	c"]])).
Proof. by apply not_json. Qed.
Print Assumptions C65_tab_refuted.
(** Two files: the numbering starts again, there is no comma between them. *)
Theorem C65_two_files_refuted fmt m lexmatch fw :
  let file := process fmt m lexmatch fw (found []) true [some_line "a"] in
  ~ json_text (p_out (whole_output true [file; file])).
Proof. by apply not_json. Qed.
Print Assumptions C65_two_files_refuted.
(** A name of a tag with a quotation mark. *)
Theorem C65_tag_refuted fmt m lexmatch fw :
  m_tags m = [lit "a""b"] ->
  ~ json_text (p_out (json_match fmt m lexmatch fw (lit "a") None None None 1 [0%N] [0])).
Proof. exact (tag_breaks fmt m lexmatch fw). Qed.
Print Assumptions C65_tag_refuted.
Example C65_tag_ex : m_tags (with_rules exF [] [lit "a""b"]) = [lit "a""b"].
Proof. done. Qed.

(** ** C66: output of learned variants *)
(** TSV: one line for every entry that has variants. *)
Theorem C66_tsv fmt m :
  p_stop (learned_tsv fmt m) = None ->
  exists lines, p_out (learned_tsv fmt m) = concat (map (fun l => l ++ [10%N]) lines) /\
    Forall2 (learned_line fmt m)
      (List.filter (fun v => match linked (default [] (vv_variants v)) with [] => false | _ => true end) (m_decoder m)) lines.
Proof. exact (learned_tsv_lines fmt m). Qed.
Print Assumptions C66_tsv.

(** JSON: never well-formed when there is any variant to show ... *)
Theorem C66_json_refuted fmt m :
  (forall x, finite x -> number (fmt x)) ->
  Exists has_reference (m_decoder m) ->
  (forall v, v ∈ m_decoder m -> clean (vv_text v)) ->
  (forall v i s, v ∈ m_decoder m -> ReferenceFor i s ∈ default [] (vv_variants v) -> finite s /\ is_Some (m_decoder m !! i)) ->
  ~ json_text (p_out (learned_json fmt m)).
Proof. exact (fun H => learned_json_broken fmt m H). Qed.
Print Assumptions C66_json_refuted.

(** ... only an empty object is well-formed. *)
Theorem C66_json_nothing fmt m :
  Forall (fun v => ~ has_reference v) (m_decoder m) -> says (p_out (learned_json fmt m)) (JObj []).
Proof. exact (learned_json_nothing fmt m). Qed.
Print Assumptions C66_json_nothing.

(** Files per lexicon: JSON writes a variant to the files of its lexicons; TSV
    to the first file if the variant is not in that lexicon, and to the second
    if it is. *)
Theorem C66_files_json m lexindex i :
  i ∈ multi_json m lexindex <-> i < length (m_lexicons m) /\ N.testbit lexindex (N.of_nat i) = true.
Proof. exact (multi_json_in m lexindex i). Qed.
Print Assumptions C66_files_json.
Theorem C66_files_tsv m lexindex i :
  i ∈ multi_tsv m lexindex <->
  i < length (m_lexicons m) /\ ((i = 0 /\ N.testbit lexindex 0 = false) \/ (i = 1 /\ N.testbit lexindex 1 = true)).
Proof. exact (multi_tsv_in m lexindex i). Qed.
Print Assumptions C66_files_tsv.
Theorem C66_files_tsv_refuted : exists m lexindex,
  ~ forall i, i ∈ multi_tsv m lexindex <-> i < length (m_lexicons m) /\ N.testbit lexindex (N.of_nat i) = true.
Proof. exists exF, 1%N. intros H. assert (G : 0 ∈ multi_tsv exF 1) by (apply H; vm_compute; split; [lia|done]). vm_compute in G. by apply elem_of_nil in G. Qed.
Print Assumptions C66_files_tsv_refuted.

Example C66_ex :
  p_out (learned_tsv (fun _ => lit "0.5") exF) = lit "baaa	baac	0.5
" /\
  p_out (learned_json (fun _ => lit "0.5") exF) = lit "{
    ""baaa"": [ 
        { ""text"": ""baac"", ""score"": 0.5, ""freq"": 1 }, 
    ]
}
".
Proof. by vm_compute. Qed.

(** ** C67: the test of input *)
Theorem C67_test_input A t : alphabet_ok A -> exists b, test_input A t = Ok b /\ (b = true <-> encodable A t).
Proof. exact (test_input_encodable A t). Qed.
Print Assumptions C67_test_input.
Theorem C67_single_characters A t :
  single_chars A -> encodable A t <-> Forall (fun c => exists line, line ∈ A /\ [c] ∈ line) t.
Proof. exact (encodable_single A t). Qed.
Print Assumptions C67_single_characters.
Example C67_ex : test_input exA [99; 104; 65; 98]%N = Ok true /\ test_input exA [99; 104; 63; 98]%N = Ok false.
Proof. by vm_compute. Qed.
