(** Specification of the command line tool in search mode: how the input is cut
    into texts, and what is printed for them. *)
From Coq Require String Ascii.
From Verif Require Import M_Base M_Anahash M_Iter M_Distance M_Float M_Types M_Model M_Confusable M_Search M_Text M_Rules M_Matches M_Cli M_Main M_Options.
From Verif Require Import S_Anahash S_Model S_Search S_Lookup S_Rules S_Cli S_Options S_SearchAll S_Program.
From Verif Require S_Matches.
Import String.StringSyntax Ascii.AsciiSyntax.
From stdpp Require Import options.

(** * Texts *)
Section texts.
  Context (per_line : bool) (sep : N) (n : nat).
  (** A text ends with an empty line, which belongs to it; with "--per-line" with every line. *)
  Definition ends_text (l : str) : Prop := per_line = true \/ l = [].
  (** The texts of the input: as many lines as there are, or [n], or those up to
      one that ends the text.  The first unreadable line ends the input. *)
  Inductive texts_say : list (option str) -> list str -> Prop :=
  | texts_last ls rest : Forall (fun l => ~ ends_text l) ls -> length ls < n -> (rest = [] \/ head rest = Some None) ->
      texts_say (map Some ls ++ rest) [joined sep ls]
  | texts_full ls rest ts : Forall (fun l => ~ ends_text l) ls -> length ls = n -> texts_say rest ts ->
      texts_say (map Some ls ++ rest) (joined sep ls :: ts)
  | texts_ended ls l rest ts : Forall (fun l => ~ ends_text l) ls -> length ls < n -> ends_text l -> texts_say rest ts ->
      texts_say (map Some (ls ++ [l]) ++ rest) (joined sep (ls ++ [l]) :: ts).
End texts.
(** Lines are joined with spaces, with "--retain-linebreaks" with line feeds; at most a hundred. *)
Definition separator_typed (ts : list typed) (sep : N) : Prop :=
  (flag_typed ts "retain-linebreaks" /\ sep = 10%N) \/ (~ flag_typed ts "retain-linebreaks" /\ sep = 32%N).
Definition input_texts (ts : list typed) (lines : list (option str)) (texts : list str) : Prop :=
  exists b sep, (b = true <-> flag_typed ts "per-line") /\ separator_typed ts sep /\ texts_say b sep 100 lines texts.

(** The tool leaves offsets in bytes, whatever is typed. *)
Definition in_bytes (p : search_parameters) : search_parameters :=
  SearchParameters (p_max_anagram_distance p) (p_max_edit_distance p) (p_max_matches p) (p_score_threshold p) (p_cutoff_threshold p)
    (p_stop_criterion p) (p_max_ngram p) (p_max_seq p) (p_variantmodel_weight p) (p_lm_weight p) (p_contextrules_weight p) (p_freq_weight p) false.

(** * Output *)
Section output.
  Context (lc : N -> bool) (ses : str -> str -> list edit_instruction).
  Context (ln32 : f32 -> f32) (ln : f64 -> f64) (ws alpha : N -> bool) (solve : fst_graph -> nat -> list (list nat * f32)).
  Context (fmt : f64 -> str) (m : model) (ts : list typed) (p : search_parameters).
  #[local] Notation finds_all := (searched lc ses ln32 ln ws alpha solve m (in_bytes p)).

  (** the line for a match: text, offsets, results (the selected one first) *)
  Definition found_line (lm : bool) (x : tmatch) (out : str) : Prop :=
    exists rs os cells, selected_first (tm_selected x) (default [] (tm_variants x)) rs /\ offset_columns (Some (tm_begin x, tm_end x)) os /\
      Forall2 (result_columns fmt (final_score (p_freq_weight p)) lm m) rs cells /\
      out = joined 9 (tm_text x :: os ++ concat cells) ++ [10%N].
  (** the lines for a text *)
  Definition text_block (t out : str) : Prop :=
    exists ms outs lm, finds_all t ms /\ lexmatch_typed ts lm /\ Forall2 (found_line lm) ms outs /\ out = concat outs.
  (** A file: the lines for its texts.  There is an empty line between those of
      different texts; texts in which nothing is found are passed over. *)
  Definition file_output (lines : list (option str)) (out : str) : Prop :=
    exists texts blocks shown, input_texts ts lines texts /\ Forall2 text_block texts blocks /\
      selects (fun b => b <> []) blocks shown /\ out = joined 10 shown.
  (** the JSON values for a text *)
  Definition text_values (t : str) (js : list json) : Prop :=
    exists ms lm, finds_all t ms /\ lexmatch_typed ts lm /\ Forall2 (found_says fmt (final_score (p_freq_weight p)) lm m) ms js.
End output.

(** * What is asked *)
Record search_asked (parse_f64 : str -> option f64) (parse_f32 : str -> option f32) (alpha : N -> bool) (fs : str -> option (list (option str)))
    (stdin : list (option str)) (debug : option str) (ts : list typed) (P : tool_parameters) (lls : list (list (option str))) : Prop := {
  sa_debug : forall s, debug = Some s -> exists k, S_Model.decimal 255 s k;
  sa_parameters : parameters_say parse_f64 parse_f32 Search ts P;
  sa_weight : weight_single (p_freq_weight (tp_search P));
  sa_cutoff : flt (p_cutoff_threshold (tp_search P)) f1 = true -> feq (p_cutoff_threshold (tp_search P)) f0 = true;
  sa_sequences : 0 < p_max_seq (tp_search P);
  sa_inputs : exists ns, names_typed ts ns /\ inputs_say fs stdin ns lls;
  sa_texts : forall ls texts t, ls ∈ lls -> input_texts ts ls texts -> t ∈ texts ->
    (N.of_nat (length t) < 65281)%N /\ short_stretches alpha (in_bytes (tp_search P)) t;
}.
(** names and texts that need no escapes in JSON, tags without quotes *)
Record clean_search (m : model) (ts : list typed) (lls : list (list (option str))) : Prop := {
  cl_entries : Forall (fun v => clean (vv_text v)) (m_decoder m);
  cl_files : Forall clean (m_lexicons m);
  cl_tags : Forall (fun t => clean t /\ 34%N ∉ t) (m_tags m);
  cl_texts : forall ls texts t, ls ∈ lls -> input_texts ts ls texts -> t ∈ texts -> clean t;
}.
