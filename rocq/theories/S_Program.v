(** Specification of the command line tool in query mode: what the files named
    on the command line say, and what is printed for the input. *)
From Coq Require String Ascii.
From Verif Require Import M_Base M_Anahash M_Iter M_Distance M_Float M_Types M_Model M_Confusable M_Search M_Cli M_Main M_Options.
From Verif Require Import S_Anahash S_Iter S_Distance S_Model S_Search S_Lookup S_Confusable S_Rules S_Cli S_Main S_Options S_RuleFile.
Import String.StringSyntax Ascii.AsciiSyntax.
From stdpp Require Import options.

Section contents.
  Context (ws : N -> bool) (parse_f64 : str -> option f64) (parse_f32 : str -> option f32) (parse_script : str -> option (list edit_instruction)).
  Context (fs : str -> option (list (option str))) (c : command) (ts : list typed).

  (** There is a file of that name; its readable lines count. *)
  Definition file_there (n : str) (f : file) : Prop := exists ls, fs n = Some ls /\ f = File n (omap (fun l => l) ls).
  (** the files of an option that may be repeated, in the order typed *)
  Definition option_typed (long : String.string) (n : str) (t : typed) : Prop := t = TOption (name long) n.
  Definition files_typed (long : String.string) (l : list file) : Prop :=
    exists sel, selects (fun t => exists n, option_typed long n t) ts sel /\
      Forall2 (fun t f => exists n, option_typed long n t /\ file_there n f) sel l.
  Arguments option_typed long%string_scope n t.
  Arguments files_typed long%string_scope l.
  (** the files with entries: those typed as lexicons, variant lists and error
      lists, in the order typed; language models after all others *)
  Inductive given : typed -> source -> Prop :=
  | given_lexicon t n f : option_typed "lexicon" n t -> file_there n f -> given t (Given (RLexicon f))
  | given_variants t n f : option_typed "variants" n t -> file_there n f -> given t (Given (RVariants f))
  | given_errors t n f : option_typed "errors" n t -> file_there n f -> given t (Given (RErrors f)).
  Definition sources_typed (ss : list source) : Prop :=
    exists sel gs lms, selects (fun t => exists n, option_typed "lexicon" n t \/ option_typed "variants" n t \/ option_typed "errors" n t) ts sel /\
      Forall2 given sel gs /\ files_typed "lm" lms /\ ss = gs ++ map Lm lms.

  (** The content of the model [m] is what the files and options say. *)
  Record contents_say (m : model) : Prop := {
    cs_alphabet : exists n ls, TOption (name "alphabet") n ∈ ts /\ fs n = Some ls /\ alphabet_says ws ls (m_alphabet m);
    cs_weights : weights_say parse_f64 c ts (m_weights m);
    cs_entries : exists ss a l r L, sources_typed ss /\ sources_say parse_f64 0 ss a l /\
      run_adds (new_with_alphabet (m_alphabet m) (m_weights m)) a = Ok r /\ links_between r l L /\
      m_encoder m = m_encoder r /\ m_decoder m = m_decoder (run_links r L) /\ m_lexicons m = map source_name ss;
    cs_freq : m_have_freq m = true <-> exists n f l, TOption (name "lexicon") n ∈ ts /\ file_there n f /\ l ∈ f_lines f /\ l <> [];
    cs_confusables : exists cfs css, files_typed "confusables" cfs /\
      Forall2 (fun f cs => exists ls, selects (fun l => l <> []) (f_lines f) ls /\ Forall2 (line_confusable parse_script parse_f64) ls cs) cfs css /\
      m_confusables m = concat css;
    cs_early : m_confusables_before_pruning m = true <-> flag_typed ts "early-confusables";
    cs_rules : exists rfs, files_typed "contextrules" rfs /\
      rules_say ws parse_f32 (m_lexicons m) (m_encoder m) [] (concat (map f_lines rfs)) (m_tags m) (m_context_rules m);
  }.
End contents.
Arguments option_typed long%string_scope n t.
Arguments files_typed fs ts long%string_scope l.

(** The language model: the n-grams that occur, with their counts. *)
Record counts_say (m : model) : Prop := {
  cn_counts : forall g vs, selects (counts_as m g) (m_decoder m) vs ->
    m_ngrams m !! g = match vs with [] => None | _ => Some (sum_frequency vs) end;
  cn_lm : m_have_lm m = true <-> exists v g, v ∈ m_decoder m /\ counts_as m g v;
}.

(** all that lookups and searches and their output depend on, but for the counts *)
Record same_contents (m m' : model) : Prop := {
  sc_alphabet : m_alphabet m' = m_alphabet m;
  sc_weights : m_weights m' = m_weights m;
  sc_encoder : m_encoder m' = m_encoder m;
  sc_decoder : m_decoder m' = m_decoder m;
  sc_lexicons : m_lexicons m' = m_lexicons m;
  sc_freq : m_have_freq m' = m_have_freq m;
  sc_confusables : m_confusables m' = m_confusables m;
  sc_early : m_confusables_before_pruning m' = m_confusables_before_pruning m;
  sc_rules : m_context_rules m' = m_context_rules m;
  sc_tags : m_tags m' = m_tags m;
}.

(** Files within the limits of the tool: at most 166 characters in the alphabet
    and 32 files; usable weights; entries of fewer than 256 words and 65536
    characters, with frequencies that can be added up; links, confusables and
    weights that do not make scores overflow. *)
Record within_limits (m : model) : Prop := {
  wl_alphabet : length (m_alphabet m) <= 166;
  wl_weights : weights_ok (m_weights m);
  wl_files : length (m_lexicons m) <= 32;
  wl_entries : Forall (fun v => count_spaces (vv_text v) < 255 /\ (N.of_nat (length (vv_text v)) < 65536)%N) (m_decoder m);
  wl_total : (sum_frequency (m_decoder m) < 4294967296)%N;
  wl_links : forall id v r s, m_decoder m !! id = Some v -> (r, s) ∈ stored_references v -> unit_score s;
  wl_conf_number : length (m_confusables m) <= 500;
  wl_conf : Forall (fun c => double (cf_weight c) /\ fle f0 (cf_weight c) = true /\ fle (cf_weight c) f2 = true) (m_confusables m);
}.

(** The input: the files named, or standard input, which can be read once. *)
Definition standard_input : list str := [name "-"; name "STDIN"; name "stdin"].
Inductive inputs_say (fs : str -> option (list (option str))) : list (option str) -> list str -> list (list (option str)) -> Prop :=
| inputs_none stdin : inputs_say fs stdin [] []
| inputs_file stdin n ns ls lls : n ∉ standard_input -> fs n = Some ls -> inputs_say fs stdin ns lls -> inputs_say fs stdin (n :: ns) (ls :: lls)
| inputs_stdin stdin n ns lls : n ∈ standard_input -> inputs_say fs [] ns lls -> inputs_say fs stdin (n :: ns) (stdin :: lls).
(** the names typed; standard input if there are none *)
Definition names_typed (ts : list typed) (ns : list str) : Prop :=
  exists sel, selects (fun t => exists n, t = TFile n) ts sel /\
    ((sel = [] /\ ns = [name "-"]) \/ (sel <> [] /\ Forall2 (fun t n => t = TFile n) sel ns)).

Section answers.
  Context (lc : N -> bool) (ses : str -> str -> list edit_instruction) (fmt : f64 -> str) (m : model) (ts : list typed) (p : search_parameters).
  Definition lexmatch_typed (b : bool) : Prop := b = true <-> flag_typed ts "output-lexmatch".
  (** the line printed for the query [q] *)
  Definition answer_line (q out : str) : Prop :=
    exists ks l cells lm, reads (m_alphabet m) q ks /\ looked_up lc ses m q ks p l /\ lexmatch_typed lm /\
      Forall2 (result_columns fmt (final_score (p_freq_weight p)) lm m) l cells /\
      out = joined 9 (q :: concat cells) ++ [10%N].
  (** the JSON value printed for it *)
  Definition answer_value (q : str) (j : json) : Prop :=
    exists ks l lm, reads (m_alphabet m) q ks /\ looked_up lc ses m q ks p l /\ lexmatch_typed lm /\
      match_says fmt (final_score (p_freq_weight p)) lm m q (Some l) (Some 0) None [] [] j.
End answers.

(** a line that can be looked up *)
Definition lookup_line (q : str) : Prop := 0 < length q <= 255.
Definition queries (lls : list (list (option str))) : list str := omap (fun l => l) (concat lls).

(** What is asked: the level of messages is a number, the cutoff is not refused,
    there is input, all of whose lines can be read (with one thread unreadable
    ones are skipped) and looked up. *)
Record asked (parse_f64 : str -> option f64) (parse_f32 : str -> option f32) (fs : str -> option (list (option str))) (stdin : list (option str))
    (debug : option str) (ts : list typed) (P : tool_parameters) (lls : list (list (option str))) : Prop := {
  as_debug : forall s, debug = Some s -> exists k, S_Model.decimal 255 s k;
  as_parameters : parameters_say parse_f64 parse_f32 Query ts P;
  as_weight : weight_single (p_freq_weight (tp_search P));
  as_cutoff : flt (p_cutoff_threshold (tp_search P)) f1 = true -> feq (p_cutoff_threshold (tp_search P)) f0 = true;
  as_inputs : exists ns, names_typed ts ns /\ inputs_say fs stdin ns lls;
  as_readable : tp_single_thread P = true \/ Forall (fun ls => None ∉ ls) lls;
  as_lines : Forall lookup_line (queries lls);
}.
(** texts that need no escapes in JSON *)
Record clean_texts (m : model) (lls : list (list (option str))) : Prop := {
  ct_entries : Forall (fun v => clean (vv_text v)) (m_decoder m);
  ct_files : Forall clean (m_lexicons m);
  ct_queries : Forall clean (queries lls);
}.
