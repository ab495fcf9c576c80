(** Specification of what it means for the command line tool and the Python
    bindings to agree. *)
From Coq Require String Ascii.
From Verif Require Import M_Base M_Float M_Types M_Model M_Cli M_Main M_Options.
From Verif Require Import S_Model S_Cli S_Main S_Options S_Program.
From Verif Require Import M_Python S_Session.
Import String.StringSyntax Ascii.AsciiSyntax.
From stdpp Require Import options.

(** * The session for a command line *)
(** the calls for options, in the order in which the options are typed *)
Definition translated (R : typed -> py_call -> Prop) (ts : list typed) (cs : list py_call) : Prop :=
  exists sel, selects (fun t => exists c, R t c) ts sel /\ Forall2 R sel cs.
Inductive entry_call : typed -> py_call -> Prop :=
| ec_lexicon n : entry_call (TOption (name "lexicon") n) (CLexicon n)
| ec_variants n : entry_call (TOption (name "variants") n) (CVariantList n false)
| ec_errors n : entry_call (TOption (name "errors") n) (CVariantList n true).
Inductive lm_call : typed -> py_call -> Prop :=
| lc_lm n : lm_call (TOption (name "lm") n) (CLanguageModel n).
Inductive setting_call : typed -> py_call -> Prop :=
| stc_confusables n : setting_call (TOption (name "confusables") n) (CConfusables n)
| stc_early : setting_call (TFlag (name "early-confusables")) CEarly.
Inductive rules_call : typed -> py_call -> Prop :=
| rc_rules n : rules_call (TOption (name "contextrules") n) (CRules n).
(** lexicons and variant lists, language models, confusables; the index; rules *)
Definition same_session (ts : list typed) (cs : list py_call) : Prop :=
  exists entries lms settings rules, translated entry_call ts entries /\ translated lm_call ts lms /\
    translated setting_call ts settings /\ translated rules_call ts rules /\
    cs = entries ++ lms ++ settings ++ CBuild :: rules.

(** * Values *)
(** a JSON value shows a Python object: the same texts, numbers, lists and members *)
Inductive shows (fmt : f64 -> str) : pyval -> json -> Prop :=
| shows_text t : shows fmt (PyStr t) (JStr t)
| shows_float x : shows fmt (PyFloat x) (JNum (fmt x))
| shows_int n s : S_Cli.decimal (N.of_nat n) s -> shows fmt (PyInt (Z.of_nat n)) (JNum s)
| shows_list ds js : Forall2 (shows fmt) ds js -> shows fmt (PyList ds) (JArr js)
| shows_dict ds js : Forall2 (fun d j => d.1 = j.1 /\ shows fmt d.2 j.2) ds js -> shows fmt (PyDict ds) (JObj js).
(** matches: the tool shows the members of the offset among the others, and may
    leave out an empty list of variants *)
Definition match_shows (fmt : f64 -> str) (d : pyval) (j : json) : Prop :=
  exists t b e tags vs variants,
    d = PyDict ([(name "input", t); (name "offset", PyDict [(name "begin", b); (name "end", e)])] ++ tags ++ [(name "variants", PyList vs)]) /\
    (variants = [(name "variants", PyList vs)] \/ vs = [] /\ variants = []) /\
    shows fmt (PyDict ([(name "input", t); (name "begin", b); (name "end", e)] ++ tags ++ variants)) j.

(** * Defaults *)
(** no option but those that name files, and no flag that changes a parameter *)
Definition sets_nothing (ts : list typed) : Prop :=
  (forall l v, TOption l v ∈ ts -> l ∈ [name "alphabet"; name "lexicon"; name "variants"; name "errors"; name "lm"; name "confusables"; name "contextrules"]) /\
  (forall l, TFlag l ∈ ts -> l ∉ [name "stop-exact"; name "single-thread"; name "interactive"; name "allow-overlap"]).
(** the parsers of numbers read the documented defaults *)
Record reads_defaults (parse_f64 : str -> option f64) (parse_f32 : str -> option f32) : Prop := {
  rd_half : parse_f64 (name "0.5") = Some (S754_finite false 4503599627370496 (-53));
  rd_quarter : parse_f64 (name "0.25") = Some (S754_finite false 4503599627370496 (-54));
  rd_eighth : parse_f64 (name "0.125") = Some (S754_finite false 4503599627370496 (-55));
  rd_two : parse_f64 (name "2.0") = Some (S754_finite false 4503599627370496 (-51));
  rd_zero : parse_f32 (name "0.0") = Some (S754_zero false);
  rd_one : parse_f32 (name "1.0") = Some (S754_finite false 8388608 (-23));
  rd_three : parse_f32 (name "3.0") = Some (S754_finite false 12582912 (-22));
}.
(** parameters that lookups depend on *)
Definition same_lookups (p p' : search_parameters) : Prop :=
  p_max_anagram_distance p = p_max_anagram_distance p' /\ p_max_edit_distance p = p_max_edit_distance p' /\ p_max_matches p = p_max_matches p' /\
  p_score_threshold p = p_score_threshold p' /\ p_cutoff_threshold p = p_cutoff_threshold p' /\ p_stop_criterion p = p_stop_criterion p' /\
  p_freq_weight p = p_freq_weight p'.
