(** Specification of the options of the command line tool: what they mean
    according to their descriptions (README.md and the help texts). *)
From Coq Require String Ascii.
From Verif Require Import M_Base M_Anahash M_Float M_Types M_Options S_Model S_Values S_Cli.
Import String.StringSyntax Ascii.AsciiSyntax.
From stdpp Require Import options.
#[local] Notation decimal := S_Model.decimal.

(** the documented defaults *)
Definition default_of (long value : String.string) : str * str := (name long, name value).
Arguments default_of (long value)%string_scope.
Definition documented (c : command) : list (str * str) :=
  [default_of "max-anagram-distance" "3"; default_of "max-edit-distance" "2"; default_of "max-matches" "10";
     default_of "score-threshold" "0.25"; default_of "cutoff-threshold" "2.0";
     default_of "weight-ld" "0.5"; default_of "weight-lcs" "0.125"; default_of "weight-prefix" "0.125"; default_of "weight-suffix" "0.125"; default_of "weight-case" "0.125"] ++
    match c with
    | Search | Learn =>
        [default_of "max-ngram-order" "3"; default_of "max-seq" "250"; default_of "lm-order" "3"; default_of "weight-lm" "1.0";
         default_of "weight-variant-model" "3.0"; default_of "weight-contextrules" "1.0"; default_of "weight-context" "0.0"]
    | _ => []
    end ++
    match c with Learn => [default_of "iterations" "1"] | _ => [] end.

(** The value of an option: the one typed, or else the default. *)
Inductive in_force (c : command) (ts : list typed) (long : str) : str -> Prop :=
| in_force_typed v : TOption long v ∈ ts -> in_force c ts long v
| in_force_default v : (forall w, TOption long w ∉ ts) -> (long, v) ∈ documented c -> in_force c ts long v.

(** [x] is what the option's value stands for, or [fallback] if it has none. *)
Definition option_says {A} (stands_for : str -> A -> Prop) (c : command) (ts : list typed) (long : String.string)
    (fallback : option A) (x : A) : Prop :=
  (exists v, in_force c ts (name long) v /\ stands_for v x) \/
  ((forall v, ~ in_force c ts (name long) v) /\ fallback = Some x).
Arguments option_says {A} stands_for c ts long%string_scope fallback x.
Definition flag_typed (ts : list typed) (long : String.string) : Prop := TFlag (name long) ∈ ts.
Arguments flag_typed ts long%string_scope.

Definition counts_to (max : N) (s : str) (n : nat) : Prop := exists k, decimal max s k /\ n = N.to_nat k.
Definition is_text {A} (parse : str -> option A) (s : str) (x : A) : Prop := parse s = Some x.

Section say.
  Context (parse_f64 : str -> option f64) (parse_f32 : str -> option f32).
  Context (c : command) (ts : list typed).

  Record weights_say (w : weights) : Prop := {
    ws_ld : option_says (is_text parse_f64) c ts "weight-ld" None (w_ld w);
    ws_lcs : option_says (is_text parse_f64) c ts "weight-lcs" None (w_lcs w);
    ws_prefix : option_says (is_text parse_f64) c ts "weight-prefix" None (w_prefix w);
    ws_suffix : option_says (is_text parse_f64) c ts "weight-suffix" None (w_suffix w);
    ws_case : option_says (is_text parse_f64) c ts "weight-case" None (w_case w);
  }.

  (** all but the kind of offsets *)
  Record parameters_say (P : tool_parameters) : Prop := {
    ps_anagram : option_says (threshold_text parse_f32) c ts "max-anagram-distance" None (p_max_anagram_distance (tp_search P));
    ps_edit : option_says (threshold_text parse_f32) c ts "max-edit-distance" None (p_max_edit_distance (tp_search P));
    ps_matches : option_says (counts_to 18446744073709551615) c ts "max-matches" None (p_max_matches (tp_search P));
    ps_score : option_says (is_text parse_f64) c ts "score-threshold" None (p_score_threshold (tp_search P));
    ps_cutoff : option_says (is_text parse_f64) c ts "cutoff-threshold" None (p_cutoff_threshold (tp_search P));
    ps_stop : if p_stop_criterion (tp_search P) then ~ flag_typed ts "stop-exact" else flag_typed ts "stop-exact";
    ps_ngram : option_says (counts_to 255) c ts "max-ngram-order" (Some 1) (p_max_ngram (tp_search P));
    ps_seq : option_says (counts_to 18446744073709551615) c ts "max-seq" (Some (N.to_nat 250)) (p_max_seq (tp_search P));
    ps_variant : option_says (is_text parse_f32) c ts "weight-variant-model" (Some f32_1) (p_variantmodel_weight (tp_search P));
    ps_lm : option_says (is_text parse_f32) c ts "weight-lm" (Some f32_1) (p_lm_weight (tp_search P));
    ps_rules : option_says (is_text parse_f32) c ts "weight-contextrules" (Some f32_1) (p_contextrules_weight (tp_search P));
    ps_freq : option_says (is_text parse_f32) c ts "freq-ranking" (Some f0) (p_freq_weight (tp_search P));
    ps_single : tp_single_thread P = true <-> flag_typed ts "single-thread" \/ flag_typed ts "interactive";
    ps_overlap : tp_consolidate_matches P = false <-> flag_typed ts "allow-overlap";
    ps_order : option_says (counts_to 255) c ts "lm-order" (Some 1) (tp_lm_order P);
    ps_context : option_says (is_text parse_f32) c ts "weight-context" (Some f32_1) (tp_context_weight P);
  }.
  (** the kind of offsets, as documented *)
  Definition offsets_say (P : tool_parameters) : Prop :=
    p_unicodeoffsets (tp_search P) = true <-> flag_typed ts "unicode-offsets".
End say.

(** [ts'] is [ts] with one more flag somewhere. *)
Definition one_more (flag : String.string) (ts ts' : list typed) : Prop :=
  exists pre post, ts = pre ++ post /\ ts' = pre ++ TFlag (name flag) :: post.
Arguments one_more flag%string_scope ts ts'.

(** What clap accepts. *)
Record well_typed (c : command) (ts : list typed) : Prop := {
  wt_flags : forall l, TFlag l ∈ ts -> exists a, a ∈ arguments c /\ a_long a = l /\ a_takes_value a = false;
  wt_options : forall l v, TOption l v ∈ ts -> exists a, a ∈ arguments c /\ a_long a = l /\ a_takes_value a = true;
  wt_once : forall a l i j t u, a ∈ arguments c -> a_long a = l -> a_multiple a = false -> ts !! i = Some t -> ts !! j = Some u ->
    (t = TFlag l \/ exists v, t = TOption l v) -> (u = TFlag l \/ exists v, u = TOption l v) -> i = j;
  wt_alphabet : exists v, TOption (name "alphabet") v ∈ ts;
  wt_lexicon : exists v, TOption (name "lexicon") v ∈ ts \/ TOption (name "variants") v ∈ ts;
}.
