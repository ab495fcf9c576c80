(** Specification of the command line tool in learning mode with several
    iterations and inputs. *)
From Coq Require String Ascii.
From Verif Require Import M_Base M_Utf8 M_Anahash M_Iter M_Distance M_Float M_Types M_Model M_Confusable M_Search M_Text M_Rules M_Matches M_Learn M_Cli M_Main M_Options.
From Verif Require Import S_Anahash S_Model S_Search S_Lookup S_Rules S_Learn S_Cli S_Options S_SearchAll S_Program S_SearchRun S_LearnRun.
Import String.StringSyntax Ascii.AsciiSyntax.
From stdpp Require Import options.

Section more.
  Context (lc : N -> bool) (ses : str -> str -> list edit_instruction) (p : search_parameters).
  (** One iteration: all lines are looked up in the vocabulary so far, then all
      results are learned. *)
  Definition iteration (lines : list str) (m : model) (l : list (str * variant_result)) (m1 : model) : Prop :=
    exists all, Forall2 (pairs_strict lc ses m p) lines all /\ l = concat all /\ learned None l m m1 /\ in_order l m m1.
  (** At most [k] iterations; an iteration without variants is the last one. *)
  Inductive iterations (lines : list str) : nat -> model -> model -> Prop :=
  | it_none m : iterations lines 0 m m
  | it_last k m l m1 : iteration lines m l m1 -> different m1 l = [] -> iterations lines (S k) m m1
  | it_more k m l m1 m2 : iteration lines m l m1 -> different m1 l <> [] -> iterations lines k m1 m2 -> iterations lines (S k) m m2.
  (** Inputs come one after the other; what was learned stays, and is printed after every input. *)
  Inductive learned_from (fmt : f64 -> str) (k : nat) : list (list str) -> model -> list str -> Prop :=
  | lf_none m : learned_from fmt k [] m []
  | lf_input lines lls m m1 outs rest : iterations lines k m m1 -> learned_lines fmt m1 outs -> learned_from fmt k lls m1 rest ->
      learned_from fmt k (lines :: lls) m (outs ++ rest).
End more.

(** * What is asked *)
Record strict_asked (parse_f64 : str -> option f64) (parse_f32 : str -> option f32) (fs : str -> option (list (option str)))
    (stdin : list (option str)) (debug : option str) (ts : list typed) (P : tool_parameters) (k : nat) (lls : list (list str)) : Prop := {
  sk_debug : forall s, debug = Some s -> exists k, S_Model.decimal 255 s k;
  sk_parameters : parameters_say parse_f64 parse_f32 Learn ts P;
  sk_weight : weight_single (p_freq_weight (tp_search P));
  sk_cutoff : flt (p_cutoff_threshold (tp_search P)) f1 = true -> feq (p_cutoff_threshold (tp_search P)) f0 = true;
  sk_iterations : option_says (counts_to 255) Learn ts "iterations" None k;
  sk_strict : flag_typed ts "strict";
  sk_inputs : exists ns lls0, names_typed ts ns /\ inputs_say fs stdin ns lls0 /\ Forall2 lines_read lls0 lls;
  sk_lines : Forall (Forall (fun s => lookup_line s /\ count_spaces s < 255)) lls;
}.
(** There is room for counting all frequencies and all bytes of the input after every iteration. *)
Definition all_bytes (lls : list (list str)) : nat := sum_list (map byte_len (concat lls)).
Definition room_for (m : model) (n bytes : nat) : Prop :=
  (N.of_nat (S n) * (sum_frequency (m_decoder m) + N.of_nat n * N.of_nat bytes) < 4294967296)%N.
