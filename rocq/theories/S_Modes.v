(** Specification of the command line tool in its two smaller modes: the index
    of anagrams and the test of input. *)
From Coq Require String Ascii.
From Verif Require Import M_Base M_Utf8 M_Anahash M_Iter M_Float M_Types M_Model M_Search M_Text M_Cli M_Main M_Options.
From Verif Require Import S_Anahash S_Model S_Search S_Cli S_Main S_Options S_Program.
Import String.StringSyntax Ascii.AsciiSyntax.
From stdpp Require Import options.
#[local] Arguments lit s%string_scope.

(** * The test of input *)
(** the line for a text of known characters: its number and its characters *)
Inductive listed_numbers : list nat -> str -> Prop :=
| ln_none : listed_numbers [] []
| ln_one k : listed_numbers [k] (show (N.of_nat k))
| ln_more k k' ks s : listed_numbers (k' :: ks) s -> listed_numbers (k :: k' :: ks) (show (N.of_nat k) ++ lit ", " ++ s).
Definition ok_line (A : alphabet) (t line : str) : Prop :=
  exists ks h s, reads A t ks /\ bag_hash ks = Ok h /\ listed_numbers ks s /\
    line = lit "OK: " ++ t ++ [9%N] ++ show h ++ [9%N] ++ lit "[" ++ s ++ lit "]".
(** what is printed for the input: lines that cannot be read and texts with
    unknown characters are left out *)
Inductive tested (A : alphabet) : list (option str) -> list str -> Prop :=
| tested_nil : tested A [] []
| tested_unreadable ls out : tested A ls out -> tested A (None :: ls) out
| tested_known t line ls out : encodable A t -> ok_line A t line -> tested A ls out -> tested A (Some t :: ls) (line :: out)
| tested_unknown t ls out : ~ encodable A t -> tested A ls out -> tested A (Some t :: ls) out.

(** * What is asked *)
(** The options can be read; the alphabet file says [A]. *)
Record test_asked (ws : N -> bool) (parse_f64 : str -> option f64) (fs : str -> option (list (option str))) (debug : option str) (ts : list typed) (A : alphabet) : Prop := {
  ta_debug : forall s, debug = Some s -> exists k, S_Model.decimal 255 s k;
  ta_weights : exists w, weights_say parse_f64 TestInput ts w;
  ta_alphabet : exists n ls, TOption (name "alphabet") n ∈ ts /\ fs n = Some ls /\ alphabet_says ws ls A;
}.
Record index_asked (parse_f64 : str -> option f64) (parse_f32 : str -> option f32) (debug : option str) (ts : list typed) : Prop := {
  xa_debug : forall s, debug = Some s -> exists k, S_Model.decimal 255 s k;
  xa_parameters : exists P, parameters_say parse_f64 parse_f32 Index ts P /\
    (flt (p_cutoff_threshold (tp_search P)) f1 = true -> feq (p_cutoff_threshold (tp_search P)) f0 = true);
}.
