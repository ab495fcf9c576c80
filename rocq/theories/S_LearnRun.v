(** Specification of the command line tool in learning mode: what is learned
    from the input, and what is printed. *)
From Coq Require String Ascii.
From Verif Require Import M_Base M_Utf8 M_Anahash M_Iter M_Distance M_Float M_Types M_Model M_Confusable M_Search M_Text M_Rules M_Matches M_Learn M_Cli M_Main M_Options.
From Verif Require Import S_Anahash S_Model S_Search S_Lookup S_Rules S_Learn S_Cli S_Options S_SearchAll S_Program S_SearchRun.
Import String.StringSyntax Ascii.AsciiSyntax.
From stdpp Require Import options.

(** The lines of the input: those before the first unreadable one. *)
Definition lines_read (ls : list (option str)) (lines : list str) : Prop :=
  exists rest, ls = map Some lines ++ rest /\ (rest = [] \/ head rest = Some None).

(** * Pairs *)
Section pairs.
  Context (lc : N -> bool) (ses : str -> str -> list edit_instruction).
  Context (ln32 : f32 -> f32) (ln : f64 -> f64) (ws alpha : N -> bool) (solve : fst_graph -> nat -> list (list nat * f32)).
  Context (m : model) (p : search_parameters).
  (** With "--strict" a line is looked up as a whole, and every result counts. *)
  Definition pairs_strict (s : str) (l : list (str * variant_result)) : Prop :=
    exists ks rs, reads (m_alphabet m) s ks /\ looked_up lc ses m s ks p rs /\ l = map (pair s) rs.
  (** Without, the line is searched, and of every match the selected result counts. *)
  Inductive selected_results : list tmatch -> list (str * variant_result) -> Prop :=
  | sr_nil : selected_results [] []
  | sr_result x xs vs i r l : tm_variants x = Some vs -> tm_selected x = Some i -> vs !! i = Some r ->
      selected_results xs l -> selected_results (x :: xs) ((tm_text x, r) :: l)
  | sr_nothing x xs l : (forall vs i r, tm_variants x = Some vs -> tm_selected x = Some i -> vs !! i = Some r -> False) ->
      selected_results xs l -> selected_results (x :: xs) l.
  Definition pairs_search (s : str) (l : list (str * variant_result)) : Prop :=
    exists ms, searched lc ses ln32 ln ws alpha solve m (in_bytes p) s ms /\ selected_results ms l.
  Definition pairs_of (strict : bool) : str -> list (str * variant_result) -> Prop := if strict then pairs_strict else pairs_search.
End pairs.

(** * The vocabulary afterwards *)
(** new inputs get their entries in the order in which they come *)
Fixpoint first_seen (seen : list str) (l : list str) : list str :=
  match l with
  | [] => []
  | s :: l' => if decide (s ∈ seen) then first_seen seen l' else s :: first_seen (s :: seen) l'
  end.
Definition in_order (l : list (str * variant_result)) (m m' : model) : Prop :=
  map vv_text (m_decoder m') = map vv_text (m_decoder m) ++ first_seen (map vv_text (m_decoder m)) (map fst l).
(** the lines for the entries that have variants *)
Definition learned_lines (fmt : f64 -> str) (m : model) (lines : list str) : Prop :=
  exists vs, selects has_reference (m_decoder m) vs /\ Forall2 (learned_line fmt m) vs lines.

(** * What is asked *)
(** One input, one iteration.  Lines are looked up as a whole, or searched; they
    are short enough for that.  The frequencies and the bytes of the input can be
    added up, with room for counting everything once more. *)
Record learn_asked (parse_f64 : str -> option f64) (parse_f32 : str -> option f32) (alpha : N -> bool) (fs : str -> option (list (option str)))
    (stdin : list (option str)) (debug : option str) (ts : list typed) (P : tool_parameters) (strict : bool) (lines : list str) : Prop := {
  lr_debug : forall s, debug = Some s -> exists k, S_Model.decimal 255 s k;
  lr_parameters : parameters_say parse_f64 parse_f32 Learn ts P;
  lr_weight : weight_single (p_freq_weight (tp_search P));
  lr_cutoff : flt (p_cutoff_threshold (tp_search P)) f1 = true -> feq (p_cutoff_threshold (tp_search P)) f0 = true;
  lr_iterations : option_says (counts_to 255) Learn ts "iterations" None 1;
  lr_strict : strict = true <-> flag_typed ts "strict";
  lr_input : exists n ls, names_typed ts [n] /\ inputs_say fs stdin [n] [ls] /\ lines_read ls lines;
  lr_spaces : Forall (fun s => count_spaces s < 255) lines;
  lr_lines : if strict then Forall lookup_line lines
    else 0 < p_max_seq (tp_search P) /\ Forall (fun s => (N.of_nat (length s) < 65281)%N /\ short_stretches alpha (in_bytes (tp_search P)) s) lines;
}.
Definition room (m : model) (lines : list str) : Prop :=
  (sum_frequency (m_decoder m) + N.of_nat (sum_list (map byte_len lines)) < 2147483648)%N.
