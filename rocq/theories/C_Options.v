(** Property C76: the options of the command line tool. *)
From Coq Require String Ascii.
From Verif Require Import M_Base M_Anahash M_Iter M_Float M_Types M_Model M_Confusable M_ConfList M_Rules M_Search M_Text M_Values.
From Verif Require Import M_Matches M_Learn M_Cli M_Main M_Options M_Program.
From Verif Require Import S_Model S_Values S_Cli S_Options P_Base P_Options P_Program.
Import String.StringSyntax Ascii.AsciiSyntax.
From stdpp Require Import options.

(** ** C76 *)
(** What is accepted. *)
Theorem C76_accepted c ts : accepted c ts = true <-> well_typed c ts.
Proof. exact (accepted_spec c ts). Qed.
Print Assumptions C76_accepted.
(** The parameters are what was typed, and the documented defaults otherwise;
    but offsets are never in characters. *)
Theorem C76_parameters pf pf32 c ts P : well_typed c ts ->
  tool_params pf pf32 c ts = Ok P <-> parameters_say pf pf32 c ts P /\ p_unicodeoffsets (tp_search P) = false.
Proof. intros H%accepted_spec. by apply params_spec. Qed.
Print Assumptions C76_parameters.
Theorem C76_weights pf c ts w : well_typed c ts -> tool_weights pf c ts = Ok w <-> weights_say pf c ts w.
Proof. intros H%accepted_spec. by apply weights_spec. Qed.
Print Assumptions C76_weights.
(** Whoever asks for offsets in characters does not get them. *)
Theorem C76_unicode_offsets_refuted pf pf32 c ts P : well_typed c ts -> tool_params pf pf32 c ts = Ok P ->
  flag_typed ts "unicode-offsets" -> ~ offsets_say ts P.
Proof. intros W E F O. apply C76_parameters in E as [_ E]; [|done]. apply O in F. congruence. Qed.
Print Assumptions C76_unicode_offsets_refuted.
(** Two flags change nothing: a run that is given one of them prints, and ends,
    like the run without it. *)
Theorem C76_without_effect pf pf32 fmt ws low al ln32 ln psc scr sol o o' o'' fs stdin fuel debug c ts ts' :
  one_more "unicode-offsets" ts ts' \/ one_more "allow-overlap" ts ts' -> well_typed c ts' ->
  program pf pf32 fmt ws low al ln32 ln psc scr sol o o' o'' fs stdin fuel (Invocation debug (Some c) ts') =
  program pf pf32 fmt ws low al ln32 ln psc scr sol o o' o'' fs stdin fuel (Invocation debug (Some c) ts).
Proof. intros [H|H]; [apply (program_ignores _ _ _ _ _ _ _ _ _ _ _ _ _ _ _ _ _ _ _ _ _ _ (or_introl eq_refl) H)|
  apply (program_ignores _ _ _ _ _ _ _ _ _ _ _ _ _ _ _ _ _ _ _ _ _ _ (or_intror eq_refl) H)]. Qed.
Print Assumptions C76_without_effect.
(** The number of iterations of learning: what is typed, or one. *)
Theorem C76_iterations ts k : well_typed Learn ts ->
  parsed parse_small (value_of Learn ts (lit "iterations")) = Ok k <-> option_says (counts_to 255) Learn ts "iterations" None k.
Proof.
  intros W. refine (parsed_spec Learn ts (proj2 (accepted_spec _ _) W) parse_small (counts_to 255) _ k _ _); [apply small_spec|by vm_compute].
Qed.
Print Assumptions C76_iterations.
(** A cutoff below 1 other than 0 ends the run with code 2 before anything is
    printed; no other value does. *)
Theorem C76_cutoff pf pf32 fmt ws low al ln32 ln psc scr sol o o' o'' fs stdin fuel debug c ts m P :
  well_typed c ts -> c <> TestInput -> is_Some (parse_u8 (default (lit "0") debug)) ->
  loaded_model pf pf32 ws psc o o' fs c ts = Ok m -> tool_params pf pf32 c ts = Ok P ->
  let x := p_cutoff_threshold (tp_search P) in
  let run := program pf pf32 fmt ws low al ln32 ln psc scr sol o o' o'' fs stdin fuel (Invocation debug (Some c) ts) in
  (flt x f1 = true /\ feq x f0 = false -> run = Outcome [] (Exited 2)) /\
  ((exists code, oc_end run = Exited code) -> flt x f1 = true /\ feq x f0 = false).
Proof. exact (cutoff_exits pf pf32 fmt ws low al ln32 ln psc scr sol o o' o'' fs stdin fuel debug c ts m P). Qed.
Print Assumptions C76_cutoff.
(** Not a number is no number from 1, nor 0, and is let through. *)
Theorem C76_nan_cutoff_refuted p : p_cutoff_threshold p = S754_nan ->
  cutoff_refused p = false /\ fle f1 (p_cutoff_threshold p) = false /\ feq (p_cutoff_threshold p) f0 = false.
Proof. unfold cutoff_refused. intros ->. by vm_compute. Qed.
Print Assumptions C76_nan_cutoff_refuted.

(** numbers that occur below *)
Definition exnum (s : str) : option f64 :=
  if bool_decide (s = lit "0.5") then Some (S754_finite false 4503599627370496 (-53))
  else if bool_decide (s = lit "0.125") then Some (S754_finite false 4503599627370496 (-55))
  else if bool_decide (s = lit "0.25") then Some (S754_finite false 4503599627370496 (-54))
  else if bool_decide (s = lit "2.0") then Some f2 else None.
Definition exnum32 (s : str) : option f32 :=
  if bool_decide (s = lit "0.5") then Some (S754_finite false 8388608 (-24))
  else if bool_decide (s = lit "1.0") then Some f32_1
  else if bool_decide (s = lit "3.0") then Some (S754_finite false 12582912 (-22))
  else if bool_decide (s = lit "0.0") then Some f0 else None.
Definition opt (l v : String.string) : typed := TOption (lit l) (lit v).
Arguments opt (l v)%string_scope.
Definition flg (l : String.string) : typed := TFlag (lit l).
Arguments flg l%string_scope.
Example C76_iterations_ex : well_typed Learn [opt "alphabet" "a.tsv"; opt "lexicon" "l.tsv"] /\ well_typed Learn [opt "alphabet" "a.tsv"; opt "lexicon" "l.tsv"; opt "iterations" "3"] /\
  parsed parse_small (value_of Learn [opt "alphabet" "a.tsv"; opt "lexicon" "l.tsv"] (lit "iterations")) = Ok 1 /\
  parsed parse_small (value_of Learn [opt "alphabet" "a.tsv"; opt "lexicon" "l.tsv"; opt "iterations" "3"] (lit "iterations")) = Ok 3.
Proof. split; [apply accepted_spec; by vm_compute|]. split; [apply accepted_spec; by vm_compute|]. by vm_compute. Qed.
Definition exts : list typed := [opt "alphabet" "a.tsv"; opt "lexicon" "l.tsv"; flg "unicode-offsets"; opt "lexicon" "m.tsv";
  opt "max-edit-distance" "0.5;3"; flg "stop-exact"; flg "allow-overlap"; TFile (lit "in.txt"); opt "weight-lcs" "0.5"].
Example C76_ex :
  well_typed Search exts /\ ~ well_typed Query exts /\ flag_typed exts "unicode-offsets" /\
  (exists ts, one_more "unicode-offsets" ts exts) /\ (exists ts, one_more "allow-overlap" ts exts) /\
  (exists P, tool_params exnum exnum32 Search exts = Ok P /\
    p_max_edit_distance (tp_search P) = TRatioWithLimit (S754_finite false 8388608 (-24)) 3 /\
    p_max_anagram_distance (tp_search P) = TAbsolute 3 /\ p_max_ngram (tp_search P) = 3 /\
    p_variantmodel_weight (tp_search P) = S754_finite false 12582912 (-22) /\ p_freq_weight (tp_search P) = f0 /\
    p_stop_criterion (tp_search P) = StopAtExactMatch /\ tp_single_thread P = false /\ tp_consolidate_matches P = false) /\
  (exists w, tool_weights exnum Search exts = Ok w /\ weights_sum w = S754_finite false 6192449487634432 (-52)).
Proof.
  split; [apply accepted_spec; by vm_compute|]. split; [intros H%accepted_spec; by vm_compute in H|].
  split; [apply elem_of_list_lookup; by exists 2|].
  split; [eexists; exists (take 2 exts), (drop 3 exts); by split|]. split; [eexists; exists (take 6 exts), (drop 7 exts); by split|].
  split; eexists; (split; [by vm_compute|]); by vm_compute.
Qed.
