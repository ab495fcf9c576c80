(** Specification of what learning mode prints with "--json" and "--multi-output". *)
From Coq Require String Ascii.
From Verif Require Import M_Base M_Float M_Types M_Model S_Model S_Cli S_LearnMore.
Import String.StringSyntax Ascii.AsciiSyntax.
From stdpp Require Import options.

(** The vocabularies after each input. *)
Inductive learned_models (lc : N -> bool) (ses : str -> str -> list edit_instruction) (p : search_parameters) (k : nat)
  : list (list str) -> model -> list model -> Prop :=
| lm_none m : learned_models lc ses p k [] m []
| lm_input lines lls m m1 ms : iterations lc ses p lines k m m1 -> learned_models lc ses p k lls m1 ms ->
    learned_models lc ses p k (lines :: lls) m (m1 :: ms).

(** texts without control characters and backslashes *)
Definition all_clean (m : model) : Prop := forall v, v ∈ m_decoder m -> clean (vv_text v).
(** no entry has variants; at most one has *)
Definition no_variants (m : model) : Prop := Forall (fun v => ~ has_reference v) (m_decoder m).
Definition one_variant_list (m : model) : Prop := exists vs, selects has_reference (m_decoder m) vs /\ length vs <= 1.

(** JSON: text, score and frequency of a variant; the variants of a word; the words. *)
Definition variant_shown (fmt : f64 -> str) (m : model) (y : vocab_id * f64) (s : str) : Prop :=
  exists w q d, m_decoder m !! y.1 = Some w /\ string q (vv_text w) /\ decimal (vv_frequency w) d /\
    s = name "        { ""text"": " ++ q ++ name ", ""score"": " ++ fmt y.2 ++ name ", ""freq"": " ++ d ++ name " }, " ++ [10%N].
Definition word_shown (fmt : f64 -> str) (m : model) (v : vocab_value) (s : str) : Prop :=
  exists q items, string q (vv_text v) /\ Forall2 (variant_shown fmt m) (stored_variants v) items /\
    s = name "    " ++ q ++ name ": [ " ++ [10%N] ++ concat items ++ name "    ]" ++ [10%N].
Definition word_shown_only (v : vocab_value) (s : str) : Prop :=
  exists q, string q (vv_text v) /\ s = name "    " ++ q ++ name ": [ " ++ [10%N] ++ name "    ]" ++ [10%N].
Definition object_shown (shown : vocab_value -> str -> Prop) (m : model) (s : str) : Prop :=
  exists vs items, selects has_reference (m_decoder m) vs /\ Forall2 shown vs items /\ s = name "{" ++ [10%N] ++ concat items ++ name "}" ++ [10%N].
(** the whole output: what is shown after each input, between brackets *)
Definition array_shown (shown : model -> str -> Prop) (ms : list model) (s : str) : Prop :=
  exists items, Forall2 shown ms items /\ s = name "[" ++ [10%N] ++ concat items ++ name "]" ++ [10%N].
(** Plain: the words that have variants, one on each line *)
Definition words_shown (m : model) (s : str) : Prop :=
  exists vs, selects has_reference (m_decoder m) vs /\ s = concat (map (fun v => vv_text v ++ [10%N]) vs).
