(** Specification of the files per lexicon. *)
From Coq Require String Ascii.
From Verif Require Import M_Base M_Float M_Types M_Model S_Model S_Cli.
Import String.StringSyntax Ascii.AsciiSyntax.
From stdpp Require Import options.

(** The links of the entries lead to entries. *)
Definition links_resolve (m : model) : Prop := forall v y s, v ∈ m_decoder m -> (y, s) ∈ stored_variants v -> is_Some (m_decoder m !! y).
(** All variants of all entries, in order, with their scores. *)
Definition linked_to (m : model) (y : vocab_id * f64) (x : vocab_value * f64) : Prop := m_decoder m !! y.1 = Some x.1 /\ x.2 = y.2.
Definition variants_listed (m : model) (l : list (vocab_value * f64)) : Prop :=
  exists ls, Forall2 (fun v l => Forall2 (linked_to m) (stored_variants v) l) (m_decoder m) ls /\ l = concat ls.
(** the variants that go into the file for lexicon [i]: those in that lexicon ... *)
Definition in_the_lexicon (i : nat) (x : vocab_value * f64) : Prop := N.testbit (vv_lexindex x.1) (N.of_nat i) = true.
(** ... or, as it is for TSV: those not in the first, and those in the second *)
Definition not_first_or_second (i : nat) (x : vocab_value * f64) : Prop :=
  (i = 0 /\ N.testbit (vv_lexindex x.1) 0 = false) \/ (i = 1 /\ N.testbit (vv_lexindex x.1) 1 = true).
(** A file with the variants [l]; there is none if there are no variants. *)
Definition file_for {A} (line : A -> str -> Prop) (l : list A) (f : option str) : Prop :=
  (l = [] /\ f = None) \/ (l <> [] /\ exists lines, Forall2 line l lines /\ f = Some (concat lines)).
(** Files, by the number of the lexicon, with the variants for which [P] holds. *)
Definition files_have (m : model) (P : nat -> vocab_value * f64 -> Prop) (line : vocab_value * f64 -> str -> Prop) (files : gmap nat str) : Prop :=
  exists l, variants_listed m l /\
    (forall i, i < length (m_lexicons m) -> exists l', selects (P i) l l' /\ file_for line l' (files !! i)) /\
    (forall i, length (m_lexicons m) <= i -> files !! i = None).
(** A line has the text, the score and the frequency. *)
Definition line_says (fmt : f64 -> str) (x : vocab_value * f64) (s : str) : Prop :=
  exists d, decimal (vv_frequency x.1) d /\ s = joined 9 [[]; vv_text x.1; fmt x.2; d] ++ [10%N].
(** In JSON it is an object, followed by a comma; [score] and [freq] are the two members. *)
Definition member_says (score freq : vocab_value * f64 -> str -> Prop) (x : vocab_value * f64) (s : str) : Prop :=
  exists a b c, score x b /\ freq x c /\ s = a ++ name ", " /\
    says a (JObj [(name "text", JStr (vv_text x.1)); (name "score", JNum b); (name "freq", JNum c)]).
Definition the_score (fmt : f64 -> str) (x : vocab_value * f64) (s : str) : Prop := s = fmt x.2.
Definition the_frequency (x : vocab_value * f64) (s : str) : Prop := decimal (vv_frequency x.1) s.
