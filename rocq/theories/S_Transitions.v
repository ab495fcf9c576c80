(** Specification of the language model that files define, and of transitions
    between words. *)
From Verif Require Import M_Base M_Float M_Types M_Model M_Main M_Matches S_Model S_Main S_Matches.
From stdpp Require Import options.

(** words of the vocabulary, other than the unknown word *)
Definition known_word (m : model) (w : str) (id : vocab_id) : Prop := m_encoder m !! w = Some id /\ w <> unk_text.
(** a file has the count [n] for the text [t] *)
Definition line_gives (f : file) (t : str) (n : N) : Prop :=
  exists l, l ∈ f_lines f /\ l <> [] /\ line_adds (default_params 0 VT_LM) l (t, Some n, default_params 0 VT_LM).
(** the greatest count in the files *)
Definition greatest_count (lms : list file) (t : str) (n : N) : Prop :=
  (exists f, f ∈ lms /\ line_gives f t n) /\ forall f n', f ∈ lms -> line_gives f t n' -> (n' <= n)%N.
Definition no_count (lms : list file) (t : str) : Prop := forall f n, f ∈ lms -> ~ line_gives f t n.
(** the text is mentioned in a file that is not a language model *)
Definition listed (parse_f64 : str -> option f64) (gs : list source) (t : str) : Prop := exists s, s ∈ gs /\ mentions parse_f64 s t.
Definition given_sources (gs : list source) : Prop := Forall (fun s => exists r, s = Given r) gs.
