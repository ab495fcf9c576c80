(** Specification of words, boundaries and positions in running text. *)
From Verif Require Import M_Base M_Utf8 M_Types M_Text.
From stdpp Require Import options.

(** [s] is the part of [t] between bytes [b] and [e]. *)
Definition at_bytes (t : str) (b e : nat) (s : str) : Prop :=
  exists pre post, t = pre ++ s ++ post /\ b = byte_len pre /\ e = b + byte_len s.
(** [s] is the part of [t] between characters [b] and [e]. *)
Definition at_chars (t : str) (b e : nat) (s : str) : Prop :=
  b <= e <= length t /\ take (e - b) (drop b t) = s.

(** A text as a series of words, each followed by a separator. *)
Notation pieces := (list (str * str)).
Definition joined (ps : pieces) : str := concat (map (fun p => p.1 ++ p.2) ps).

(** The series is the division of [t] into longest runs: words of alphabetic
    characters, separators of others.  Only the first word (the text starts with
    a separator) and the last separator (it ends with a word) may be empty. *)
Definition segmentation (alpha : N -> bool) (t : str) (ps : pieces) : Prop :=
  t = joined ps /\ ps <> [] /\
  forall i w b, ps !! i = Some (w, b) ->
    Forall (fun c => alpha c = true) w /\ Forall (fun c => alpha c = false) b /\
    (0 < i -> w <> []) /\ (S i < length ps -> b <> []).

(** The boundary after word [i]: its place and text. *)
Definition is_boundary (ps : pieces) (i : nat) (m : tmatch) : Prop :=
  exists w b, ps !! i = Some (w, b) /\
    m = new_empty b (byte_len (joined (take i ps) ++ w)) (byte_len (joined (take i ps) ++ w ++ b)).

(** The stretch of [n] words from word [i]: the words with the separators
    between them. *)
Fixpoint stretch (ps : pieces) (n : nat) : str :=
  match ps, n with
  | (w, b) :: ps', S (S _ as n') => w ++ b ++ stretch ps' n'
  | (w, _) :: _, S 0 => w
  | _, _ => []
  end.

(** The candidate of order [n] from word [i] of the part [ps] of a text that
    starts at byte [pos]. *)
Definition candidate (pos : nat) (ps : pieces) (n i : nat) : tmatch :=
  let b := pos + byte_len (joined (take i ps)) in
  set_n (new_empty (stretch (drop i ps) n) b (b + byte_len (stretch (drop i ps) n))) n.
