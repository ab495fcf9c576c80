(** Independent specification of "reading a text through an alphabet" and of
    bags of characters.  Nothing here refers to hashes. *)
From Verif Require Import M_Base M_Anahash.
From stdpp Require Import options.

(** Alphabets accepted by the hasher: at most 167 lines (one index is reserved
    for unknown characters), and no empty entries ([read_alphabet] drops those). *)
Definition alphabet_ok (A : alphabet) : Prop :=
  length A <= 167 /\ forall line e, line ∈ A -> e ∈ line -> e <> [].

(** [entry_at A i j e]: the [j]-th entry of line [i] of the alphabet is [e]. *)
Definition entry_at (A : alphabet) (i j : nat) (e : str) : Prop :=
  exists line, A !! i = Some line /\ line !! j = Some e.

(** The entry that the greedy reading picks: the first one, in alphabet order
    (line by line, then within the line), that the text starts with. *)
Definition first_entry (A : alphabet) (t : str) (i : nat) (e : str) : Prop :=
  exists j, entry_at A i j e /\ e `prefix_of` t /\
    forall i' j' e', entry_at A i' j' e' -> e' `prefix_of` t ->
      i < i' \/ (i = i' /\ j <= j').

(** No entry of the alphabet starts the text. *)
Definition no_entry (A : alphabet) (t : str) : Prop :=
  forall i j e, entry_at A i j e -> ~ e `prefix_of` t.

(** [reads A t ks]: the text [t] is read as the sequence [ks] of alphabet
    line numbers, unknown characters being read as the extra number
    [length A]. *)
Inductive reads (A : alphabet) : str -> list nat -> Prop :=
| reads_nil : reads A [] []
| reads_entry t i e t' ks :
    t = e ++ t' -> e <> [] -> first_entry A t i e -> reads A t' ks -> reads A t (i :: ks)
| reads_unknown c t' ks :
    no_entry A (c :: t') -> reads A t' ks -> reads A (c :: t') (length A :: ks).

(** The hash of a bag of character indices, built with the public operations
    [AnaValue::character] and [insert] starting from [AnaValue::empty()]. *)
Definition bag_hash (ks : list nat) : res N :=
  rfoldl (fun h k => let* c := character k in Ok (ana_insert h c)) ana_empty ks.

(** The normalised form writes the unknown character as [length A + 1] where
    the hash uses index [length A]; this renames it. *)
Definition unk_to_hash_index (A : alphabet) (x : nat) : nat :=
  if (x =? S (length A))%nat then length A else x.

(** every entry is one character *)
Definition single_chars (A : alphabet) : Prop :=
  forall line e, line ∈ A -> e ∈ line -> exists c, e = [c].

(** [line_of A c i]: [i] is the first line listing the character [c]. *)
Definition line_of (A : alphabet) (c : N) (i : nat) : Prop :=
  (exists line, A !! i = Some line /\ [c] ∈ line) /\
  forall i' line, A !! i' = Some line -> [c] ∈ line -> i <= i'.

(** [unlisted A c]: [c] is on no line. *)
Definition unlisted (A : alphabet) (c : N) : Prop := forall line, line ∈ A -> [c] ∉ line.

(** Two characters the alphabet does not distinguish. *)
Definition indistinct (A : alphabet) (c d : N) : Prop :=
  (exists i, line_of A c i /\ line_of A d i) \/ (unlisted A c /\ unlisted A d).
