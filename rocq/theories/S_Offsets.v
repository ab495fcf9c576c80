(** Specification of the offsets of matches as a Python program uses them. *)
From Verif Require Import M_Base M_Utf8 M_Types M_Python S_Cli.
From Coq Require String Ascii.
Import String.StringSyntax Ascii.AsciiSyntax.
From stdpp Require Import options.

(** [x[b:e]]: positions beyond the end mean the end; negative positions count
    from the end. *)
Definition position (n : nat) (z : Z) : nat :=
  if (z <? 0)%Z then Z.to_nat (Z.of_nat n + z) else Nat.min (Z.to_nat z) n.
Definition py_slice {A} (x : list A) (b e : Z) : list A :=
  take (position (length x) e - position (length x) b) (drop (position (length x) b) x).

(** [d[k]] is [v] *)
Definition item (d : pyval) (k : str) (v : pyval) : Prop :=
  exists l before after, d = PyDict l /\ l = before ++ (k, v) :: after /\ Forall (fun x => x.1 <> k) after.
(** the text and the offsets of a match *)
Definition located (x : pyval) (s : str) (b e : Z) : Prop :=
  item x (name "input") (PyStr s) /\ exists o, item x (name "offset") o /\ item o (name "begin") (PyInt b) /\ item o (name "end") (PyInt e).

(** Each match is the slice of the text between its offsets, a non-empty part of
    it; [enc]: the characters or the bytes of texts. *)
Definition sliced (enc : str -> list N) (t : str) (ds : list pyval) : Prop :=
  Forall (fun x => exists s b e, located x s b e /\ s <> [] /\ (0 <= b < e)%Z /\ (e <= Z.of_nat (length (enc t)))%Z /\ py_slice (enc t) b e = enc s) ds.
(** The slices of the text between the matches, with the matches put between
    them; [b]: where the last match ended. *)
Inductive rebuilt (enc : str -> list N) (t : str) : Z -> list pyval -> list N -> Prop :=
| rebuilt_end b : rebuilt enc t b [] (py_slice (enc t) b (Z.of_nat (length (enc t))))
| rebuilt_match b x xs s b' e' rest : located x s b' e' -> (b <= b')%Z -> rebuilt enc t e' xs rest ->
    rebuilt enc t b (x :: xs) (py_slice (enc t) b b' ++ enc s ++ rest).
