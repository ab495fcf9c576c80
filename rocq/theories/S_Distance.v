(** Specification of edit distances by sequences of single edits. *)
From Verif Require Import M_Base.
From stdpp Require Import options.

Section spec.
  Context {A : Type}.

  (** One edit: insert, delete or replace a character anywhere; with
      [swaps = true] also swap two neighbouring characters. *)
  Inductive edit1 (swaps : bool) : list A -> list A -> Prop :=
  | e_ins p c q : edit1 swaps (p ++ q) (p ++ c :: q)
  | e_del p c q : edit1 swaps (p ++ c :: q) (p ++ q)
  | e_sub p c d q : edit1 swaps (p ++ c :: q) (p ++ d :: q)
  | e_swap p c d q : swaps = true -> edit1 swaps (p ++ c :: d :: q) (p ++ d :: c :: q).

  (** [edits swaps n s t]: [n] single edits turn [s] into [t]. *)
  Inductive edits (swaps : bool) : nat -> list A -> list A -> Prop :=
  | edits_0 s : edits swaps 0 s s
  | edits_S n s u t : edits swaps n s u -> edit1 swaps u t -> edits swaps (S n) s t.

  (** the least number of edits *)
  Definition min_edits (swaps : bool) (s t : list A) (d : nat) : Prop :=
    edits swaps d s t /\ forall n, edits swaps n s t -> d <= n.

  (** [common_sub w s t]: [w] is a contiguous part of both. *)
  Definition substring (w s : list A) : Prop := exists p q, s = p ++ w ++ q.

  (** [bag_diff s t n]: the bags of [s] and [t] differ by [n] insertions and deletions. *)
  Definition bag_diff (s t : list A) (n : nat) : Prop :=
    exists c x y, s ≡ₚ c ++ x /\ t ≡ₚ c ++ y /\ n = length x + length y /\
      (forall a, a ∈ x -> a ∉ y).
End spec.
