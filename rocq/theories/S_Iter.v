(** Specification for the deletion iterators: what has to be yielded, in terms
    of bags (lists up to permutation). *)
From Verif Require Import M_Base M_Anahash S_Anahash M_Iter.
From stdpp Require Import options.

(** [deletes ks d sub]: the bag [sub] is what remains of the bag [ks] after
    deleting [d] characters. *)
Definition deletes (ks : list nat) (d : nat) (sub : list nat) : Prop :=
  exists gone, length gone = d /\ ks ≡ₚ sub ++ gone.

Definition bag_ok (asz : nat) (ks : list nat) : Prop :=
  asz <= 168 /\ Forall (fun k => k < asz) ks.

(** Distances and leaves the caller asked for. *)
Definition wanted (p : search_params) (d : nat) (sub : list nat) : Prop :=
  default 1 (sp_min_distance p) <= d /\
  match sp_max_distance p with None => True | Some m => d <= m end /\
  (sp_allow_empty_leaves p = true \/ sub <> []).

Definition item_value (x : deletion * nat) : N := x.1.1.
Definition item_char (x : deletion * nat) : nat := x.1.2.
Definition item_depth (x : deletion * nat) : nat := x.2.

(** A reported item: it stands for a sub-bag of [ks] obtained by deleting as
    many characters as its depth says, it is one the caller asked for, and the
    character it reports is one of those deleted. *)
Definition item_ok (p : search_params) (ks : list nat) (x : deletion * nat) : Prop :=
  exists sub gone, ks ≡ₚ sub ++ gone /\ length gone = item_depth x /\
    bag_hash sub = Ok (item_value x) /\ wanted p (item_depth x) sub /\
    (gone <> [] -> item_char x ∈ gone).

