(** Common conventions of the model: text, errors, and the error monad. *)
From stdpp Require Export prelude list.
From Coq Require Export NArith.
From stdpp Require Import options.

(* keep [cbn]/[simpl] from unfolding binary arithmetic *)
Global Arguments N.add : simpl never.
Global Arguments N.sub : simpl never.
Global Arguments N.mul : simpl never.
Global Arguments N.div : simpl never.
Global Arguments N.modulo : simpl never.
Global Arguments N.pow : simpl never.
Global Arguments N.leb : simpl never.
Global Arguments N.ltb : simpl never.
Global Arguments N.eqb : simpl never.
Global Arguments Nat.modulo : simpl never.
Global Arguments Nat.div : simpl never.
Global Arguments N.of_nat : simpl never.

(** Text: a Rust [str] is modelled as the list of its Unicode scalar values
    ([char]s).  Byte positions are computed from it with [utf8_len]
    (see M_Utf8.v for the byte level). *)
Notation str := (list N).

(** Ways in which the Rust code stops abnormally.  [Overflow] is integer
    overflow/underflow (a panic in builds with overflow checks). *)
Inductive panic :=
| IndexOutOfBounds
| Overflow
| ExpectNone
| AssertFailed
| NotANumber
| OutOfFuel.

(** Result of a Rust computation that may panic. *)
Inductive res (A : Type) :=
| Ok (a : A)
| Panic (p : panic).
Global Arguments Ok {A} a.
Global Arguments Panic {A} p.

Definition rbind {A B} (x : res A) (f : A -> res B) : res B :=
  match x with Ok a => f a | Panic p => Panic p end.

Definition rmap {A B} (f : A -> B) (x : res A) : res B :=
  rbind x (fun a => Ok (f a)).

Notation "'let*' x := e1 'in' e2" :=
  (rbind e1 (fun x => e2)) (at level 200, x pattern, e1 at level 200, e2 at level 200).

(** [v[i]] on a Rust slice. *)
Definition rindex {A} (l : list A) (i : nat) : res A :=
  match nth_error l i with Some a => Ok a | None => Panic IndexOutOfBounds end.

(** [Option::expect]/[Option::unwrap]. *)
Definition rexpect {A} (o : option A) : res A :=
  match o with Some a => Ok a | None => Panic ExpectNone end.

(** [x as u8], [x as u16], [x as u32] for unsigned [x]. *)
Definition as_u8 (n : nat) : nat := Nat.modulo n 256.
Definition as_u16 (n : N) : N := N.modulo n 65536.
Definition as_u32 (n : N) : N := N.modulo n 4294967296.

(** Iterate a fallible function over a list, collecting the results. *)
Fixpoint rmapM {A B} (f : A -> res B) (l : list A) : res (list B) :=
  match l with
  | [] => Ok []
  | a :: l' => let* b := f a in let* bs := rmapM f l' in Ok (b :: bs)
  end.

Fixpoint rfoldl {A B} (f : B -> A -> res B) (acc : B) (l : list A) : res B :=
  match l with
  | [] => Ok acc
  | a :: l' => let* acc' := f acc a in rfoldl f acc' l'
  end.
