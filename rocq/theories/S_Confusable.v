(** Specification of confusable patterns. *)
From Verif Require Import M_Base M_Utf8 M_Anahash M_Float M_Types M_Model M_Confusable S_Model.
From stdpp Require Import options.

(** What an instruction does, and the texts it mentions. *)
Inductive kind := KInsertion | KDeletion | KIdentity.
Definition kind_of (e : edit_instruction) : kind :=
  match e with
  | Insertion _ | InsertionOptions _ => KInsertion
  | Deletion _ | DeletionOptions _ => KDeletion
  | Identity _ | IdentityOptions _ => KIdentity
  end.
Definition texts_of (e : edit_instruction) : list str :=
  match e with
  | Insertion s | Deletion s | Identity s => [s]
  | InsertionOptions v | DeletionOptions v | IdentityOptions v => v
  end.
(** Instructions of an actual script have one text. *)
Definition plain (e : edit_instruction) (s : str) : Prop := e = Insertion s \/ e = Deletion s \/ e = Identity s.

(** The place of an instruction in a pattern of [l]. *)
Inductive place := OnlyOne | FirstOne | LastOne | MiddleOne.
Definition place_of (j l : nat) : place :=
  match j, l with
  | 0, 1 => OnlyOne
  | 0, _ => FirstOne
  | _, _ => if decide (S j = l) then LastOne else MiddleOne
  end.
(** How the text of a pattern has to occur in that of the script: a kept text
    may continue outside the pattern; an inserted or deleted one may have more
    before it. *)
Definition covers (k : kind) (p : place) (s t : str) : Prop :=
  match k, p with
  | KIdentity, (OnlyOne | MiddleOne) => s = t
  | KIdentity, LastOne => s `prefix_of` t
  | _, _ => s `suffix_of` t
  end.
Definition fits (p : place) (e r : edit_instruction) : Prop :=
  kind_of e = kind_of r /\ exists s t, s ∈ texts_of e /\ plain r t /\ covers (kind_of e) p s t.

(** The first [k] instructions of the pattern fit the script from position [i] on. *)
Definition fits_upto (pat script : list edit_instruction) (i k : nat) : Prop :=
  forall j e, j < k -> pat !! j = Some e -> exists r, script !! (i + j) = Some r /\ fits (place_of j (length pat)) e r.
(** The pattern occurs at position [i]. *)
Definition occurs_at (c : confusable) (script : list edit_instruction) (i : nat) : Prop :=
  cf_editscript c <> [] /\ fits_upto (cf_editscript c) script i (length (cf_editscript c)) /\
  (cf_strictbegin c = true -> i = 0) /\ (cf_strictend c = true -> i + length (cf_editscript c) = length script).

(** No two neighbouring instructions of the same kind. *)
Definition alternating (script : list edit_instruction) : Prop :=
  forall i a b, script !! i = Some a -> script !! S i = Some b -> kind_of a <> kind_of b.

(** The product of a list of weights, from left to right. *)
Inductive product_of : list f64 -> f64 -> Prop :=
| product_nil : product_of [] f1
| product_snoc l x w : product_of l x -> product_of (l ++ [w]) (fmul x w).

(** [line_confusable line c]: the line of a confusable list stands for [c]. *)
Definition line_confusable (parse_script : str -> option (list edit_instruction)) (parse_f64 : str -> option f64)
    (line : str) (c : confusable) : Prop :=
  exists fs t body, fields_of 9 line fs /\ fs !! 0 = Some t /\
    t = (if cf_strictbegin c then [94%N] else []) ++ body ++ (if cf_strictend c then [36%N] else []) /\
    (exists b, head t = Some b /\ (b < 128)%N /\ (cf_strictbegin c = true <-> b = 94%N)) /\
    (exists e, last t = Some e /\ (e < 128)%N /\ (cf_strictend c = true <-> e = 36%N)) /\
    parse_script body = Some (cf_editscript c) /\
    match fs !! 1 with None => cf_weight c = f1 | Some s => parse_f64 s = Some (cf_weight c) end.
