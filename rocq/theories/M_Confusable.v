(** Model of [Confusable::found_in] (src/confusables.rs:46-139). *)
From Verif Require Import M_Base M_Anahash M_Float M_Types.
From stdpp Require Import options.

(** [sref.ends_with(s)]; [sref.starts_with(s)] is [is_prefix s sref].
    (On characters; on valid UTF-8 this is the comparison of bytes, see M_Utf8.v.) *)
Definition is_suffix (s sref : str) : bool := is_prefix (reverse s) (reverse sref).

(** src/confusables.rs:58-66, 81-104: how an identity part is compared, by
    the position [matches] in the pattern of [l] instructions *)
Definition identity_test (matches l : nat) (s sref : str) : bool :=
  if (matches =? 0)%nat && (matches =? l - 1)%nat then bool_decide (s = sref)
  else if (matches =? 0)%nat then is_suffix s sref
  else if (matches =? l - 1)%nat then is_prefix s sref
  else bool_decide (s = sref).

(** src/confusables.rs:52-111: does one instruction of the pattern match one
    instruction of the edit script?  The loops over options stop at the first
    hit, hence [existsb]. *)
Definition instruction_test (matches l : nat) (instruction refinstruction : edit_instruction) : bool :=
  match instruction, refinstruction with
  | Insertion s, Insertion sref | Deletion s, Deletion sref => is_suffix s sref
  | Identity s, Identity sref => identity_test matches l s sref
  | InsertionOptions v, Insertion sref | DeletionOptions v, Deletion sref => existsb (fun s => is_suffix s sref) v
  | IdentityOptions v, Identity sref => existsb (fun s => identity_test matches l s sref) v
  | _, _ => false
  end.

(** src/confusables.rs:50-137: the loop, with the number [i] of the current
    instruction of the script and the number of [matches] so far; [n] is the
    number of instructions of the whole script. *)
Fixpoint found_loop (c : confusable) (n i matches : nat) (refs : list edit_instruction) : bool :=
  match refs with
  | [] => false
  | r :: refs' =>
      match nth_error (cf_editscript c) matches with
      | None => found_loop c n (S i) matches refs'
      | Some instruction =>
          if instruction_test matches (length (cf_editscript c)) instruction r then
            if (S matches =? length (cf_editscript c))%nat then
              if cf_strictend c then (i =? n - 1)%nat else true
            else found_loop c n (S i) (S matches) refs'
          else if cf_strictbegin c then false
          else found_loop c n (S i) 0 refs'
      end
  end.

(** src/confusables.rs:47-138 [found_in] *)
Definition found_in (c : confusable) (refscript : list edit_instruction) : bool :=
  found_loop c (length refscript) 0 0 refscript.
