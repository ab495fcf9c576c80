(** Property C86: the offsets of matches as a Python program uses them. *)
From Coq Require String Ascii.
From Coq Require Import Lia.
From Verif Require Import M_Base M_Utf8 M_Float M_Types M_Model M_Search M_Text M_Values M_Matches M_Options M_Cli M_Main M_Python.
From Verif Require Import S_Text S_Model S_Search S_Matches S_Cli S_Program S_Python S_Session S_Offsets P_Base P_Offsets.
From Verif Require C_Find C_Options C_Program C_Matches C_Session C_Contains P_Solver.
Import String.StringSyntax Ascii.AsciiSyntax.
From stdpp Require Import options.

(** ** C86 *)
Section offsets.
  Context (ln32 : f32 -> f32) (ln : f64 -> f64) (ws alpha : N -> bool) (solve : fst_graph -> nat -> list (list nat * f32)).
  Context (lookup : str -> res (list variant_result)) (m : model) (p : search_parameters) (fw : f32) (t : str) (d : pyval).
  #[local] Notation returned := (py_find_all_matches m fw (fun t => find_all_matches ln32 ln ws solve alpha lookup m t p) t = Ok d).

  (** With unicodeoffsets, or in ASCII texts: slices of the text. *)
  Theorem C86_slices : alpha 32%N = false -> solver_sound solve -> p_unicodeoffsets p = true \/ Forall (fun c => (c < 128)%N) t -> returned ->
    exists ds, d = PyList ds /\ sliced (fun s => s) t ds /\ rebuilt (fun s => s) t 0 ds t.
  Proof. intros Ha Hs Hu E. exact (character_offsets ln32 ln ws alpha solve lookup m p fw t d Ha Hs E Hu). Qed.
  (** Without: slices of the bytes of the text. *)
  Theorem C86_bytes : alpha 32%N = false -> solver_sound solve -> p_unicodeoffsets p = false -> returned ->
    exists ds, d = PyList ds /\ sliced bytes t ds /\ rebuilt bytes t 0 ds (bytes t).
  Proof. intros Ha Hs Hu E. exact (byte_offsets ln32 ln ws alpha solve lookup m p fw t d Ha Hs E Hu). Qed.
End offsets.
(** A match has one text and one place. *)
Theorem C86_one_place x s b e s' b' e' : located x s b e -> located x s' b' e' -> s' = s /\ b' = b /\ e' = e.
Proof. exact (located_det x s b e s' b' e'). Qed.
Print Assumptions C86_slices.
Print Assumptions C86_bytes.
Print Assumptions C86_one_place.

#[local] Arguments lit s%string_scope.
(** a model of C85; "é baab" *)
Definition exp (u : bool) : search_parameters := SearchParameters (TAbsolute 2) (TAbsolute 2) 20 f0 f0 Exhaustive 2 9 f1 f1 f1 f0 u.
Definition exsearch (u : bool) (t : str) : res (list tmatch) :=
  find_all_matches C_Matches.step_ln32 C_Matches.step_ln C_Matches.space (P_Solver.some_solver Datatypes.id) C_Find.lower
    (fun q => find_variants C_Find.lower C_Find.script 1000 Datatypes.id (C_Contains.exm C_Contains.cs1) q (exp u)) (C_Contains.exm C_Contains.cs1) t (exp u).
Definition ext : str := [233; 32]%N ++ lit "baab".
Definition place (d : pyval) : option (pyval * pyval) := match d with PyDict ((_, s) :: (_, o) :: _) => Some (s, o) | _ => None end.
Definition places (d : res pyval) : option (list (option (pyval * pyval))) := match d with Ok (PyList l) => Some (map place l) | _ => None end.
#[local] Notation offsets b e := (PyDict [(lit "begin", PyInt b); (lit "end", PyInt e)]).
Example C86_ex : C_Find.lower 32%N = false /\ solver_sound (P_Solver.some_solver Datatypes.id) /\
  places (py_find_all_matches (C_Contains.exm C_Contains.cs1) f0 (exsearch true) ext) = Some [Some (PyStr [233%N], offsets 0 1); Some (PyStr (lit "baab"), offsets 2 6)] /\
  places (py_find_all_matches (C_Contains.exm C_Contains.cs1) f0 (exsearch false) ext) = Some [Some (PyStr [233%N], offsets 0 2); Some (PyStr (lit "baab"), offsets 3 7)].
Proof. split; [done|]. split; [exact (proj1 C_Session.exsolver)|]. split; by vm_compute. Qed.
(** slices between the offsets: of the text, and of its bytes; with byte offsets
    the slice of the text is another *)
Example C86_ex_slices : py_slice ext 2 6 = lit "baab" /\ py_slice (bytes ext) 3 7 = bytes (lit "baab") /\ py_slice ext 3 7 = lit "aab" /\
  p_unicodeoffsets (tp_search (py_parameters (fun _ => None) [(name "unicodeoffsets", PyBool true)])) = true /\
  p_unicodeoffsets (tp_search (py_parameters (fun _ => None) [])) = false.
Proof. by vm_compute. Qed.
