(** Property C78: what a search in running text returns, exactly. *)
From Verif Require Import M_Base M_Utf8 M_Anahash M_Float M_Types M_Model M_Values M_Search M_Text M_Rules M_Matches.
From Verif Require Import S_Anahash S_Text S_Model S_Search S_Lookup S_Rules S_Matches S_SearchAll P_Text P_Solver P_SearchAll.
From Verif Require Import C_Anahash C_Model C_Search C_Find C_Matches.
From stdpp Require Import options.

(** ** C78 *)
Theorem C78_search_exact : forall lc ses ln32 ln ws alpha solve m m' p t,
  built m m' -> tame m p -> scorable m' -> solver_sound solve -> alpha 32%N = false ->
  (N.of_nat (length t) < 65281)%N -> short_stretches alpha p t -> solver_complete solve -> 0 < p_max_seq p ->
  exists F, forall lookup, looks_up lc ses F m' p lookup ->
    forall ms, find_all_matches ln32 ln ws solve alpha lookup m' t p = Ok ms <-> searched lc ses ln32 ln ws alpha solve m' p t ms.
Proof. exact search_exact. Qed.
Print Assumptions C78_search_exact.
(** the specification never contradicts itself *)
Theorem C78_one_outcome : forall lc ses ln32 ln ws alpha solve m m' p t,
  built m m' -> tame m p -> short_stretches alpha p t -> forall ms ms',
  searched lc ses ln32 ln ws alpha solve m' p t ms -> searched lc ses ln32 ln ws alpha solve m' p t ms' -> ms = ms'.
Proof. exact one_search. Qed.
Print Assumptions C78_one_outcome.

(** "baab baca, baab": two parts; the first has two words and a pair *)
Definition exLong : str := [98; 97; 97; 98; 32; 98; 97; 99; 97; 44; 32; 98; 97; 97; 98]%N.
Lemma exLong_pieces : segmentation lower exLong [([98; 97; 97; 98], [32]); ([98; 97; 99; 97], [44; 32]); ([98; 97; 97; 98], [])]%N.
Proof.
  split; [done|]. split; [done|]. intros [|[|[|i]]] w b E; try done; injection E as <- <-; cbn;
    (split; [repeat constructor|]; split; [repeat constructor|]; split; [done|]; intros ?; try done; lia).
Qed.
Lemma exLong_short : short_stretches lower exParams exLong.
Proof.
  intros ps i n Hs L _. pose proof (segmentation_unique _ _ _ _ Hs exLong_pieces) as ->. cbn in L.
  destruct i as [|[|[|i]]], n as [|[|[|[|n]]]]; cbn [drop]; rewrite ?drop_nil; cbn [stretch length app]; lia.
Qed.
Example C78_ex :
  built exG (idx exG) /\ tame exG exParams /\ scorable (idx exG) /\ solver_sound (some_solver id) /\ solver_complete (some_solver id) /\
  short_stretches lower exParams exLong /\ 0 < p_max_seq exParams /\ 1 < p_max_ngram exParams /\
  rmap (map (fun x => (tm_text x, tm_begin x, tm_selected x)))
    (find_all_matches no_ln step_ln space (some_solver id) lower exLookup (idx exG) exLong exParams) =
  Ok [([98; 97; 97; 98]%N, 0, Some 0); ([98; 97; 99; 97]%N, 5, Some 0); ([98; 97; 97; 98]%N, 11, Some 0)].
Proof.
  split; [exact exG_built|]. split; [apply exG_tame; by vm_compute|]. split; [exact exG_scorable|].
  split; [apply some_solver_sound; by intros l|]. split; [apply some_solver_complete; by intros l|]. split; [exact exLong_short|].
  split; [vm_compute; lia|]. split; [vm_compute; lia|]. by vm_compute.
Qed.
(** its parts *)
Example C78_ex_parts : parts_from [([98; 97; 97; 98], [32]); ([98; 97; 99; 97], [44; 32]); ([98; 97; 97; 98], [])]%N 0 [(0, 2); (2, 1)].
Proof.
  apply (parts_next _ 0 1).
  - intros [|i] Hi; [|lia]. intros (w & b & [= <- <-] & [H|H] & _); vm_compute in H; lia.
  - eexists _, _. split; [done|]. split; [left; vm_compute; lia|done].
  - apply (parts_next _ 2 0); [intros; lia| |].
    + eexists _, _. split; [done|]. split; [by right|done].
    + apply parts_none. intros [|[|[|i]]] Hi; try lia. by intros (w & b & E & _).
Qed.
