(** Property C75: what a lookup returns, exactly. *)
From Verif Require Import M_Base M_Anahash M_Iter M_Distance M_Float M_Types M_Model M_Confusable M_Search.
From Verif Require Import S_Anahash S_Iter S_Distance S_Model S_Search S_Lookup P_LookupAll.
From Verif Require P_Results.
From Verif Require Import C_Anahash C_Model C_Search C_Find.
From stdpp Require Import options.

(** ** C75 *)
Theorem C75_lookup_exact lc ses m m' q ks p l : built m m' -> query m q ks -> length ks <= 255 -> tame m p ->
  finds lc ses m' q p l <-> looked_up lc ses m q ks p l.
Proof. exact (lookup_exact lc ses m m' q ks p l). Qed.
Print Assumptions C75_lookup_exact.
(** the specification leaves nothing open and never contradicts itself *)
Theorem C75_one_outcome lc ses m m' q ks p : built m m' -> query m q ks -> length ks <= 255 -> tame m p ->
  exists l, looked_up lc ses m q ks p l /\ forall l', looked_up lc ses m q ks p l' -> l' = l.
Proof. exact (one_outcome lc ses m m' q ks p). Qed.
Print Assumptions C75_one_outcome.
(** one of the four results comes by a link, two tie *)
Example C75_ex : built exF (idx exF) /\ query exF exQ [1; 0; 0; 0] /\ tame exF (sp (upto 3) (upto 3) 0 f0 f0 f0) /\
  rmap (map (fun r => (vr_id r, vr_via r))) (find_variants lower script 1000 Datatypes.id (idx exF) exQ (sp (upto 3) (upto 3) 0 f0 f0 f0)) =
  Ok [(3, None); (5, None); (4, None); (3, Some 4)].
Proof. split; [exact exF_built|]. split; [exact exF_query|]. split; [apply exF_tame; by vm_compute|]. exact exF_result. Qed.
(** the border between equal scores: one was asked for, two are listed *)
Example C75_crops : crops 1 f0 [VariantResult 7 f1 f1 None; VariantResult 8 f1 f1 None; VariantResult 9 f1 f1 None]
  [VariantResult 7 f1 f1 None; VariantResult 8 f1 f1 None].
Proof.
  right. eexists _, _. split; [lia|]. split; [done|]. split; [done|]. right. split; [by vm_compute|]. exists 3, 1.
  split; [|split; [|left; split; [lia|done]]].
  - split; [done|]. split; [|done]. intros [|[|[|i]]] r Hi Hr; [by injection Hr as <-..|lia].
  - split; [cbn; lia|]. split.
    + intros [|i] r Hi Hr [? _]; lia.
    + intros r [= <-]. split; [lia|by vm_compute].
Qed.
