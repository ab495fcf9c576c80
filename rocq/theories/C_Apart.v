(** Property C27, with links between entries: which results stand next to each
    other; and C73, when a match has no variants. *)
From Coq Require Import Lia Reals Lra Sorted.
From Verif Require Import M_Base M_Anahash M_Iter M_Distance M_Float M_Types M_Model M_Confusable M_Search M_Text.
From Verif Require Import S_Anahash S_Iter S_Distance S_Model S_Search.
From Verif Require Import P_Base P_Anahash P_Model P_Float P_Score P_Rank P_Find P_Lookup P_Results.
From Verif Require C_Find.
From stdpp Require Import options.
#[local] Open Scope nat_scope.

(** no two results in a row are the same entry *)
Definition apart (l : list variant_result) : Prop :=
  forall i r r', l !! i = Some r -> l !! S i = Some r' -> vr_id r <> vr_id r'.

Lemma apart_take n l : apart l -> apart (take n l).
Proof. intros H i r r' (H1 & _)%lookup_take_Some (H2 & _)%lookup_take_Some. by eapply H. Qed.
Lemma apart_nodup l : NoDup (map vr_id l) -> apart l.
Proof.
  intros H i r r' H1 H2 E. assert (i = S i); [|lia]. eapply (NoDup_lookup (map vr_id l)); [done| |].
  - change (map vr_id l) with (vr_id <$> l). by rewrite list_lookup_fmap, H1.
  - change (map vr_id l) with (vr_id <$> l). rewrite list_lookup_fmap, H2. cbn. by rewrite E.
Qed.
Lemma apart_cons x l : (forall y, head l = Some y -> vr_id x <> vr_id y) -> apart l -> apart (x :: l).
Proof.
  intros Hx Hl [|i] r r' H1 H2; cbn in *; [|by eapply Hl].
  injection H1 as <-. destruct l; cbn in *; [done|]. injection H2 as <-. by apply Hx.
Qed.
Lemma dedup_from_apart l : forall k, apart (dedup_from k l) /\ forall y, head (dedup_from k l) = Some y -> vr_id y <> k.
Proof.
  induction l as [|x l IH]; intros k; cbn; [done|]. destruct (vr_id x =? k)%nat eqn:E; [apply IH|]. apply Nat.eqb_neq in E. split.
  - apply apart_cons; [|apply IH]. intros y Hy. apply not_eq_sym. by apply (IH (vr_id x)).
  - intros y [= <-]. done.
Qed.
Lemma dedup_apart l : apart (dedup l).
Proof.
  destruct l as [|x l]; cbn; [done|]. apply apart_cons; [|apply dedup_from_apart].
  intros y Hy. apply not_eq_sym. by apply (dedup_from_apart l (vr_id x)).
Qed.

(** ** C27: unless confusables are weighed after pruning, which sorts once
    more, an entry that is found twice is not found twice in a row *)
Theorem C27_neighbours lc ses m m' q ks p l :
  built m m' -> query m q ks -> m_confusables m = [] \/ m_confusables_before_pruning m = true ->
  finds lc ses m' q p l ->
  forall i r r', l !! i = Some r -> l !! S i = Some r' -> vr_id r <> vr_id r'.
Proof.
  intros B Q HC H. change (apart l). destruct (instances lc ses m m' q ks B Q p) as (inst & Hf & Hnd & _).
  apply (Hf p) in H; [|done]. apply score_and_rank_inv in H as ->.
  destruct (expandable m' inst) eqn:Ex.
  - assert (late m' = false) as EL.
    { unfold late, with_conf. destruct (confusables_same lc ses m m' q ks B Q) as [-> ->].
      destruct HC as [-> | ->]; [done|]. apply andb_false_r. }
    match goal with |- apart (apply_cutoff ?c ?f ?h) => destruct (apply_cutoff_spec c f h) as (n & -> & _) end.
    apply apart_take. unfold listH. rewrite EL. unfold listG. apply apart_take. unfold listF. rewrite Ex. apply dedup_apart.
  - apply apart_nodup. eapply submseteq_nodup; [by apply ids_plain|]. by apply listA_ids.
Qed.
Print Assumptions C27_neighbours.
(** entry 3 is found itself and through entry 4, with others between *)
Example C27_neighbours_ex : m_confusables C_Find.exF = [] /\
  rmap (map vr_id) (find_variants C_Find.lower C_Find.script 1000 Datatypes.id (C_Find.idx C_Find.exF) C_Find.exQ
    (C_Find.sp (C_Find.upto 3) (C_Find.upto 3) 0 f0 f0 f0)) = Ok [3; 5; 4; 3].
Proof. split; by vm_compute. Qed.

(** ** C73: a match counts as empty when it was not looked up or nothing was found *)
Theorem C73_match_empty x : tm_is_empty x = true <-> forall r vs, tm_variants x = Some vs -> r ∉ vs.
Proof.
  unfold tm_is_empty. destruct (tm_variants x) as [[|r vs]|]; split; try done.
  - intros _ r vs [= <-]. by apply not_elem_of_nil.
  - intros H. exfalso. apply (H r (r :: vs)); [done|left].
Qed.
Print Assumptions C73_match_empty.
Example C73_match_empty_ex : tm_is_empty (new_empty [97%N] 0 1) = true /\ tm_is_empty (set_variants (new_empty [97%N] 0 1) (Some [])) = true /\
  tm_is_empty (set_variants (new_empty [97%N] 0 1) (Some [VariantResult 3 f1 f1 None])) = false.
Proof. done. Qed.
