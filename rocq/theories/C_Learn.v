(** Property C38: learning variants. *)
From Verif Require Import M_Base M_Utf8 M_Anahash M_Iter M_Float M_Types M_Model M_Values M_Search M_Text M_Rules M_Matches M_Learn.
From Verif Require Import S_Anahash S_Model S_Search S_Matches S_Learn P_Base P_Model P_Parse P_Learn P_Solver.
From Verif Require Import C_Anahash C_Model C_Search C_Find C_Matches.
From stdpp Require Import options.

Lemma filter_same {A} (P Q : A -> Prop) `{!forall x, Decision (P x)} `{!forall x, Decision (Q x)} (l : list A) :
  (forall x, x ∈ l -> P x <-> Q x) -> filter P l = filter Q l.
Proof.
  induction l as [|x l IH]; intros Hx; [done|]. rewrite !filter_cons. rewrite IH by (intros y Hy; apply Hx; by right).
  destruct (Hx x) as [H1 H2]; [by left|]. destruct (decide (P x)), (decide (Q x)); tauto.
Qed.
(** ** C38 *)
(** what is learned from which input *)
Theorem C38_pairs_strict : forall lookup search s l,
  find_variants_for_learning lookup search true s = Ok l <-> exists rs, lookup s = Ok rs /\ l = map (pair s) rs.
Proof.
  intros lookup search s l. unfold find_variants_for_learning. destruct (lookup s) as [rs|]; cbn [rbind].
  - split; [intros [= <-]; by exists rs|]. by intros (rs' & [= <-] & ->).
  - split; [done|]. by intros (rs & ? & _).
Qed.
Print Assumptions C38_pairs_strict.
Theorem C38_pairs : forall lookup search s ms l,
  search s = Ok ms -> find_variants_for_learning lookup search false s = Ok l ->
  forall t r, (t, r) ∈ l <-> exists x vs i, x ∈ ms /\ tm_text x = t /\ tm_variants x = Some vs /\ tm_selected x = Some i /\ vs !! i = Some r.
Proof.
  intros lookup search s ms l E. unfold find_variants_for_learning. rewrite E. cbn [rbind]. intros [= <-] t r. rewrite elem_of_list_omap. split.
  - intros (x & Hx & H). unfold learn_match in H. destruct (tm_variants x) as [vs|] eqn:Ev; [|done]. destruct (tm_selected x) as [i|] eqn:Es; [|done].
    destruct (vs !! i) as [r'|] eqn:Ei; [|done]. injection H as <- <-. by exists x, vs, i.
  - intros (x & vs & i & Hx & <- & Ev & Es & Ei). exists x. split; [done|]. unfold learn_match. by rewrite Ev, Es, Ei.
Qed.
Print Assumptions C38_pairs.

(** how the vocabulary changes *)
Theorem C38_learned : forall lookup search o o' m strict auto inputs m' n,
  lookups_inverse m -> no_self_links m ->
  (forall s l x, find_variants_for_learning lookup search strict s = Ok l -> x ∈ l -> vr_id x.2 < length (m_decoder m)) ->
  learn_variants lookup search o o' m strict auto inputs = Ok (m', n) ->
  exists all m1, Forall2 (fun s l => find_variants_for_learning lookup search strict s = Ok l) inputs all /\
    learned None (concat all) m m1 /\ n = length (different m1 (concat all)) /\
    (if auto then build o o' m1 = Ok m' else m' = m1).
Proof.
  intros lookup search o o' m strict auto inputs m' n W Ns Hr. unfold learn_variants. intros H.
  apply rbind_ok in H as (all & Ha & H). apply rmapM_inv in Ha. apply rbind_ok in H as ([[m1 c] p] & H1 & H).
  apply learn_run in H1 as [L ->]; [|done|done| |done].
  - exists all, m1. split; [done|]. split; [done|]. destruct auto.
    + apply rbind_ok in H as (m2 & Hb & [= <- <-]). done.
    + by injection H as <- <-.
  - apply Forall_forall. intros x Hx. apply elem_of_list_In, in_concat in Hx as (l & Hl%elem_of_list_In & Hx%elem_of_list_In).
    apply elem_of_list_lookup in Hl as [i Hl]. destruct (Forall2_lookup_r _ _ _ _ _ Ha Hl) as (s & _ & Hs). by eapply Hr.
Qed.
Print Assumptions C38_learned.

(** a new spelling is not searchable afterwards *)
Theorem C38_not_searchable : forall prev l m m1 m' o o' s, lookups_inverse m -> learned prev l m m1 -> s ∈ map fst l -> m_encoder m !! s = None ->
  alphabet_ok (m_alphabet m1) -> some_order o -> some_order o' -> build o o' m1 = Ok m' -> has m' s = Ok false.
Proof.
  intros prev l m m1 m' o o' s W L Hs Es A O O' B.
  destruct (C34_lookup o o' m1 m' s (le_inverse _ _ _ _ L) A O O' B) as ((b & Hb & Hiff) & _). rewrite Hb. f_equal.
  apply not_true_iff_false. intros Eb. apply Hiff in Eb as (id & v & [D F] & T).
  assert (m_decoder m !! id = None) as Dn.
  { destruct (m_decoder m !! id) as [v0|] eqn:D0; [|done]. destruct (le_old _ _ _ _ L id v0 D0) as (v1 & D1 & K). rewrite D in D1. injection D1 as <-.
    rewrite <- T, (el_text _ _ _ _ _ K) in Es. by rewrite (inverse_text _ _ _ W D0) in Es. }
  destruct (le_new _ _ _ _ L id v D Dn) as (_ & _ & v0 & Nw & K). rewrite (el_type _ _ _ _ _ K) in F.
  unfold new_item in Nw. apply rbind_ok in Nw as (a & _ & Nw). apply rbind_ok in Nw as (b' & _ & Nw). apply rbind_ok in Nw as (c & _ & Nw).
  injection Nw as <-. by vm_compute in F.
Qed.
Print Assumptions C38_not_searchable.

(** learning again from the same results counts the same number again *)
Theorem C38_again : forall lookup search o o' m strict inputs m1 n1 m2 n2,
  lookups_inverse m -> no_self_links m ->
  (forall s l x, find_variants_for_learning lookup search strict s = Ok l -> x ∈ l -> vr_id x.2 < length (m_decoder m)) ->
  learn_variants lookup search o o' m strict false inputs = Ok (m1, n1) ->
  learn_variants lookup search o o' m1 strict false inputs = Ok (m2, n2) -> n2 = n1.
Proof.
  intros lookup search o o' m strict inputs m1 n1 m2 n2 W Ns Hr H1 H2.
  destruct (C38_learned _ _ _ _ _ _ _ _ _ _ W Ns Hr H1) as (all & ? & F1 & L1 & -> & ->).
  assert (length (m_decoder m) <= length (m_decoder x)) as Hlen.
  { destruct (decide (length (m_decoder m) <= length (m_decoder x))) as [?|Hl]; [done|exfalso].
    assert (length (m_decoder x) < length (m_decoder m)) as Hl' by lia. apply lookup_lt_is_Some in Hl' as [v D].
    destruct (le_old _ _ _ _ L1 _ v D) as (v' & D' & _). apply lookup_lt_Some in D'. lia. }
  destruct (C38_learned lookup search o o' x strict false inputs m2 n2) as (all' & ? & F2 & L2 & -> & ->);
    [exact (le_inverse _ _ _ _ L1)|by eapply learned_no_self| |done|].
  { intros s l y Hs Hy. specialize (Hr s l y Hs Hy). lia. }
  assert (all' = all) as ->.
  { clear -F1 F2. revert all' F2. induction F1 as [|s l ss all Hs _ IH]; intros all' F2; inversion F2; subst; [done|]. f_equal; [congruence|by apply IH]. }
  unfold different. f_equal. apply filter_same.
  intros [s r] Hin. cbn [fst snd]. destruct (le_inputs _ _ _ _ L1 s) as [i Ei]; [apply elem_of_list_fmap; by exists (s, r)|].
  by rewrite Ei, (learned_encoder _ _ _ _ _ _ (le_inverse _ _ _ _ L1) L2 Ei).
Qed.
Print Assumptions C38_again.

(** "bbab" is not in the lexicon; it is learned as a variant of what is found for
    it.  Afterwards it is in the vocabulary but found no better than before, and
    learning again adds the same links once more. *)
Definition exUnknown : str := [98; 98; 97; 98]%N.
Definition learn_from (m : model) : res (model * nat) :=
  learn_variants (fun s => find_variants lower script 1000 id m s exParams) (fun _ => Ok []) id id m true true [exUnknown].
Definition learned_from (m : model) : model := match learn_from m with Ok (m', _) => m' | _ => m end.
Definition exLearned : model := learned_from (idx exG).
Lemma learned_from_spec m n : rmap snd (learn_from m) = Ok n -> learn_from m = Ok (learned_from m, n).
Proof. unfold learned_from. destruct (learn_from m) as [[m' n']|]; [|done]. cbn. by intros [= <-]. Qed.
Theorem C38_exact_match_refuted : exists n id, learn_from (idx exG) = Ok (exLearned, n) /\ 0 < n /\ m_encoder exLearned !! exUnknown = Some id /\
  find_variants lower script 1000 (fun x => x) exLearned exUnknown exParams = exLookup exUnknown /\
  rmap (existsb (fun r => feq (vr_dist r) f1)) (exLookup exUnknown) = Ok false.
Proof. exists 1, 6. split; [apply learned_from_spec; by vm_compute|]. split; [lia|]. split; [by vm_compute|]. split; by vm_compute. Qed.
Print Assumptions C38_exact_match_refuted.
Theorem C38_again_refuted : exists n m', learn_from (idx exG) = Ok (exLearned, n) /\ learn_from exLearned = Ok (m', n) /\ 0 < n /\
  (option_map (fun v => length (stored_references v)) (m_decoder m' !! 6) = Some 2) /\
  (option_map (fun v => length (stored_references v)) (m_decoder exLearned !! 6) = Some 1).
Proof.
  exists 1, (learned_from exLearned). split; [apply learned_from_spec; by vm_compute|]. split; [apply learned_from_spec; by vm_compute|].
  split; [lia|]. split; by vm_compute.
Qed.
Print Assumptions C38_again_refuted.
Lemma no_links_check m : forallb (fun v => match vv_variants v with None => true | _ => false end) (m_decoder m) = true -> no_self_links m.
Proof.
  intros H id v D. rewrite forallb_forall in H. specialize (H v (proj1 (elem_of_list_In _ _) (elem_of_list_lookup_2 _ _ _ D))).
  unfold stored_references. destruct (vv_variants v); [discriminate H|apply not_elem_of_nil].
Qed.
Lemma exG_run : run_calls (fun _ => None) (new_with_alphabet exA w1) exG_calls = Ok exG.
Proof.
  unfold exG, voc. assert (rmap (fun _ => tt) (run_calls (fun _ => None) (new_with_alphabet exA w1) exG_calls) = Ok tt) as H by (by vm_compute).
  by destruct (run_calls _ _ exG_calls).
Qed.
Lemma idxG_run : run_calls (fun _ => None) exG [CBuild id id] = Ok (idx exG).
Proof.
  unfold idx. change (run_calls (fun _ => None) exG [CBuild id id]) with (let* m := build id id exG in Ok m).
  assert (rmap (fun _ => tt) (build id id exG) = Ok tt) as H by (by vm_compute). by destruct (build id id exG).
Qed.
Example C38_ex : lookups_inverse (idx exG) /\ no_self_links (idx exG) /\
  rmap (forallb (fun r => vr_id r <? length (m_decoder (idx exG)))) (exLookup exUnknown) = Ok true /\
  m_encoder (idx exG) !! exUnknown = None /\ has exLearned exUnknown = Ok false.
Proof.
  split; [|split; [|split; [|by vm_compute]]].
  - destruct (ids_bijection (fun _ => None) exA w1 exG_calls [CBuild id id] exG (idx exG)) as [H _]; [repeat constructor; by intros l|exact exG_run|exact idxG_run|exact H].
  - apply no_links_check. by vm_compute.
  - by vm_compute.
Qed.
