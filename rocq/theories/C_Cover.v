(** Property C87: a search leaves no word out. *)
From Coq Require Import ZArith Reals SpecFloat Lra.
From Flocq Require Import Core BinarySingleNaN.
From Coq Require String Ascii.
From Verif Require Import M_Base M_Utf8 M_Anahash M_Float M_Types M_Model M_Values M_Search M_Text M_Rules M_Matches M_Options M_Python M_Cli.
From Verif Require Import S_Anahash S_Text S_Model S_Search S_Lookup S_Rules S_Matches S_SearchAll S_Float S_Cover.
From Verif Require Import P_Base P_Score P_Matches P_Sequence P_Text P_Solver P_SearchAll P_Cover P_CoverCase P_CoverLm.
From Verif Require P_Extra P_Inv.
From Verif Require Import C_Anahash C_Model C_Search C_Find C_Matches C_SearchAll.
From stdpp Require Import options.
Import String.StringSyntax Ascii.AsciiSyntax.
#[local] Arguments lit s%string_scope.

(** ** C87 *)
Section covered.
  Context (lc : N -> bool) (ses : str -> str -> list edit_instruction).
  Context (ln32 : f32 -> f32) (ln : f64 -> f64) (ws alpha : N -> bool) (solve : fst_graph -> nat -> list (list nat * f32)).
  Context (m m' : model) (p : search_parameters) (t : str).

  Theorem C87_covered :
    built m m' -> tame m p -> scorable m' -> m_confusables m = [] -> searchable m' -> costs_decide m' p ->
    solver_sound solve -> solver_complete solve -> solver_accurate solve -> cheapest_first solve -> log_accurate ln ->
    alpha 32%N = false -> (N.of_nat (length t) < 65281)%N -> short_stretches alpha p t -> few_words alpha t ->
    0 < p_max_seq p -> 0 < p_max_ngram p -> (N.of_nat (p_max_ngram p) <= 98)%N ->
    exists F, forall lookup, looks_up lc ses F m' p lookup ->
      exists ms, find_all_matches ln32 ln ws solve alpha lookup m' t p = Ok ms /\ covered alpha (p_unicodeoffsets p) t ms.
  Proof. exact (all_covered lc ses ln32 ln ws alpha solve m m' p t). Qed.
  (** if the solver does not give the cheapest path first: all but lone words *)
  Theorem C87_in_company :
    built m m' -> tame m p -> scorable m' -> m_confusables m = [] -> searchable m' -> costs_decide m' p ->
    solver_sound solve -> solver_complete solve -> solver_accurate solve -> log_accurate ln ->
    alpha 32%N = false -> (N.of_nat (length t) < 65281)%N -> short_stretches alpha p t -> few_words alpha t ->
    0 < p_max_seq p -> 0 < p_max_ngram p -> (N.of_nat (p_max_ngram p) <= 98)%N ->
    exists F, forall lookup, looks_up lc ses F m' p lookup ->
      exists ms, find_all_matches ln32 ln ws solve alpha lookup m' t p = Ok ms /\
        forall pre c post, t = pre ++ c :: post -> alpha c = true -> in_company alpha t pre ->
          exists x, x ∈ ms /\ tm_begin x <= place (p_unicodeoffsets p) pre < tm_end x.
  Proof. exact (company_covered lc ses ln32 ln ws alpha solve m m' p t). Qed.
End covered.
Print Assumptions C87_covered.
Print Assumptions C87_in_company.

(** "baab baca, baab" *)
Example C87_ex_pieces : few_words lower exLong.
Proof. intros ps H. pose proof (segmentation_unique _ _ _ _ H exLong_pieces) as ->. vm_compute. done. Qed.
Example C87_ex :
  built exG (idx exG) /\ tame exG exParams /\ scorable (idx exG) /\ m_confusables exG = [] /\ searchable (idx exG) /\ costs_decide (idx exG) exParams /\
  solver_sound (some_solver cheap_front) /\ solver_complete (some_solver cheap_front) /\ solver_accurate (some_solver cheap_front) /\
  cheapest_first (some_solver cheap_front) /\ log_accurate (near_log 53 1024) /\ lower 32%N = false /\ (N.of_nat (length exLong) < 65281)%N /\
  short_stretches lower exParams exLong /\ few_words lower exLong /\ 0 < p_max_seq exParams /\ 0 < p_max_ngram exParams /\ (N.of_nat (p_max_ngram exParams) <= 98)%N.
Proof.
  split; [exact exG_built|]. split; [apply exG_tame; by vm_compute|]. split; [exact exG_scorable|]. split; [by vm_compute|]. split.
  { eexists. split; [apply elem_of_list_lookup; exists 3; vm_compute; reflexivity|by vm_compute]. }
  split; [split; left; by vm_compute|]. split; [apply some_solver_sound, cheap_front_order|]. split; [apply some_solver_complete, cheap_front_order|].
  split; [exact cheap_solver_accurate|]. split; [exact cheap_solver_first|]. split; [exact near_log_accurate|]. split; [done|]. split; [done|].
  split; [exact exLong_short|]. split; [exact C87_ex_pieces|]. split; [vm_compute; lia|]. split; [vm_compute; lia|]. by vm_compute.
Qed.

(** its first letter is in a part with two words, the last one is in a part of its own *)
Example C87_ex_company : in_company lower exLong [] /\ ~ in_company lower exLong (lit "baab baca, baa").
Proof.
  split.
  - intros ps parts a k j w1 w2 b Hs Hp Hin Hj E N Epre. pose proof (segmentation_unique _ _ _ _ Hs exLong_pieces) as ->.
    pose proof (parts_from_det _ _ _ _ Hp C78_ex_parts) as ->. destruct j as [|j]; [|destruct w1; [destruct j|]; discriminate Epre].
    repeat (apply elem_of_cons in Hin as [[= -> ->]|Hin]; [lia|]). by apply elem_of_nil in Hin.
  - intros H. specialize (H _ _ 2 1 2 (lit "baa") (lit "b") [] exLong_pieces C78_ex_parts ltac:(right; left) ltac:(lia) eq_refl ltac:(done) eq_refl). lia.
Qed.

Definition rbind_or {A} (a : A) (r : res A) : A := match r with Ok x => x | _ => a end.
(** A language model, with the default parameters: the text "baab ccc".  "baab"
    is in the lexicon, "ccc" is unknown; nearly all texts start with "baab". *)
Definition exLmCalls : list call :=
  [vfile [lit "baab"]; CReadVocabulary [] [lit "<bos>	1000000"; lit "<bos> baab	999999"; lit "baab <eos>	1"] (par FMax 2 0)].
Definition exLm : model := voc exLmCalls.
Definition exLmText : str := lit "baab ccc".
Definition exDefault : search_parameters := tp_search search_parameters_default.
Definition exLmLookup (s : str) : res (list variant_result) := find_variants lower script 1000 (fun l => l) (idx exLm) s exDefault.
Definition exTiny : f32 := SFopp (f32div f32_1 (f32_of_N 1000000)).
#[local] Instance float_eq : EqDecision spec_float := ltac:(solve_decision).
(** a 32-bit logarithm that is computed at two places *)
Definition exLog32 (x : f32) : f32 :=
  if decide (x = f32div (f32_of_N 999999) (f32_of_N 1000000)) then exTiny else if decide (x = f32_1) then f0 else near_log 24 128 x.
Lemma exLog32_accurate : log32_accurate exLog32.
Proof.
  intros x D F P. unfold exLog32. destruct (decide _) as [E|_]; [|destruct (decide _) as [E|_]; [|by apply near_log32_accurate]].
  - split; [by vm_compute|]. split; [by vm_compute|]. rewrite E in P |- *.
    assert (real (f32div (f32_of_N 999999) (f32_of_N 1000000)) = IZR 16777199 / IZR 16777216)%R as E1 by reflexivity.
    assert (real exTiny = - (IZR 8796093 / IZR 8796093022208))%R as E2.
    { change exTiny with (S754_finite true 8796093 (-43)). change (IZR (-8796093) * / IZR 8796093022208 = - (IZR 8796093 / IZR 8796093022208))%R.
      change (-8796093)%Z with (- (8796093))%Z. rewrite opp_IZR. lra. }
    rewrite E1 in P |- *. rewrite E2. pose proof (log_ineq (IZR 16777199 / IZR 16777216) P) as Q.
    replace (/ (IZR 16777199 / IZR 16777216))%R with (IZR 16777216 / IZR 16777199)%R in Q by (field; lra). apply Rabs_le. lra.
  - split; [by vm_compute|]. split; [by vm_compute|]. rewrite E. rewrite (proj2 nought).
    assert (real f32_1 = 1%R) as -> by (change (IZR 8388608 * / IZR 8388608 = 1)%R; lra). rewrite ln_1. rewrite Rminus_0_r, Rabs_R0. lra.
Qed.
Lemma exLm_loads : loads (fun _ => None) (new_with_alphabet exA w1) exLmCalls exLm.
Proof.
  eapply loads_cons with (m1 := voc (take 1 exLmCalls)); [done|by vm_compute|]. eapply loads_cons with (m1 := exLm); [done|by vm_compute|constructor].
Qed.
Lemma exLm_built : built exLm (idx exLm).
Proof.
  apply (P_Extra.loaded_built _ _ _ _ _ (fun l => l) (fun l => l) _ exLm_loads exA_ok); [cbn; lia|by vm_compute|exact w1_ok|by vm_compute|by intros l|by intros l|by vm_compute].
Qed.
Lemma exLm_tame p : weight_single (p_freq_weight p) -> tame exLm p.
Proof.
  intros Hw. destruct (P_Inv.loaded _ _ _ _ _ exLm_loads) as (_ & HL & HF). split; [done| | |done| |done].
  - vm_compute. lia.
  - assert (m_confusables exLm = []) as -> by (by vm_compute). constructor.
  - apply links_check. by vm_compute.
Qed.
Lemma exLm_scorable : scorable (idx exLm).
Proof.
  split.
  - intros id v H. assert (forallb (fun v => vv_tokencount v =? S (count_spaces (vv_text v))) (m_decoder (idx exLm)) = true) as E by (by vm_compute).
    rewrite forallb_forall in E. apply Nat.eqb_eq, E, elem_of_list_In. by eapply elem_of_list_lookup_2.
  - intros t id H. assert (map_fold (fun _ id b => (id <? length (m_decoder (idx exLm))) && b) true (m_encoder (idx exLm)) = true) as E by (by vm_compute).
    revert E H. generalize (m_encoder (idx exLm)). intros e. revert t id.
    apply (map_fold_ind (fun b e => forall t id, b = true -> e !! t = Some id -> id < length (m_decoder (idx exLm)))).
    + intros t id _ H. by rewrite lookup_empty in H.
    + intros i x e' b Hi IH t id Hb. rewrite lookup_insert_Some. intros [[<- <-]|[_ H]]; apply andb_true_iff in Hb as [H1 H2]; [by apply Nat.ltb_lt|by eapply IH].
  - by vm_compute.
Qed.
Definition exLmBounds : list tmatch := rbind_or [] (find_boundaries lower exLmText).
Definition exLmBatch : list tmatch := rbind_or [] (gather_batch exLmLookup exLmText 3 exLmBounds 0 8).
Definition exLmArcs : list output_symbol * list arc := rbind_or ([], []) (all_arcs (p_freq_weight exDefault) exLmBounds 1 0 exLmBatch).
Definition exLmSequences : list sequence :=
  rbind_or [] (rmapM (path_sequence exLog32 space (idx exLm) exDefault exLmBounds (dummy_symbol :: exLmArcs.1))
                 (some_solver cheap_front (Fst 3 [2] (exLmArcs.2 ++ failsafe_arcs exLmBounds)) 250)).
Definition exLmBests : bests := Bests (S754_finite false 4722366470946816 (-73)) (S754_finite false 8388608 (-22)) f1.
Definition exNth (i : nat) : sequence := nth i exLmSequences (Sequence [] f0 f0 f0 f0 []).
Lemma exLm_score ln s x y : fdiv (b_perplexity exLmBests) (sq_perplexity s) = x -> fdiv (to_f64 (b_cost exLmBests)) (to_f64 (sq_cost s)) = y ->
  fdiv (sq_context s) (b_context exLmBests) = f1 ->
  sequence_score ln (idx exLm) exDefault exLmBests s = weighted_mean f32_1 (S754_finite false 12582912 (-22)) f32_1 (ln x) (ln y) (ln f1).
Proof.
  intros E1 E2 E3. unfold sequence_score. rewrite E1, E2, E3.
  assert (use_lm (idx exLm) exDefault = true) as -> by (by vm_compute). assert (m_have_lm (idx exLm) = true) as -> by (by vm_compute).
  change (feq (p_lm_weight exDefault) f0) with false. cbn [negb orb andb]. reflexivity.
Qed.
Lemma low_score ln m e m2 e2 : log_accurate ln -> double (S754_finite false m e) -> double (S754_finite false m2 e2) ->
  (4503599627370496 <= Zpos m <= 9007199254740992)%Z -> e = (-77)%Z -> (4503599627370496 <= Zpos m2 <= 9007199254740992)%Z -> (-59 <= e2 <= -53)%Z ->
  exists r, dv (weighted_mean f32_1 (S754_finite false 12582912 (-22)) f32_1 (ln (S754_finite false m e)) (ln (S754_finite false m2 e2)) (ln f1)) r /\
    (IZR (-200) / 16 <= r <= IZR (-48) / 16)%R.
Proof.
  intros Hl D1 D2 B1 -> B2 Be. destruct (log_between ln m _ _ _ Hl D1 (size_between m _ B1)) as (r1 & V1 & R1).
  destruct (log_between ln m2 _ _ _ Hl D2 (size_between m2 _ B2)) as (r2 & V2 & R2). destruct (log_one ln Hl) as (r3 & V3 & R3).
  pose proof ln2_near as L2. rewrite plus_IZR in R1, R2. change (IZR (53 + -77)) with (IZR (-24)) in R1.
  rewrite !plus_IZR in R2. destruct Be as [Be1%IZR_le Be2%IZR_le].
  apply (mean_near _ _ _ r1 r2 r3 (-304) (-243) (-256) 1 (-1) 1); try done.
  - lra.
  - split; nra.
  - lra.
  - repeat constructor; lia.
Qed.
Lemma high_score ln : log_accurate ln ->
  exists r, dv (weighted_mean f32_1 (S754_finite false 12582912 (-22)) f32_1 (ln f1) (ln (S754_finite false 5707532201023995 (-58))) (ln f1)) r /\
    (IZR (-45) / 16 <= r <= IZR 1 / 16)%R.
Proof.
  intros Hl. destruct (log_between ln 5707532201023995 (-58) _ _ Hl ltac:(by vm_compute) (size_between 5707532201023995 (-58) ltac:(lia))) as (r2 & V2 & R2).
  destruct (log_one ln Hl) as (r3 & V3 & R3). pose proof ln2_near as L2. change (52 + -58)%Z with (-6)%Z in R2. change (53 + -58)%Z with (-5)%Z in R2.
  apply (mean_near _ _ _ r3 r2 r3 (-1) 1 (-219) 1 (-1) 1); try done.
  - lra.
  - lra.
  - lra.
  - repeat constructor; lia.
Qed.
Theorem C87_lm_refuted : exists ln32 solve m m' p t lookup,
  log32_accurate ln32 /\ built m m' /\ tame m p /\ scorable m' /\ m_confusables m = [] /\ searchable m' /\
  solver_sound solve /\ solver_complete solve /\ solver_accurate solve /\ cheapest_first solve /\
  p = exDefault /\ (N.of_nat (length t) < 65281)%N /\ looks_up lower script 1000 m' p lookup /\
  forall ln, log_accurate ln -> exists ms, find_all_matches ln32 ln space solve lower lookup m' t p = Ok ms /\ ms <> [] /\ ~ covered lower (p_unicodeoffsets p) t ms.
Proof.
  exists exLog32, (some_solver cheap_front), exLm, (idx exLm), exDefault, exLmText, exLmLookup.
  split; [exact exLog32_accurate|]. split; [exact exLm_built|]. split; [apply exLm_tame; by vm_compute|]. split; [exact exLm_scorable|]. split; [by vm_compute|]. split.
  { eexists. split; [apply elem_of_list_lookup; exists 3; vm_compute; reflexivity|by vm_compute]. }
  split; [apply some_solver_sound, cheap_front_order|]. split; [apply some_solver_complete, cheap_front_order|].
  split; [exact cheap_solver_accurate|]. split; [exact cheap_solver_first|]. split; [done|]. split; [done|]. split.
  { intros s. exists 1000, (fun l => l). split; [done|]. split; [by intros l|done]. }
  intros ln Hl. exists (rbind_or [] (selected_matches exLmBatch (exNth 1))).
  assert (most_likely_sequence exLog32 ln space (some_solver cheap_front) (idx exLm) exDefault exLmBatch exLmBounds 8 = selected_matches exLmBatch (exNth 1)) as E.
  { apply (mls_choice _ _ _ _ _ _ _ _ _ 2 [] (nth 0 exLmArcs.1 dummy_symbol) (drop 1 exLmArcs.1) exLmArcs.2 [exNth 0; exNth 1; exNth 2; exNth 3]);
      [by vm_compute|by vm_compute|by vm_compute|].
    assert (foldl (update_bests (use_lm (idx exLm) exDefault)) (initial_bests (length exLmBounds)) [exNth 0; exNth 1; exNth 2; exNth 3] = exLmBests) as -> by (by vm_compute).
    destruct (high_score ln Hl) as (r & V & R).
    destruct (low_score ln 8203590119219625 (-77) 6004799503160661 (-53) Hl) as (r0 & V0 & R0); [by vm_compute|by vm_compute|lia|done|lia|lia|].
    destruct (low_score ln 5469060457004854 (-77) 5651576002974740 (-58) Hl) as (r2 & V2 & R2); [by vm_compute|by vm_compute|lia|done|lia|lia|].
    destruct (low_score ln 5469060457004854 (-77) 5764607523034235 (-59) Hl) as (r3 & V3 & R3); [by vm_compute|by vm_compute|lia|done|lia|lia|].
    apply choose_second;
      rewrite (exLm_score ln (exNth 1) f1 (S754_finite false 5707532201023995 (-58))) by (by vm_compute).
    - rewrite (exLm_score ln (exNth 0) (S754_finite false 8203590119219625 (-77)) (S754_finite false 6004799503160661 (-53))) by (by vm_compute).
      apply (dv_flt _ _ _ _ V0 V). lra.
    - rewrite (exLm_score ln (exNth 2) (S754_finite false 5469060457004854 (-77)) (S754_finite false 5651576002974740 (-58))) by (by vm_compute).
      apply not_true_iff_false. rewrite (dv_flt _ _ _ _ V V2). lra.
    - rewrite (exLm_score ln (exNth 3) (S754_finite false 5469060457004854 (-77)) (S754_finite false 5764607523034235 (-59))) by (by vm_compute).
      apply not_true_iff_false. rewrite (dv_flt _ _ _ _ V V3). lra. }
  split; [|split].
  - unfold find_all_matches. rewrite bool_decide_eq_false_2 by done. rewrite bool_decide_eq_false_2 by (intros N; by vm_compute in N).
    assert (find_boundaries lower exLmText = Ok exLmBounds) as -> by (by vm_compute). cbn [rbind].
    change (p_unicodeoffsets exDefault) with false.
    assert (zip (classify_boundaries exLmBounds) exLmBounds = [(Normal, nth 0 exLmBounds (TMatch [] 0 0 None None [] [] 0)); (Hard, nth 1 exLmBounds (TMatch [] 0 0 None None [] [] 0))]) as -> by (by vm_compute).
    assert (tm_begin (nth 1 exLmBounds (TMatch [] 0 0 None None [] [] 0)) = 8) as Eb by (by vm_compute).
    cbn [batches andb]. rewrite Eb. change (8 =? 0) with false. cbn [negb].
    assert (slice exLmText 0 8 = Ok exLmText) as -> by (by vm_compute). cbn [rbind].
    change (take (2 - 0) (drop 0 exLmBounds)) with exLmBounds. change (p_max_ngram exDefault) with 3.
    assert (gather_batch exLmLookup exLmText 3 exLmBounds 0 8 = Ok exLmBatch) as -> by (by vm_compute). cbn [rbind].
    unfold consolidate. change (1 <? p_max_ngram exDefault) with true. cbn [orb]. rewrite E.
    assert (selected_matches exLmBatch (exNth 1) = Ok (rbind_or [] (selected_matches exLmBatch (exNth 1)))) as -> by (by vm_compute).
    cbn [rbind rbind_or]. by rewrite app_nil_r.
  - by vm_compute.
  - intros H. destruct (H (lit "baab ") 99%N (lit "cc") eq_refl eq_refl) as (x & Hx & B).
    change (place (p_unicodeoffsets exDefault) (lit "baab ")) with 5 in B.
    assert (map tm_end (rbind_or [] (selected_matches exLmBatch (exNth 1))) = [4]) as Ee by (by vm_compute).
    apply (elem_of_list_fmap_1 tm_end) in Hx. change (tm_end <$> ?l) with (map tm_end l) in Hx. rewrite Ee in Hx. apply elem_of_list_singleton in Hx. lia.
Qed.
Print Assumptions C87_lm_refuted.

Definition exAloneBounds : list tmatch := rbind_or [] (find_boundaries lower exWord).
Definition exAloneBatch : list tmatch := rbind_or [] (gather_batch exLookup exWord 3 exAloneBounds 0 4).
Definition exAloneArcs : list output_symbol * list arc := rbind_or ([], []) (all_arcs (p_freq_weight exParams) exAloneBounds 1 0 exAloneBatch).
Definition exAloneFinals : list nat := final_states exAloneBounds 4.
Definition worst_first (g : fst_graph) (n : nat) : list (list nat * f32) := reverse (some_solver cheap_front g n).
Definition exAloneSequences : list sequence :=
  rbind_or [] (rmapM (path_sequence (fun x => x) space (idx exG) exParams exAloneBounds (dummy_symbol :: exAloneArcs.1))
                 (worst_first (Fst 2 exAloneFinals (exAloneArcs.2 ++ failsafe_arcs exAloneBounds)) 10)).
(** If the solver does not give the cheapest path first, a text that is one
    known word may be found to have no words. *)
Theorem C87_alone_refuted : exists solve m m' p t lookup,
  built m m' /\ tame m p /\ scorable m' /\ m_confusables m = [] /\ searchable m' /\ costs_decide m' p /\
  solver_sound solve /\ solver_complete solve /\ solver_accurate solve /\
  (N.of_nat (length t) < 65281)%N /\ looks_up lower script 1000 m' p lookup /\ t = exWord /\
  forall ln32 ln ws, find_all_matches ln32 ln ws solve lower lookup m' t p = Ok [].
Proof.
  exists worst_first, exG, (idx exG), exParams, exWord, exLookup.
  split; [exact exG_built|]. split; [apply exG_tame; by vm_compute|]. split; [exact exG_scorable|]. split; [by vm_compute|]. split.
  { eexists. split; [apply elem_of_list_lookup; exists 3; vm_compute; reflexivity|by vm_compute]. }
  split; [split; left; by vm_compute|]. split.
  { intros g n labels w H. apply (some_solver_sound _ cheap_front_order g n labels w). by apply elem_of_reverse. }
  split.
  { intros g n l t Hn Hg R Ht E. apply (some_solver_complete _ cheap_front_order g n l t Hn Hg R Ht).
    unfold worst_first in E. apply (f_equal reverse) in E. by rewrite reverse_involutive in E. }
  split.
  { destruct cheap_solver_accurate as [A1 A2]. split.
    - intros g n labels w Ho H. apply (A1 g n labels w Ho). by apply elem_of_reverse.
    - intros g n l t Ho Hn R Ht. destruct (A2 g n l t Ho Hn R Ht) as (labels & w & H & L). exists labels, w. unfold worst_first. rewrite elem_of_reverse. done. }
  split; [done|]. split.
  { intros s. exists 1000, Datatypes.id. split; [done|]. split; [by intros l|done]. }
  split; [done|]. intros ln32 ln ws. pose (q i := nth i exAloneSequences (Sequence [] f0 f0 f0 f0 [])).
  assert (most_likely_sequence ln32 ln ws worst_first (idx exG) exParams exAloneBatch exAloneBounds 4 = selected_matches exAloneBatch (q 0)) as E.
  { apply (mls_choice _ _ _ _ _ _ _ _ _ 1 [] (nth 0 exAloneArcs.1 dummy_symbol) (drop 1 exAloneArcs.1) exAloneArcs.2 [q 0; q 1; q 2; q 3]);
      [by vm_compute|by vm_compute|by vm_compute|].
    apply choose_same with (v := ln f0). repeat constructor; by vm_compute. }
  unfold find_all_matches. rewrite bool_decide_eq_false_2 by done. rewrite bool_decide_eq_false_2 by (intros N; by vm_compute in N).
  assert (find_boundaries lower exWord = Ok exAloneBounds) as -> by (by vm_compute). cbn [rbind].
  change (p_unicodeoffsets exParams) with false.
  assert (zip (classify_boundaries exAloneBounds) exAloneBounds = [(Hard, nth 0 exAloneBounds (TMatch [] 0 0 None None [] [] 0))]) as -> by (by vm_compute).
  assert (tm_begin (nth 0 exAloneBounds (TMatch [] 0 0 None None [] [] 0)) = 4) as Eb by (by vm_compute).
  cbn [batches andb]. rewrite Eb. change (4 =? 0) with false. cbn [negb].
  assert (slice exWord 0 4 = Ok exWord) as -> by (by vm_compute). cbn [rbind].
  change (take (1 - 0) (drop 0 exAloneBounds)) with exAloneBounds. change (p_max_ngram exParams) with 3.
  assert (gather_batch exLookup exWord 3 exAloneBounds 0 4 = Ok exAloneBatch) as -> by (by vm_compute). cbn [rbind].
  unfold consolidate. change (1 <? p_max_ngram exParams) with true. cbn [orb]. rewrite E. by vm_compute.
Qed.
Print Assumptions C87_alone_refuted.
