(** Properties C17-C29, C37, C39, C58 and C59: looking up variants. *)
From Coq Require Import Lia Lra Reals.
From Flocq Require Import Core.
From Verif Require Import M_Base M_Anahash M_Iter M_Distance M_Float M_Types M_Model M_Confusable M_Search.
From Verif Require Import S_Anahash S_Iter S_Distance S_Model S_Search S_Float P_Anahash P_Score P_Model P_Rank P_Limit P_Inv P_Extra P_Accuracy.
From Verif Require P_Results.
From Verif Require Import C_Anahash C_Model C_Search.
From stdpp Require Import options.
#[local] Open Scope nat_scope.
#[local] Notation id := Datatypes.id.

(** ** A vocabulary to look things up in *)
Definition sp (anagram edit : threshold) (max_matches : nat) (thr cut : f64) (fw : f32) : search_parameters :=
  SearchParameters anagram edit max_matches thr cut Exhaustive 3 10 f32_1 f32_1 f32_1 fw false.
Definition upto (n : nat) : threshold := TRatioWithLimit f32_1 n.
Definition lower (c : N) : bool := (97 <=? c)%N.
Definition fhalf : f64 := fdiv f1 f2.
Definition half32 : f32 := S754_finite false 8388608 (-24).
(** edit scripts for words that differ in one place: common prefix, what is
    deleted, what is inserted, common suffix *)
Fixpoint strip (a b : str) : str * str * str :=
  match a, b with
  | x :: a', y :: b' => if (x =? y)%N then let '(p, r, s) := strip a' b' in (x :: p, r, s) else ([], a, b)
  | _, _ => ([], a, b)
  end.
Definition script (a b : str) : list edit_instruction :=
  let '(p, r, s) := strip a b in
  let '(e, r', s') := strip (reverse r) (reverse s) in
  (if p then [] else [Identity p]) ++ (if r' then [] else [Deletion (reverse r')]) ++
  (if s' then [] else [Insertion (reverse s')]) ++ (if e then [] else [Identity (reverse e)]).
Definition the (r : res model) : model := match r with Ok m => m | Panic _ => new_with_alphabet [] w1 end.
(** vocabularies from the lines of a file and links, not yet built *)
Definition voc (calls : list call) : model := the (run_calls (fun _ => None) (new_with_alphabet exA w1) calls).
Definition vfile (lines : list str) : call := CReadVocabulary [] lines (par FMax 1 0).
Definition idx (m : model) : model := the (build id id m).

(** "baaa" (frequency 9), "baac", "baab"; "baac" is a variant of "baaa" with score 1/2 *)
Definition exF : model := voc [vfile [[98; 97; 97; 97; 9; 57]; [98; 97; 97; 99]; [98; 97; 97; 98]]%N; CLink 3 4 fhalf].
Definition exQ : str := [98; 97; 97; 97]%N.

Lemma links_check m :
  forallb (fun v => forallb (fun rs => valid_binary 53 1024 rs.2 && fle f0 rs.2 && fle rs.2 f1) (stored_references v)) (m_decoder m) = true ->
  forall id v r s, m_decoder m !! id = Some v -> (r, s) ∈ stored_references v -> unit_score s.
Proof.
  intros H id v r s D Hin. rewrite forallb_forall in H. specialize (H v). rewrite forallb_forall in H.
  assert (In v (m_decoder m)) as Hv by (apply elem_of_list_In; by eapply elem_of_list_lookup_2).
  specialize (H Hv (r, s) (proj1 (elem_of_list_In _ _) Hin)). cbn [snd] in H.
  apply andb_prop in H as [H H3]. by apply andb_prop in H as [H1 H2].
Qed.
Lemma exF_loads : loads (fun _ => None) (new_with_alphabet exA w1)
  [vfile [[98; 97; 97; 97; 9; 57]; [98; 97; 97; 99]; [98; 97; 97; 98]]%N; CLink 3 4 fhalf] exF.
Proof.
  eapply loads_cons with (m1 := voc [vfile [[98; 97; 97; 97; 9; 57]; [98; 97; 97; 99]; [98; 97; 97; 98]]%N]); [done|by vm_compute|].
  eapply loads_cons with (m1 := exF); [|by vm_compute|constructor].
  assert (length (m_decoder (voc [vfile [[98; 97; 97; 97; 9; 57]; [98; 97; 97; 99]; [98; 97; 97; 98]]%N])) = 6) as L by (by vm_compute).
  cbn. rewrite L. lia.
Qed.
Lemma w1_ok : weights_ok w1.
Proof. split; [|by vm_compute]. by repeat (constructor; [by vm_compute|]). Qed.
Example exF_built : built exF (idx exF).
Proof.
  apply (loaded_built _ _ _ _ _ id id _ exF_loads exA_ok); [cbn; lia|by vm_compute|exact w1_ok|by vm_compute|by intros l|by intros l|by vm_compute].
Qed.
Lemma exQ_reads : reads exA exQ [1; 0; 0; 0].
Proof. apply reads_check; [exact exA_ok|by vm_compute|]. repeat constructor; cbn; lia. Qed.
Lemma exF_alphabet : m_alphabet exF = exA. Proof. by vm_compute. Qed.
Example exF_query : query exF exQ [1; 0; 0; 0].
Proof. split; [rewrite exF_alphabet; exact exQ_reads|done|by vm_compute]. Qed.
Example exF_tame p : weight_single (p_freq_weight p) -> tame exF p.
Proof.
  intros Hw. destruct (loaded _ _ _ _ _ exF_loads) as (_ & HL & HF). split; [done| | |done| |done].
  - vm_compute. lia.
  - assert (m_confusables exF = []) as -> by (by vm_compute). constructor.
  - apply links_check. by vm_compute.
Qed.
Example exF_finds : exists l, finds lower script (idx exF) exQ (sp (upto 3) (upto 3) 0 f0 f0 f0) l.
Proof. apply (P_Results.total lower script exF (idx exF) exQ _ exF_built exF_query), exF_tame. by vm_compute. Qed.
Example exF_result :
  rmap (map (fun r => (vr_id r, vr_via r))) (find_variants lower script 1000 id (idx exF) exQ (sp (upto 3) (upto 3) 0 f0 f0 f0)) =
  Ok [(3, None); (5, None); (4, None); (3, Some 4)].
Proof. by vm_compute. Qed.

(** the same without the link *)
Definition exG_calls : list call := [vfile [[98; 97; 97; 97; 9; 57]; [98; 97; 97; 99]; [98; 97; 97; 98]]%N].
Definition exG : model := voc exG_calls.
Lemma exG_loads : loads (fun _ => None) (new_with_alphabet exA w1) exG_calls exG.
Proof. eapply loads_cons with (m1 := exG); [done|by vm_compute|constructor]. Qed.
Example exG_built : built exG (idx exG).
Proof.
  apply (loaded_built _ _ _ _ _ id id _ exG_loads exA_ok); [cbn; lia|by vm_compute|exact w1_ok|by vm_compute|by intros l|by intros l|by vm_compute].
Qed.
Lemma exG_alphabet : m_alphabet exG = exA. Proof. by vm_compute. Qed.
Example exG_query : query exG exQ [1; 0; 0; 0].
Proof. split; [rewrite exG_alphabet; exact exQ_reads|done|by vm_compute]. Qed.
Example exG_no_links : no_links exG.
Proof.
  assert (forallb (fun v => match vv_variants v with None => true | _ => false end) (m_decoder exG) = true) as H by (by vm_compute).
  intros id v D. rewrite forallb_forall in H. specialize (H v).
  destruct (vv_variants v); [|done]. assert (In v (m_decoder exG)) as Hv by (apply elem_of_list_In; by eapply elem_of_list_lookup_2). by specialize (H Hv).
Qed.
Example exG_tame p : weight_single (p_freq_weight p) -> tame exG p.
Proof.
  intros Hw. destruct (loaded _ _ _ _ _ exG_loads) as (_ & HL & HF). split; [done| | |done| |done].
  - vm_compute. lia.
  - assert (m_confusables exG = []) as -> by (by vm_compute). constructor.
  - apply links_check. by vm_compute.
Qed.
Example exG_short id v ks' : entry_reading exG id v ks' -> length ks' < 256.
Proof.
  intros [[D I] Hr]. destruct (loaded _ _ _ _ _ exG_loads) as (HN & _).
  assert (alphabet_ok (m_alphabet exG)) as HA by (rewrite exG_alphabet; exact exA_ok).
  pose proof (HN id v (conj D I)) as E. rewrite (normalize_reads _ _ _ HA Hr) in E. injection E as E.
  apply (f_equal length) in E. rewrite map_length in E. rewrite E.
  assert (forallb (fun v => length (vv_norm v) <? 256) (m_decoder exG) = true) as H by (by vm_compute).
  rewrite forallb_forall in H. apply Nat.ltb_lt, H, elem_of_list_In. by eapply elem_of_list_lookup_2.
Qed.

(** ** C59: vocabularies made by sensible calls meet the assumptions below *)
Theorem C59_loaded_vocabularies pf A w cs m :
  loads pf (new_with_alphabet A w) cs m -> normalised m /\ links_inside m /\ freq_u32 m.
Proof. exact (loaded pf A w cs m). Qed.
Print Assumptions C59_loaded_vocabularies.
Example C59_ex : exists pf cs, loads pf (new_with_alphabet exA w1) cs exF /\ length cs = 2.
Proof. eexists _, _. split; [exact exF_loads|done]. Qed.

(** ** C17 *)
Theorem C17_results_are_candidates lc ses m m' q ks p l :
  built m m' -> query m q ks -> length ks <= 255 -> finds lc ses m' q p l ->
  Forall (fun r => exists id v d, candidate lc m q ks p id v d /\
    ((vr_id r = id /\ vr_via r = None) \/ (vr_via r = Some id /\ exists s, (vr_id r, s) ∈ stored_references v))) l.
Proof. intros B Q. exact (P_Results.sound lc ses m m' q ks B Q p l). Qed.
Print Assumptions C17_results_are_candidates.

(** ** C18 *)
Theorem C18_all_within_limits_found lc ses m m' q ks p :
  built m m' -> query m q ks -> length ks <= 255 -> tame m p -> no_links m -> m_confusables m = [] ->
  p_max_matches p = 0 -> fge (p_cutoff_threshold p) f1 = false -> p_stop_criterion p = Exhaustive ->
  effective_limit (p_max_anagram_distance p) (length ks) < length ks ->
  (forall id v ks', entry_reading m id v ks' -> length ks' < 256) ->
  exists l, finds lc ses m' q p l /\ NoDup (map vr_id l) /\
    forall id, id ∈ map vr_id l <-> exists v ks' d, entry_reading m id v ks' /\
      bag_within ks ks' (effective_limit (p_max_anagram_distance p) (length ks)) /\
      distance_between lc (m_weights m) q ks (vv_text v) ks' d /\
      d_ld d <= effective_limit (p_max_edit_distance p) (length ks) /\
      fle (p_score_threshold p) (distance_score (m_weights m) (length ks) d) = true.
Proof. intros B Q. exact (complete_within lc ses m m' q ks B Q p). Qed.
Print Assumptions C18_all_within_limits_found.

(** with limit 3 for four letters: all three words *)
Example C18_ex : let p := sp (upto 3) (upto 3) 0 f0 f0 f0 in
  (exists l, finds lower script (idx exG) exQ p l /\ NoDup (map vr_id l)) /\
  effective_limit (p_max_anagram_distance p) 4 < 4 /\ m_confusables exG = [] /\ fge (p_cutoff_threshold p) f1 = false /\
  rmap (map vr_id) (find_variants lower script 1000 id (idx exG) exQ p) = Ok [3; 5; 4].
Proof.
  cbn zeta. assert (tame exG (sp (upto 3) (upto 3) 0 f0 f0 f0)) as T by (apply exG_tame; by vm_compute).
  assert (m_confusables exG = []) as C by (by vm_compute).
  split; [|split; [vm_compute; lia|split; [done|split; by vm_compute]]].
  destruct (C18_all_within_limits_found lower script exG (idx exG) exQ [1; 0; 0; 0] (sp (upto 3) (upto 3) 0 f0 f0 f0) exG_built exG_query)
    as (l & H1 & H2 & _); [cbn; lia|exact T|exact exG_no_links|exact C|done|done|done|vm_compute; lia|exact exG_short|].
  by exists l.
Qed.

(** with any limits, exactly the candidates are found *)
Theorem C18_all_candidates_found lc ses m m' q ks p :
  built m m' -> query m q ks -> length ks <= 255 -> tame m p -> no_links m -> m_confusables m = [] ->
  p_max_matches p = 0 -> fge (p_cutoff_threshold p) f1 = false ->
  exists l, finds lc ses m' q p l /\ NoDup (map vr_id l) /\
    forall id, id ∈ map vr_id l <-> exists v d, candidate lc m q ks p id v d /\
      fle (p_score_threshold p) (distance_score (m_weights m) (length ks) d) = true.
Proof. intros B Q. exact (P_Results.complete lc ses m m' q ks B Q p). Qed.
Print Assumptions C18_all_candidates_found.

(** a limit as long as the query misses entries without a common character:
    "b" from "a" with both limits 3 *)
Theorem C18_all_within_limits_found_refuted :
  exists m m' q ks p, build id id m = Ok m' /\ reads (m_alphabet m) q ks /\
    find_variants lower script 1000 id m' q p = Ok [] /\
    exists id v ks', entry_reading m id v ks' /\
      bag_within ks ks' (effective_limit (p_max_anagram_distance p) (length ks)) /\
      min_edits true ks ks' 1 /\ 1 <= effective_limit (p_max_edit_distance p) (length ks) /\
      p_max_matches p = 0 /\ p_score_threshold p = f0 /\ p_cutoff_threshold p = f0.
Proof.
  set (m := voc [vfile [[98%N]]]). set (p := sp (TRatio (f32_of_nat 3)) (TRatio (f32_of_nat 3)) 0 f0 f0 f0).
  assert (m_alphabet m = exA) as EA by (by vm_compute).
  exists m, (idx m), [97%N], [0], p. split; [by vm_compute|].
  split; [rewrite EA; apply reads_check; [exact exA_ok|by vm_compute|]; repeat constructor; cbn; lia|].
  split; [by vm_compute|].
  exists 3, (VocabValue [98%N] [1] 1 1 1 None 1), [1]. split.
  { split; [split; by vm_compute|]. rewrite EA. cbn. apply reads_check; [exact exA_ok|by vm_compute|]. repeat constructor; cbn; lia. }
  split.
  { exists 2. split; [|by vm_compute; lia]. exists [], [0], [1]. split; [done|]. split; [done|]. split; [done|].
    intros a Ha. set_solver. }
  split.
  { split.
    - apply (edits_S true 0 [0] [0] [1]); [constructor|]. apply (e_sub true [] 0 1 []).
    - intros n' H. destruct n' as [|n']; [|lia]. by inversion H. }
  split; [by vm_compute; lia|done].
Qed.
Print Assumptions C18_all_within_limits_found_refuted.

(** ** C19 *)
Theorem C19_absolute x len : x <= 255 -> (N.of_nat len < 9007199254740992)%N ->
  effective_limit (TAbsolute x) len = Nat.min x (len / 2).
Proof. exact (limit_absolute x len). Qed.
Print Assumptions C19_absolute.
(** the product of length and ratio is rounded to a 32-bit float before the floor is taken *)
Theorem C19_ratio x len : (N.of_nat len < 16777216)%N -> ratio x ->
  effective_limit (TRatio x) len = Nat.min (Z.to_nat (Zfloor (nearest32 (IZR (Z.of_nat len) * real x)))) 12.
Proof. exact (limit_ratio x len). Qed.
Print Assumptions C19_ratio.
Theorem C19_ratio_with_limit x k len : (N.of_nat len < 16777216)%N -> ratio x -> k <= 255 ->
  effective_limit (TRatioWithLimit x k) len = Nat.min (Z.to_nat (Zfloor (nearest32 (IZR (Z.of_nat len) * real x)))) k.
Proof. exact (limit_ratio_with x k len). Qed.
Print Assumptions C19_ratio_with_limit.
Theorem C19_monotone x y k k' len len' :
  (N.of_nat len' < 16777216)%N -> len <= len' -> ratio x -> ratio y -> (real x <= real y)%R -> k <= k' -> k' <= 255 ->
  effective_limit (TAbsolute k) len <= effective_limit (TAbsolute k') len' /\
  effective_limit (TRatio x) len <= effective_limit (TRatio y) len' /\
  effective_limit (TRatioWithLimit x k) len <= effective_limit (TRatioWithLimit y k') len'.
Proof. exact (limits_monotone x y k k' len len'). Qed.
Print Assumptions C19_monotone.
Theorem C19_caps x k len :
  effective_limit (TAbsolute k) len <= k /\ effective_limit (TRatio x) len <= 12 /\ effective_limit (TRatioWithLimit x k) len <= k.
Proof. cbn. lia. Qed.
Print Assumptions C19_caps.
(** 0.7 as a 32-bit float is below 7/10, so the floor of ten times it is 6, but the limit is 7 *)
Definition seven_tenths : f32 := S754_finite false 11744051 (-24).
Theorem C19_floor_of_product_refuted :
  ratio seven_tenths /\ (IZR (Z.of_nat 10) * real seven_tenths < 7)%R /\ effective_limit (TRatio seven_tenths) 10 = 7.
Proof.
  assert (real seven_tenths = 11744051 / 16777216)%R as E.
  { unfold real, seven_tenths. cbn. unfold F2R. cbn [Fnum Fexp].
    replace (bpow radix2 (-24)) with (/ IZR 16777216)%R by reflexivity. reflexivity. }
  split; [|split; [rewrite E; change (Z.of_nat 10) with 10%Z; lra|by vm_compute]].
  split; [done|]. split; [done|]. rewrite E. lra.
Qed.
Print Assumptions C19_floor_of_product_refuted.
Example C19_ex : map (effective_limit (TAbsolute 3)) [1; 4; 9] = [0; 2; 3] /\
  map (effective_limit (TRatio half32)) [1; 7; 60] = [0; 3; 12] /\ map (effective_limit (TRatioWithLimit half32 2)) [1; 7; 60] = [0; 2; 2].
Proof. by vm_compute. Qed.

(** ** C20 *)
Theorem C20_distance_score_unit w len d :
  weights_ok w -> 0 < len -> (N.of_nat len < 9007199254740992)%N -> measured len d -> unit_score (distance_score w len d).
Proof. intros Hw. exact (score_unit w Hw len d). Qed.
Print Assumptions C20_distance_score_unit.
Theorem C20_scores_unit lc ses m m' q ks p l :
  built m m' -> query m q ks -> tame m p -> m_confusables m = [] -> finds lc ses m' q p l ->
  Forall (fun r => unit_score (vr_dist r)) l.
Proof. intros B Q. exact (P_Results.unit_scores lc ses m m' q ks B Q p l). Qed.
Print Assumptions C20_scores_unit.

(** ** C58 *)
Theorem C58_score_is_weighted_mean w len d :
  weights_ok w -> (bpow radix2 (-1000) <= total_weight w)%R -> 0 < len -> (N.of_nat len < 9007199254740992)%N ->
  measured len d -> (Rabs (real (distance_score w len d) - similarity w len d) <= bpow radix2 (-49))%R.
Proof. exact (score_close w len d). Qed.
Print Assumptions C58_score_is_weighted_mean.
Lemma w1_total : total_weight w1 = 5%R.
Proof.
  assert (real f1 = 1%R) as E by apply dv_f1. unfold total_weight, w1. cbn [w_ld w_lcs w_prefix w_suffix w_case]. rewrite E. lra.
Qed.
(** distance 1, common part 2, prefix 1, suffix 0, same case, for a word of 3 letters: (2/3 + 2/3 + 1/3 + 0 + 1) / 5 = 8/15 *)
Example C58_ex : measured 3 (Distance 1 2 1 0 true) /\ (bpow radix2 (-1000) <= total_weight w1)%R /\
  similarity w1 3 (Distance 1 2 1 0 true) = (8 / 15)%R /\
  distance_score w1 3 (Distance 1 2 1 0 true) = S754_finite false 4803839602528530 (-53).
Proof.
  split; [vm_compute; done|]. split.
  { rewrite w1_total. apply Rle_trans with (bpow radix2 0); [apply bpow_le; lia|]. cbn. lra. }
  split; [|by vm_compute]. unfold similarity. rewrite w1_total. assert (real f1 = 1%R) as E by apply dv_f1.
  unfold part, w1. cbn [w_ld w_lcs w_prefix w_suffix w_case d_ld d_lcs d_prefixlen d_suffixlen d_samecase]. rewrite E.
  change (Z.of_nat 3) with 3%Z. change (Z.of_N (N.of_nat 1)) with 1%Z. rewrite Rmax_right by lra. field.
Qed.
Example C20_ex : weights_ok w1 /\ measured 3 (Distance 1 2 1 0 true).
Proof. split; [exact w1_ok|]. by vm_compute. Qed.

(** ** C21 *)
Theorem C21_exact_match_scores_one lc m m' q ks d :
  built m m' -> query m q ks -> d_ld d = 0 -> distance_between lc (m_weights m) q ks q ks d ->
  distance_score (m_weights m) (length ks) d = f1.
Proof. intros B Q. exact (P_Results.self_score lc script m m' q ks B Q d). Qed.
Print Assumptions C21_exact_match_scores_one.
Theorem C21_exact_match_first lc ses m m' q ks p l id v :
  built m m' -> query m q ks -> tame m p -> m_confusables m = [] -> feq (p_freq_weight p) f0 = true ->
  fle (p_score_threshold p) f1 = true -> indexed m id v -> vv_text v = q -> flag (vv_type v) transparent_bit = false ->
  finds lc ses m' q p l ->
  (exists r, l !! 0 = Some r /\ vr_dist r = f1) /\ Forall (fun r => fle (vr_dist r) f1 = true) l /\
  (p_max_matches p = 0 -> fle f1 (p_cutoff_threshold p) = false -> exists r, r ∈ l /\ vr_id r = id /\ vr_dist r = f1).
Proof. intros B Q. exact (P_Results.exact_first lc ses m m' q ks B Q p l id v). Qed.
Print Assumptions C21_exact_match_first.
Example C21_ex : exists v, indexed exF 3 v /\ vv_text v = exQ /\ flag (vv_type v) transparent_bit = false /\
  rmap (fun l => vr_dist <$> l !! 0) (find_variants lower script 1000 id (idx exF) exQ (sp (upto 3) (upto 3) 0 f0 f0 f0)) = Ok (Some f1).
Proof.
  eexists. split; [split; [by vm_compute|by vm_compute]|]. split; [by vm_compute|]. split; by vm_compute.
Qed.

(** ** C22 *)
Theorem C22_results_ranked lc ses m m' q ks p l :
  built m m' -> query m q ks -> tame m p -> finds lc ses m' q p l -> ranked (p_freq_weight p) l /\ Forall result_ok l.
Proof. intros B Q. exact (P_Results.results_ranked lc ses m m' q ks B Q p l). Qed.
Print Assumptions C22_results_ranked.
Theorem C22_ranking_stable fw l : weight_single fw -> Forall result_ok l ->
  exists l', rank_results fw l = Ok l' /\ l' ≡ₚ l /\ ranked fw l' /\ keeps_ties fw l l'.
Proof. exact (rank_ok fw l). Qed.
Print Assumptions C22_ranking_stable.
Example C22_ex : let l := [VariantResult 5 fhalf f1 None; VariantResult 4 fhalf f1 None; VariantResult 3 f1 f0 None] in
  Forall result_ok l /\ rmap (map vr_id) (rank_results f0 l) = Ok [3; 5; 4] /\ rmap (map vr_id) (rank_results f32_1 l) = Ok [5; 4; 3].
Proof. cbn zeta. split; [|by vm_compute]. repeat constructor; by vm_compute. Qed.

(** ** C23 *)
Theorem C23_number_of_results lc ses m m' q ks p l :
  built m m' -> query m q ks -> tame m p -> feq (p_freq_weight p) f0 = true -> 0 < p_max_matches p -> finds lc ses m' q p l ->
  length l <= Nat.max (p_max_matches p) 2.
Proof. intros B Q. exact (P_Results.number lc ses m m' q ks B Q p l). Qed.
Print Assumptions C23_number_of_results.
(** two results although one was asked for: "baac" and "baab" tie *)
Theorem C23_number_of_results_refuted :
  exists m m' q p l, build id id m = Ok m' /\ find_variants lower script 1000 id m' q p = Ok l /\
    p_max_matches p = 1 /\ length l = 2.
Proof.
  pose (m := voc [vfile [[98; 97; 97; 99]; [98; 97; 97; 98]]%N]).
  eexists m, (idx m), exQ, (sp (upto 3) (upto 3) 1 f0 f0 f0), _.
  split; [by vm_compute|]. split; [vm_compute; reflexivity|]. done.
Qed.
Print Assumptions C23_number_of_results_refuted.
(** with frequency weighting also beyond that: three results although two were asked for *)
Theorem C23_number_with_frequency_refuted :
  exists m m' q p l, build id id m = Ok m' /\ find_variants lower script 1000 id m' q p = Ok l /\
    p_max_matches p = 2 /\ length l = 3.
Proof.
  pose (m := voc [vfile [[98; 97; 97; 97; 104; 9; 57]; [98; 97; 97; 99]; [98; 97; 97; 98]]%N]).
  eexists m, (idx m), exQ, (sp (upto 3) (upto 3) 2 f0 f0 half32), _.
  split; [by vm_compute|]. split; [vm_compute; reflexivity|]. done.
Qed.
Print Assumptions C23_number_with_frequency_refuted.

(** ** C24 *)
Theorem C24_results_are_prefix lc ses m m' q ks p l l0 :
  built m m' -> query m q ks -> (m_confusables m = [] \/ m_confusables_before_pruning m = true) ->
  finds lc ses m' q p l -> finds lc ses m' q (with_caps p 0 f0) l0 -> exists n, l = take n l0 /\ (l0 <> [] -> 0 < n).
Proof. intros B Q. exact (P_Results.prefix_of_ranked lc ses m m' q ks B Q p l l0). Qed.
Print Assumptions C24_results_are_prefix.
(** confusables applied after cropping: "baac" would rank first but is cropped *)
Definition a_to_c (weight : f64) : confusable := Confusable [Deletion [97%N]; Insertion [99%N]] weight false false.
Theorem C24_results_are_prefix_refuted :
  exists m m' q p l l0, build id id m = Ok m' /\ find_variants lower script 1000 id m' q p = Ok l /\
    find_variants lower script 1000 id m' q (with_caps p 0 f0) = Ok l0 /\ ~ exists n, l = take n l0.
Proof.
  pose (m := with_confusables (voc [vfile [[98; 97; 97; 97]; [98; 97; 97; 99]]%N]) [a_to_c f2] false).
  eexists m, (idx m), exQ, (sp (upto 3) (upto 3) 1 f0 f0 f0), _, _.
  split; [by vm_compute|]. split; [vm_compute; reflexivity|]. split; [vm_compute; reflexivity|].
  intros (n & H). apply (f_equal (map vr_id)) in H. destruct n as [|[|n]]; done.
Qed.
Print Assumptions C24_results_are_prefix_refuted.
Example C24_ex :
  rmap (map vr_id) (find_variants lower script 1000 id (idx exF) exQ (sp (upto 3) (upto 3) 1 f0 f0 f0)) = Ok [3] /\
  rmap (map vr_id) (find_variants lower script 1000 id (idx exF) exQ (with_caps (sp (upto 3) (upto 3) 1 f0 f0 f0) 0 f0)) = Ok [3; 5; 4; 3].
Proof. by vm_compute. Qed.

(** ** C25 *)
Theorem C25_cutoff lc ses m m' q ks p l l0 :
  built m m' -> query m q ks -> tame m p -> double (p_cutoff_threshold p) ->
  finds lc ses m' q p l -> finds lc ses m' q (with_caps p (p_max_matches p) f0) l0 ->
  (fle f1 (p_cutoff_threshold p) = false -> l = l0) /\
  (fle f1 (p_cutoff_threshold p) = true -> exists n, l = take n l0 /\ (l0 <> [] -> 0 < n) /\
    forall best, l0 !! 0 = Some best ->
      let limit := fdiv (final_score (p_freq_weight p) best) (p_cutoff_threshold p) in
      (forall i r, 0 < i < n -> l0 !! i = Some r -> flt limit (final_score (p_freq_weight p) r) = true) /\
      (forall i r, n <= i -> l0 !! i = Some r -> fle (final_score (p_freq_weight p) r) limit = true)).
Proof. intros B Q. exact (P_Results.cutoff_result lc ses m m' q ks B Q p l l0). Qed.
Print Assumptions C25_cutoff.
(** scores 1, 0.65, 0.65, 0.325: a cutoff threshold of 2 drops the last one *)
Example C25_ex :
  rmap (map vr_id) (find_variants lower script 1000 id (idx exF) exQ (sp (upto 3) (upto 3) 0 f0 f2 f0)) = Ok [3; 5; 4].
Proof. by vm_compute. Qed.

(** ** C26 *)
Theorem C26_score_threshold lc ses m m' q ks p l :
  built m m' -> query m q ks -> no_links m -> m_confusables m = [] -> finds lc ses m' q p l ->
  Forall (fun r => fle (p_score_threshold p) (vr_dist r) = true) l.
Proof. intros B Q. exact (P_Results.threshold lc ses m m' q ks B Q p l). Qed.
Print Assumptions C26_score_threshold.
(** confusables lower the score after the threshold has been applied *)
Theorem C26_score_threshold_refuted :
  exists m m' q p l, build id id m = Ok m' /\ find_variants lower script 1000 id m' q p = Ok l /\
    Exists (fun r => flt (vr_dist r) (p_score_threshold p) = true) l.
Proof.
  pose (m := with_confusables (voc [vfile [[98; 97; 97; 97]; [98; 97; 97; 99]]%N]) [a_to_c fhalf] true).
  eexists m, (idx m), exQ, (sp (upto 3) (upto 3) 0 fhalf f0 f0), _.
  split; [by vm_compute|]. split; [vm_compute; reflexivity|]. apply Exists_cons_tl, Exists_cons_hd. by vm_compute.
Qed.
Print Assumptions C26_score_threshold_refuted.
(** so do variant links *)
Theorem C26_score_threshold_links_refuted :
  exists m m' q p l, build id id m = Ok m' /\ find_variants lower script 1000 id m' q p = Ok l /\ m_confusables m = [] /\
    Exists (fun r => flt (vr_dist r) (p_score_threshold p) = true) l.
Proof.
  eexists exF, (idx exF), exQ, (sp (upto 3) (upto 3) 0 fhalf f0 f0), _.
  split; [by vm_compute|]. split; [vm_compute; reflexivity|]. split; [by vm_compute|].
  do 3 apply Exists_cons_tl. apply Exists_cons_hd. by vm_compute.
Qed.
Print Assumptions C26_score_threshold_links_refuted.

(** ** C27 *)
Theorem C27_no_entry_twice lc ses m m' q ks p l :
  built m m' -> query m q ks -> no_links m -> finds lc ses m' q p l -> NoDup (map vr_id l).
Proof. intros B Q. exact (P_Results.distinct lc ses m m' q ks B Q p l). Qed.
Print Assumptions C27_no_entry_twice.
(** with links, an entry can be found itself and through a variant; only
    neighbouring duplicates are removed *)
Theorem C27_no_entry_twice_refuted :
  exists m m' q p l, build id id m = Ok m' /\ find_variants lower script 1000 id m' q p = Ok l /\ ~ NoDup (map vr_id l).
Proof.
  eexists exF, (idx exF), exQ, (sp (upto 3) (upto 3) 0 f0 f0 f0), _.
  split; [by vm_compute|]. split; [vm_compute; reflexivity|]. cbn. rewrite NoDup_cons. intros [H _]. apply H. set_solver.
Qed.
Print Assumptions C27_no_entry_twice_refuted.

(** ** C28 *)
Theorem C28_frequency_unit lc ses m m' q ks p l :
  built m m' -> query m q ks -> tame m p -> finds lc ses m' q p l -> Forall (fun r => unit_score (vr_freq r)) l.
Proof. intros B Q. exact (P_Results.freq_unit lc ses m m' q ks B Q p l). Qed.
Print Assumptions C28_frequency_unit.
Theorem C28_most_frequent lc ses m m' q ks p l r v :
  built m m' -> query m q ks -> length ks <= 255 -> tame m p -> finds lc ses m' q p l -> r ∈ l -> vr_via r = None ->
  m_decoder m !! vr_id r = Some v -> (0 < counted_freq m v)%N ->
  (forall id v' d, candidate lc m q ks p id v' d -> (counted_freq m v' <= counted_freq m v)%N) -> vr_freq r = f1.
Proof. intros B Q. exact (P_Results.top_candidate lc ses m m' q ks B Q p l r v). Qed.
Print Assumptions C28_most_frequent.
Example C28_ex :
  rmap (map vr_freq) (find_variants lower script 1000 id (idx exF) exQ (sp (upto 3) (upto 3) 0 f0 f0 f0)) =
  Ok [f1; fdiv f1 (f64_of_N 9); fdiv f1 (f64_of_N 9); fdiv f1 (f64_of_N 9)].
Proof. by vm_compute. Qed.

(** ** C29 *)
Theorem C29_lookup_succeeds lc ses m m' q ks p :
  built m m' -> query m q ks -> tame m p -> exists l, finds lc ses m' q p l.
Proof. intros B Q. exact (P_Results.total lc ses m m' q ks B Q p). Qed.
Print Assumptions C29_lookup_succeeds.
(** the empty text makes it fail *)
Theorem C29_empty_text_refuted :
  exists m m' p, build id id m = Ok m' /\ find_variants lower script 1000 id m' [] p = Panic AssertFailed.
Proof. exists exF, (idx exF), (sp (upto 3) (upto 3) 0 f0 f0 f0). by vm_compute. Qed.
Print Assumptions C29_empty_text_refuted.

(** ** C37 *)
Theorem C37_transparent_not_returned lc ses m m' q ks p l x v :
  built m m' -> query m q ks -> finds lc ses m' q p l -> m_decoder m !! x = Some v ->
  flag (vv_type v) transparent_bit = true -> vv_variants v <> None ->
  (forall y vy s, m_decoder m !! y = Some vy -> (x, s) ∈ stored_references vy -> False) ->
  x ∉ map vr_id l.
Proof. intros B Q. exact (P_Results.transparent_hidden lc ses m m' q ks B Q p l x v). Qed.
Print Assumptions C37_transparent_not_returned.
Theorem C37_references_returned lc ses m m' q ks p l x v d t s :
  built m m' -> query m q ks -> length ks <= 255 -> tame m p -> m_confusables m = [] ->
  p_max_matches p = 0 -> fle f1 (p_cutoff_threshold p) = false -> finds lc ses m' q p l ->
  candidate lc m q ks p x v d -> fle (p_score_threshold p) (distance_score (m_weights m) (length ks) d) = true ->
  (t, s) ∈ stored_references v ->
  exists r r', vr_id r = t /\ vr_via r = Some x /\ vr_dist r = fmul (distance_score (m_weights m) (length ks) d) s /\
    r' ∈ l /\ vr_id r' = t /\ (r' = r \/ ranks_before (p_freq_weight p) r' r).
Proof. intros B Q. exact (P_Results.references_returned lc ses m m' q ks B Q p l x v d t s). Qed.
Print Assumptions C37_references_returned.
(** "baac" only as a transparent variant of "baab": from "baac" the result is "baab", via "baac" unless the direct score is higher *)
Example C37_ex :
  let m := voc [vfile [[98; 97; 97; 98]]%N; CVariant 3 [98; 97; 97; 99]%N fhalf None (par FMax 5 0)] in
  rmap (map (fun r => (vr_id r, vr_via r))) (find_variants lower script 1000 id (idx m) [98; 97; 97; 99]%N (sp (upto 3) (upto 3) 0 f0 f0 f0)) =
  Ok [(3, None)] /\
  rmap (map (fun r => (vr_id r, vr_via r))) (find_variants lower script 1000 id (idx m) [98; 97; 97; 99]%N (sp (upto 3) (upto 0) 0 f0 f0 f0)) =
  Ok [(3, Some 4)].
Proof. by vm_compute. Qed.

(** ** C39 *)
Theorem C39_expansion m l l' : expand_variants m l = Ok l' <-> expands m l l'.
Proof. exact (expand_iff m l l'). Qed.
Print Assumptions C39_expansion.
Theorem C39_expansion_succeeds m l : links_inside m -> Forall (fun r => vr_id r < length (m_decoder m)) l ->
  exists l', expand_variants m l = Ok l' /\ expands m l l'.
Proof. intros H1 H2. destruct (expand_total m l H1 H2) as [l' H]. exists l'. split; [by apply expand_iff|done]. Qed.
Print Assumptions C39_expansion_succeeds.
Example C39_ex :
  let m := voc [vfile [[98; 97; 97; 98]]%N; CVariant 3 [98; 97; 97; 99]%N fhalf None (par FMax 5 0); vfile [[98]]%N] in
  expand_variants m [VariantResult 4 fhalf f1 None; VariantResult 5 f1 f1 None] =
  Ok [VariantResult 3 (fmul fhalf fhalf) f1 (Some 4); VariantResult 5 f1 f1 None].
Proof. by vm_compute. Qed.
