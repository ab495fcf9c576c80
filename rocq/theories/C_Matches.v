(** Properties C45, C48, C54, C62, C63 and C64: running text, sequences, scores. *)
From Verif Require Import M_Base M_Utf8 M_Anahash M_Float M_Types M_Model M_Values M_Search M_Text M_Rules M_Matches.
From Verif Require Import S_Anahash S_Text S_Model S_Search S_Rules S_Matches P_Order P_Matches P_Share P_Sequence P_Solver.
From Verif Require Import C_Anahash C_Model C_Search C_Find.
From stdpp Require Import options.

(** ** C45 *)
Theorem C45_in_place : forall ln32 ln ws solve alpha lookup m t p ms,
  alpha 32%N = false -> solver_sound solve -> p_unicodeoffsets p = false ->
  find_all_matches ln32 ln ws solve alpha lookup m t p = Ok ms -> in_place t ms /\ one_after_other ms.
Proof. exact matches_in_place. Qed.
Print Assumptions C45_in_place.
Theorem C45_in_place_chars : forall ln32 ln ws solve alpha lookup m t p ms,
  alpha 32%N = false -> solver_sound solve -> p_unicodeoffsets p = true ->
  find_all_matches ln32 ln ws solve alpha lookup m t p = Ok ms ->
  (forall x, x ∈ ms -> at_chars t (tm_begin x) (tm_end x) (tm_text x) /\ tm_text x <> []) /\ one_after_other ms.
Proof. exact matches_in_place_chars. Qed.
Print Assumptions C45_in_place_chars.

(** "baab, baca": two batches of one word each *)
Definition exText : str := [98; 97; 97; 98; 44; 32; 98; 97; 99; 97]%N.
Definition exParams : search_parameters := sp (upto 3) (upto 3) 0 f0 f0 f0.
Definition exLookup (s : str) : res (list variant_result) := find_variants lower script 1000 id (idx exG) s exParams.
Definition space (c : N) : bool := (c =? 32)%N.
(** some functions in the place of the logarithms *)
Definition no_ln (x : f64) : f64 := x.
Example C45_ex :
  solver_sound (some_solver id) /\ lower 32%N = false /\
  rmap (map (fun x => (tm_text x, tm_begin x, tm_end x)))
    (find_all_matches no_ln no_ln space (some_solver id) lower exLookup (idx exG) exText exParams) =
  Ok [([98; 97; 97; 98]%N, 0, 4); ([98; 97; 99; 97]%N, 6, 10)].
Proof. split; [apply some_solver_sound; by intros l|]. by vm_compute. Qed.

(** ** C48 *)
Theorem C48_own_variant : forall ln32 ln ws solve alpha lookup m t p ms,
  alpha 32%N = false -> solver_sound solve ->
  find_all_matches ln32 ln ws solve alpha lookup m t p = Ok ms -> Forall solved ms.
Proof. exact matches_solved. Qed.
Print Assumptions C48_own_variant.
Theorem C48_best : forall ln32 ln ws solve m p ms bs e out,
  most_likely_sequence ln32 ln ws solve m p ms bs e = Ok out ->
  out = ms /\ Forall (fun x => tm_variants x = None \/ tm_variants x = Some []) ms \/ exists g symbols seqs best perplexity cost context,
    lattice (p_freq_weight p) ms bs e symbols g /\
    rmapM (path_sequence ln32 ws m p bs symbols) (solve g (p_max_seq p)) = Ok seqs /\
    best ∈ seqs /\ selected_matches ms best = Ok out /\
    (if use_lm m p then least worst_perplexity (map sq_perplexity seqs) perplexity else perplexity = worst_perplexity) /\
    least (f32mul (f32_of_nat (length bs - 1)) (f32_of_nat 2)) (map sq_cost seqs) cost /\
    greatest f0 (map sq_context seqs) context /\
    (Forall (fun s => fis_nan (combined ln m p perplexity cost context s) = false) seqs ->
     first_best (combined ln m p perplexity cost context) seqs best) /\
    (log_like ln -> (N.of_nat (length bs) < 8388608)%N -> positive_weights p -> Forall (well_scored (use_lm m p)) seqs ->
     first_best (combined ln m p perplexity cost context) seqs best).
Proof. exact sequence_chosen. Qed.
Print Assumptions C48_best.
Definition rotate_one {A} (l : list A) : list A := match l with [] => [] | x :: l' => l' ++ [x] end.
Lemma rotate_one_order {A} : some_order (@rotate_one A).
Proof. intros [|x l]; [done|]. cbn. by rewrite Permutation_app_comm. Qed.

Definition exWord : str := [98; 97; 97; 98]%N.

(** A rule with a negative score gives a score that is not a number; it is then
    chosen if it comes first, although another sequence has the best score
    there is. *)
Definition exRules : model := with_rules (idx exG) [ContextRule [PVocab 3] (SFopp f32_1) [] []] [].
Definition exPair : list variant_result := [VariantResult 3 f1 f1 None; VariantResult 4 f1 f1 None].
(** the words and boundaries of "b b" *)
Definition exWords : list tmatch := [set_variants (new_empty [98%N] 0 1) (Some exPair); set_variants (new_empty [98%N] 2 3) (Some exPair)].
Definition exBounds : list tmatch := [new_empty [32%N] 1 2; new_empty [] 3 3].
Definition exSeq (id : nat) (context : f64) : sequence :=
  Sequence [OutputSymbol id 0 (Some (id - 3)) 0; OutputSymbol id 1 (Some (id - 3)) 1] (f32_of_nat 2) (S754_zero false) f0 context [[]; []].
Theorem C48_negative_score_refuted : forall ln32 ln ws, log_like ln ->
  exists solve m p out x c y, solver_sound solve /\ solver_complete solve /\ positive_weights p /\
    most_likely_sequence ln32 ln ws solve m p exWords exBounds 3 = Ok out /\ selected_matches exWords (exSeq 3 (SFopp f1)) = Ok out /\
    fis_nan (combined ln m p x c y (exSeq 3 (SFopp f1))) = true /\ combined ln m p x c y (exSeq 4 f1) = f0.
Proof.
  intros ln32 ln ws H. exists (some_solver id), exRules, exParams.
  assert (forall x c, combined ln exRules exParams x c f1 (exSeq 3 (SFopp f1)) = S754_nan) as En.
  { intros x c. unfold combined. rewrite decide_False; [|by intros [_ [?|?]]]. unfold weighted_mean, context_part.
    assert (ln (fdiv (sq_context (exSeq 3 (SFopp f1))) f1) = S754_nan) as ->.
    { pose proof (ll_negative _ H (SFopp f1) eq_refl). change (fdiv _ f1) with (SFopp f1). by destruct (ln (SFopp f1)). }
    destruct (fadd _ (fmul _ (variant_part _ _ _))) as [[]|[]| |[]]; reflexivity. }
  pose proof (ll_one _ H) as E1.
  eexists _, worst_perplexity, (f32_of_nat 2), f1.
  split; [apply some_solver_sound; by intros l|]. split; [apply some_solver_complete; by intros l|].
  split; [by repeat constructor|]. split; [|split; [|split]].
  - etransitivity; [eapply mls_nan; [vm_compute; reflexivity|vm_compute; reflexivity|vm_compute; reflexivity|]|vm_compute; reflexivity].
    match goal with |- context [sequence_score ln _ _ ?b ?s] =>
      assert (b = Bests worst_perplexity (f32_of_nat 2) f1) as -> by (by vm_compute);
      assert (s = exSeq 3 (SFopp f1)) as -> by (by vm_compute) end.
    rewrite score_combined, En. done.
  - vm_compute. reflexivity.
  - by rewrite En.
  - unfold combined. rewrite decide_False; [|by intros [_ [?|?]]]. unfold weighted_mean, variant_part, context_part.
    change (fdiv (to_f64 (f32_of_nat 2)) (to_f64 (sq_cost (exSeq 4 f1)))) with f1. change (fdiv (sq_context (exSeq 4 f1)) f1) with f1.
    rewrite E1. by vm_compute.
Qed.
Print Assumptions C48_negative_score_refuted.

(** something like a logarithm: -1 up to 1, 0 from there *)
Definition step_ln (x : f64) : f64 :=
  if fis_nan x || flt x f0 then S754_nan else if fle x f0 then S754_infinity true else if flt x f1 then SFopp f1 else f0.
Example C48_ex_log : log_like step_ln.
Proof.
  split; [|intros x H|done|done|intros x y H0 H].
  - intros x _. unfold step_ln. by destruct (fis_nan x || flt x f0), (fle x f0), (flt x f1).
  - unfold step_ln. by rewrite H, orb_true_r.
  - assert (fis_nan x = false /\ fis_nan y = false) as [Nx Ny].
    { unfold fle, SFleb in H. destruct x as [| | |], y as [| | |]; try done; by destruct s. }
    apply fle_flt in H; [|done..]. apply fle_flt in H0; [|done..].
    assert (flt y f0 = false) as Hy by (by apply (nlt_trans f0 x y)). 
    unfold step_ln. rewrite Nx, Ny, H0, Hy. cbn [orb].
    destruct (fle x f0) eqn:E1.
    { destruct (fle y f0), (flt y f1); done. }
    destruct (fle y f0) eqn:E2.
    { apply fle_flt in E2; [|done..]. assert (fle x f0 = true) as E; [|by rewrite E in E1]. apply fle_flt; [done..|]. by apply (nlt_trans x y f0) in E2. }
    destruct (flt x f1) eqn:E3; [by destruct (flt y f1)|]. destruct (flt y f1) eqn:E4; [|done].
    assert (flt x f1 = true) as E; [|by rewrite E in E3]. destruct (flt x f1) eqn:E5; [done|]. exfalso.
    assert (flt y f1 = false); [|congruence]. by apply (nlt_trans f1 x y).
Qed.
(** the readings of "baab": the word itself and two others, and the failsafe *)
Example C48_ex :
  let ms := [set_variants (new_empty exWord 0 4) (Some (match exLookup exWord with Ok l => l | _ => [] end))] in
  let bs := [new_empty [] 4 4] in
  solver_sound (some_solver id) /\ positive_weights exParams /\
  rmap (map tm_selected) (most_likely_sequence no_ln step_ln space (some_solver id) (idx exG) exParams ms bs 4) = Ok [Some 0].
Proof. cbn zeta. split; [apply some_solver_sound; by intros l|]. split; [by repeat constructor|by vm_compute]. Qed.

(** ** C54 *)
Theorem C54_scoring : forall ln m tokens, tokens <> [] ->
  lm_score_tokens ln m tokens =
  Ok (sequence_logprob ln (m_ngrams m) tokens, perplexity_of (length tokens - 1) (sequence_logprob ln (m_ngrams m) tokens)).
Proof. exact lm_score_tokens_spec. Qed.
Print Assumptions C54_scoring.
(** every sequence of symbols, between the markers of start and end *)
Theorem C54_sequence : forall ln32 ws m symbols bs, scorable m ->
  Forall (fun o => os_boundary o < length bs /\ os_vocab o < length (m_decoder m)) symbols ->
  exists tokens, lm_score ln32 ws m symbols bs =
    Ok (sequence_logprob ln32 (m_ngrams m) (Some BOS :: tokens ++ [Some EOS]),
        perplexity_of (S (length tokens)) (sequence_logprob ln32 (m_ngrams m) (Some BOS :: tokens ++ [Some EOS]))).
Proof. exact lm_score_ok. Qed.
Print Assumptions C54_sequence.
(** without tokens it fails *)
Theorem C54_empty_refuted : forall ln m, lm_score_tokens ln m [] = Panic Overflow.
Proof. done. Qed.
Print Assumptions C54_empty_refuted.
Definition exCounts : gmap ngram N := {[ NUni 5 := 4%N; NBi 5 6 := 3%N ]}.
Example C54_ex :
  lm_score_tokens no_ln (with_lm exG exCounts [0%N] true) [Some 5; Some 6; None] =
  Ok (f32add (f32div (f32_of_N 3) (f32_of_N 4)) smoothing,
      fmul (fdiv (SFopp f1) (f64_of_nat 2)) (to_f64 (f32add (f32div (f32_of_N 3) (f32_of_N 4)) smoothing))).
Proof. by vm_compute. Qed.

(** ** C62 *)
Theorem C62_search_succeeds : forall lc ses ln32 ln ws solve alpha m m' t p,
  built m m' -> tame m p -> scorable m' -> solver_sound solve -> solver_complete solve -> 0 < p_max_seq p -> alpha 32%N = false ->
  (N.of_nat (length t) < 65281)%N ->
  exists F ms, forall lookup, looks_up lc ses F m' p lookup -> find_all_matches ln32 ln ws solve alpha lookup m' t p = Ok ms.
Proof. exact search_succeeds. Qed.
Print Assumptions C62_search_succeeds.
Example exG_scorable : scorable (idx exG).
Proof.
  split.
  - intros id v H. assert (forallb (fun v => vv_tokencount v =? S (count_spaces (vv_text v))) (m_decoder (idx exG)) = true) as E by (by vm_compute).
    rewrite forallb_forall in E. apply Nat.eqb_eq, E, elem_of_list_In. by eapply elem_of_list_lookup_2.
  - intros t id H. assert (map_fold (fun _ id b => (id <? length (m_decoder (idx exG))) && b) true (m_encoder (idx exG)) = true) as E by (by vm_compute).
    revert E H. generalize (m_encoder (idx exG)). intros e. revert t id.
    apply (map_fold_ind (fun b e => forall t id, b = true -> e !! t = Some id -> id < length (m_decoder (idx exG)))).
    + intros t id _ H. by rewrite lookup_empty in H.
    + intros i x e' b Hi IH t id Hb. rewrite lookup_insert_Some. intros [[<- <-]|[_ H]]; apply andb_true_iff in Hb as [H1 H2]; [by apply Nat.ltb_lt|by eapply IH].
  - by vm_compute.
Qed.
Example C62_ex :
  built exG (idx exG) /\ tame exG exParams /\ scorable (idx exG) /\ 0 < p_max_seq exParams /\ lower 32%N = false /\
  looks_up lower script 1000 (idx exG) exParams exLookup /\
  rmap length (find_all_matches no_ln step_ln space (some_solver id) lower exLookup (idx exG) exText exParams) = Ok 2.
Proof.
  split; [exact exG_built|]. split; [apply exG_tame; by vm_compute|]. split; [exact exG_scorable|]. split; [vm_compute; lia|]. split; [done|].
  split; [|by vm_compute]. intros s. exists 1000, id. split; [done|]. split; [by intros l|done].
Qed.
(** if no sequence is asked for (and the solver gives none then), it fails *)
Theorem C62_no_sequences_refuted : forall ln32 ln ws solve, (forall g, solve g 0 = []) ->
  exists m p t, find_all_matches ln32 ln ws solve lower exLookup m t p = Panic ExpectNone.
Proof.
  intros ln32 ln ws solve H.
  exists (idx exG), (SearchParameters (upto 3) (upto 3) 0 f0 f0 Exhaustive 3 0 f32_1 f32_1 f32_1 f0 false), exWord.
  vm_compute. by rewrite H.
Qed.
Print Assumptions C62_no_sequences_refuted.

(** ** C63 *)
(** With a single boundary the first sequence the solver gives is chosen, whatever it costs. *)
Theorem C63_first_path : forall ln32 ln ws solve m p ms b e out, ln f0 = S754_infinity true ->
  (m_have_lm m = false \/ feq (p_lm_weight p) f0 = true) -> (m_context_rules m = [] \/ feq (p_contextrules_weight p) f0 = true) ->
  most_likely_sequence ln32 ln ws solve m p ms [b] e = Ok out ->
  out = ms /\ Forall (fun x => tm_variants x = None \/ tm_variants x = Some []) ms \/ exists g symbols seqs,
    lattice (p_freq_weight p) ms [b] e symbols g /\ rmapM (path_sequence ln32 ws m p [b] symbols) (solve g (p_max_seq p)) = Ok seqs /\
    (Forall (fun s => weight_single (sq_cost s) /\ flt f0 (sq_cost s) = true) seqs ->
     exists first rest, seqs = first :: rest /\ selected_matches ms first = Ok out).
Proof. exact one_word. Qed.
Print Assumptions C63_first_path.
(** "baab" is a word of the lexicon and the first of its own variants; still the
    second may be chosen, or no match at all *)
Theorem C63_single_word_refuted : forall ln32 ln ws, ln f0 = S754_infinity true ->
  exists solve solve', solver_sound solve /\ solver_complete solve /\ solver_sound solve' /\ solver_complete solve' /\
    rmap (map tm_selected) (find_all_matches ln32 ln ws solve lower exLookup (idx exG) exWord exParams) = Ok [Some 1] /\
    find_all_matches ln32 ln ws solve' lower exLookup (idx exG) exWord exParams = Ok [] /\
    rmap (map vr_id) (exLookup exWord) = Ok [5; 3; 4] /\ rmap (fun l => map vr_dist (take 1 l)) (exLookup exWord) = Ok [f1].
Proof.
  intros ln32 ln ws E. unfold f0 in E. exists (some_solver rotate_one), (some_solver reverse).
  split; [apply some_solver_sound, rotate_one_order|]. split; [apply some_solver_complete, rotate_one_order|].
  split; [apply some_solver_sound; intros l; apply reverse_Permutation|].
  split; [apply some_solver_complete; intros l; apply reverse_Permutation|].
  split; [|split; [|split]]; vm_compute; [|..|reflexivity|reflexivity]; rewrite E; reflexivity.
Qed.
Print Assumptions C63_single_word_refuted.

(** ** C64 *)
Theorem C64_logprob : forall ln counts tokens, log32_like ln -> consistent_counts counts ->
  single (sequence_logprob ln counts tokens) /\ fle (sequence_logprob ln counts tokens) f0 = true.
Proof. exact logprob_nonpos. Qed.
Print Assumptions C64_logprob.
Theorem C64_scores : forall ln m tokens logprob perplexity, log32_like ln -> consistent_counts (m_ngrams m) ->
  2 <= length tokens -> (N.of_nat (length tokens) <= 9007199254740992)%N ->
  lm_score_tokens ln m tokens = Ok (logprob, perplexity) -> fle logprob f0 = true /\ fle f0 perplexity = true.
Proof.
  intros ln m tokens lp pp L C H1 H2. rewrite lm_score_tokens_spec by (by intros ->; cbn in H1; lia). intros [= <- <-].
  destruct (logprob_nonpos ln (m_ngrams m) tokens L C) as [S1 S2]. split; [done|]. apply perplexity_nonneg; [lia|lia|done|done].
Qed.
Print Assumptions C64_scores.
(** counts of a language model without the counts of single words *)
Theorem C64_inconsistent_refuted : forall ln, log32_like ln -> exists m tokens logprob perplexity,
  lm_score_tokens ln m tokens = Ok (logprob, perplexity) /\ flt f0 logprob = true.
Proof.
  intros ln L. exists (with_lm exG {[ NBi 5 6 := 3%N ]} [0%N] true), [Some 5; Some 6].
  pose proof (l32_high _ L (f32_of_N 3) eq_refl) as H. pose proof (l32_single _ L (f32_of_N 3) ltac:(by vm_compute)) as S1.
  rewrite lm_score_tokens_spec by done. eexists _, _. split; [done|].
  change (sequence_logprob ln _ _) with (f32add (S754_zero false) (ln (f32_of_N 3))).
  destruct (ln (f32_of_N 3)) as [s|s| |s m e]; [done|by destruct s|done|]. cbn. done.
Qed.
Print Assumptions C64_inconsistent_refuted.
Definition step_ln32 (x : f32) : f32 := if flt f32_1 x then f32_1 else f0.
Example C64_ex : log32_like step_ln32 /\ consistent_counts exCounts.
Proof.
  split.
  - split; [intros x _; unfold step_ln32; by destruct (flt f32_1 x)| |].
    + intros x H1 H2. unfold step_ln32. destruct (flt f32_1 x) eqn:E; [|done]. exfalso.
      assert (fis_nan x = false) as N by (by destruct x as [| | |]).
      apply fle_flt in H2; [congruence|done..].
    + intros x H. unfold step_ln32. by rewrite H.
  - intros a b j H. unfold exCounts in H. rewrite lookup_insert_ne in H by done. apply lookup_singleton_Some in H as [[= <- <-] <-].
    exists 4%N. split; [by vm_compute|lia].
Qed.
