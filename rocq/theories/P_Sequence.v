(** Proofs: the choice of a sequence; success of the search. *)
From Verif Require Import M_Base M_Utf8 M_Float M_Types M_Anahash M_Model M_Values M_Search M_Text M_Rules M_Matches.
From Verif Require Import S_Anahash S_Text S_Model S_Search S_Rules S_Matches P_Base P_Order P_Nonan P_Share P_Anahash P_Text P_Model P_Lm P_Rules P_Parse
  P_Gather P_Find P_Lookup P_Results P_Matches P_Lattice.
From stdpp Require Import options.

(** * The best *)
Lemma choose_step score x0 l : forall x, Forall (fun s => fis_nan (score s) = false) (x0 :: l) ->
  choose score (score x0) (Some x0) l = Some x -> first_best score (x0 :: l) x.
Proof.
  revert x0. induction l as [|y l IH]; intros x0 x Hn; cbn [choose].
  - intros [= <-]. exists [], []. split; [done|]. split; intros z Hz; inversion Hz.
  - inversion Hn as [|? ? N0 Hn']; subst. inversion Hn' as [|? ? Ny Hn'']; subst. rewrite orb_false_r.
    unfold fgt. fold (flt (score x0) (score y)). destruct (flt (score x0) (score y)) eqn:E.
    + intros H. destruct (IH y x Hn' H) as (l1 & l2 & El & H1 & H2). exists (x0 :: l1), l2. rewrite El. split; [done|].
      split; [|done]. intros z Hz. apply elem_of_cons in Hz as [->|Hz]; [|by apply H1].
      destruct l1 as [|y' l1]; injection El as -> El; [done|]. eapply flt_trans; [exact E|]. apply H1. left.
    + intros H. destruct (IH x0 x ltac:(by constructor) H) as (l1 & l2 & El & H1 & H2). destruct l1 as [|x' l1].
      * injection El as <- ->. exists [], (y :: l2). split; [done|]. split; [intros z Hz; inversion Hz|].
        intros z Hz. apply elem_of_cons in Hz as [->|Hz]; [|by apply H2]. by apply fle_flt.
      * injection El as <- ->. exists (x0 :: y :: l1), l2. split; [done|]. split; [|done].
        intros z Hz. apply elem_of_cons in Hz as [->|Hz]; [apply H1; left|]. apply elem_of_cons in Hz as [->|Hz]; [|apply H1; by right].
        eapply nlt_lt_trans; [done|exact E|]. apply H1. left.
Qed.
Lemma choose_best score b l x : Forall (fun s => fis_nan (score s) = false) l ->
  choose score b None l = Some x -> first_best score l x.
Proof.
  intros Hn H. destruct l as [|x0 l]; [done|]. cbn [choose] in H. rewrite orb_true_r in H. by apply choose_step.
Qed.

Lemma least_fold l : forall init, fis_nan init = false -> least init l (foldl (fun b y => if flt y b then y else b) init l).
Proof.
  induction l as [|y l IH] using rev_ind; intros init Hi.
  - cbn. split; [left|]. split; [done|]. intros y Hy. apply elem_of_list_singleton in Hy as ->. apply flt_irrefl.
  - rewrite foldl_app. cbn [foldl]. destruct (IH init Hi) as (H1 & H2 & H3). set (x := foldl _ init l) in *.
    destruct (flt y x) eqn:E.
    + split; [right; apply elem_of_app; right; left|]. pose proof E as (Ny & _ & _)%flt_key. split; [done|].
      intros z Hz. assert (z ∈ init :: l \/ z = y) as [Hz'| ->].
      { apply elem_of_cons in Hz as [->|Hz]; [left; left|]. apply elem_of_app in Hz as [Hz|Hz]; [left; by right|].
        right. by apply elem_of_list_singleton in Hz. }
      * apply not_true_iff_false. intros Hlt. pose proof (flt_trans _ _ _ Hlt E) as Hc. rewrite (H3 z Hz') in Hc. done.
      * apply flt_irrefl.
    + split; [apply elem_of_cons in H1 as [H1|H1]; [rewrite H1; left|right; apply elem_of_app; by left]|]. split; [done|].
      intros z Hz. apply elem_of_cons in Hz as [->|Hz]; [apply H3; left|]. apply elem_of_app in Hz as [Hz|Hz]; [apply H3; by right|].
      apply elem_of_list_singleton in Hz as ->. done.
Qed.
Lemma greatest_fold l : forall init, fis_nan init = false -> greatest init l (foldl (fun b y => if fgt y b then y else b) init l).
Proof.
  induction l as [|y l IH] using rev_ind; intros init Hi.
  - cbn. split; [left|]. split; [done|]. intros y Hy. apply elem_of_list_singleton in Hy as ->. apply flt_irrefl.
  - rewrite foldl_app. cbn [foldl]. destruct (IH init Hi) as (H1 & H2 & H3). set (x := foldl _ init l) in *.
    unfold fgt. fold (flt x y). destruct (flt x y) eqn:E.
    + split; [right; apply elem_of_app; right; left|]. pose proof E as (_ & Ny & _)%flt_key. split; [done|].
      intros z Hz. assert (z ∈ init :: l \/ z = y) as [Hz'| ->].
      { apply elem_of_cons in Hz as [->|Hz]; [left; left|]. apply elem_of_app in Hz as [Hz|Hz]; [left; by right|].
        right. by apply elem_of_list_singleton in Hz. }
      * apply not_true_iff_false. intros Hlt. pose proof (flt_trans _ _ _ E Hlt) as Hc. rewrite (H3 z Hz') in Hc. done.
      * apply flt_irrefl.
    + split; [apply elem_of_cons in H1 as [H1|H1]; [rewrite H1; left|right; apply elem_of_app; by left]|]. split; [done|].
      intros z Hz. apply elem_of_cons in Hz as [->|Hz]; [apply H3; left|]. apply elem_of_app in Hz as [Hz|Hz]; [apply H3; by right|].
      apply elem_of_list_singleton in Hz as ->. done.
Qed.
Lemma bests_fold lm l : forall b, let r := foldl (update_bests lm) b l in
  b_perplexity r = (if lm then foldl (fun b y => if flt y b then y else b) (b_perplexity b) (map sq_perplexity l) else b_perplexity b) /\
  b_cost r = foldl (fun b y => if flt y b then y else b) (b_cost b) (map sq_cost l) /\
  b_context r = foldl (fun b y => if fgt y b then y else b) (b_context b) (map sq_context l).
Proof.
  induction l as [|s l IH]; intros b r; [by destruct lm|]. unfold r. cbn [foldl map]. destruct (IH (update_bests lm b s)) as (-> & -> & ->).
  cbn [update_bests b_perplexity b_cost b_context]. by destruct lm.
Qed.

(** what is chosen *)
Lemma mls_chosen ln32 ln ws solve m p ms bs e out :
  most_likely_sequence ln32 ln ws solve m p ms bs e = Ok out ->
  out = ms /\ Forall (fun x => tm_variants x = None \/ tm_variants x = Some []) ms \/ exists g symbols seqs best perplexity cost context,
    lattice (p_freq_weight p) ms bs e symbols g /\
    rmapM (path_sequence ln32 ws m p bs symbols) (solve g (p_max_seq p)) = Ok seqs /\
    best ∈ seqs /\ selected_matches ms best = Ok out /\
    (if use_lm m p then least worst_perplexity (map sq_perplexity seqs) perplexity else perplexity = worst_perplexity) /\
    least (f32mul (f32_of_nat (length bs - 1)) (f32_of_nat 2)) (map sq_cost seqs) cost /\
    greatest f0 (map sq_context seqs) context /\
    let score := sequence_score ln m p (Bests perplexity cost context) in
    (Forall (fun s => fis_nan (score s) = false) seqs -> first_best score seqs best).
Proof.
  unfold most_likely_sequence. destruct (final_states bs e) as [|f0' fs] eqn:Ef; [done|].
  destruct (all_arcs (p_freq_weight p) bs 1 0 ms) as [[symbols arcs]|] eqn:Ea; [|done]. cbn [rbind].
  destruct symbols as [|s0 ss]; [intros [= <-]; left; split; [done|by eapply no_symbols]|].
  pose proof (lattice_built _ _ _ e _ _ Ea) as Hl. rewrite Ef in Hl. set (g := Fst _ _ _) in *.
  destruct (rmapM _ (solve g (p_max_seq p))) as [seqs|] eqn:Es; [|done]. cbn [rbind].
  set (b := foldl _ _ seqs). destruct (choose (sequence_score ln m p b) worst_score None seqs) as [best|] eqn:Ec; [|done].
  cbn [rexpect rbind]. intros Ho. right.
  exists g, (dummy_symbol :: s0 :: ss), seqs, best, (b_perplexity b), (b_cost b), (b_context b).
  split; [done|]. split; [done|]. split; [by apply choose_in in Ec as [?|]|]. split; [done|].
  destruct (bests_fold (use_lm m p) seqs (initial_bests (length bs))) as (E1 & E2 & E3). fold b in E1, E2, E3.
  cbn [b_perplexity b_cost b_context initial_bests] in E1, E2, E3. rewrite E1, E2, E3.
  split; [destruct (use_lm m p); [by apply least_fold|done]|]. split; [apply least_fold, cost_init_number|].
  split; [by apply greatest_fold|].
  rewrite <- E1, <- E2, <- E3. assert (Bests (b_perplexity b) (b_cost b) (b_context b) = b) as -> by (clearbody b; by destruct b).
  intros Hn. by eapply choose_best.
Qed.

Lemma score_combined ln m p x c t s : sequence_score ln m p (Bests x c t) s = combined ln m p x c t s.
Proof.
  unfold sequence_score, combined. cbn [b_perplexity b_cost b_context].
  destruct ((negb (m_have_lm m) || _) && _) eqn:E.
  - rewrite decide_True; [done|]. apply andb_true_iff in E as [E1 E2]. split.
    + apply orb_true_iff in E1 as [E1|E1]; [left; by apply negb_true_iff|by right].
    + apply orb_true_iff in E2 as [E2|E2]; [left; by apply bool_decide_eq_true in E2|by right].
  - rewrite decide_False; [done|]. intros [H1 H2]. apply not_true_iff_false in E. apply E, andb_true_iff.
    split; apply orb_true_iff; [destruct H1 as [->|]; auto|]. destruct H2 as [->|]; [left; by apply bool_decide_eq_true|by right].
Qed.
(** The same with the specified score. *)
Lemma sequence_chosen ln32 ln ws solve m p ms bs e out :
  most_likely_sequence ln32 ln ws solve m p ms bs e = Ok out ->
  out = ms /\ Forall (fun x => tm_variants x = None \/ tm_variants x = Some []) ms \/ exists g symbols seqs best perplexity cost context,
    lattice (p_freq_weight p) ms bs e symbols g /\
    rmapM (path_sequence ln32 ws m p bs symbols) (solve g (p_max_seq p)) = Ok seqs /\
    best ∈ seqs /\ selected_matches ms best = Ok out /\
    (if use_lm m p then least worst_perplexity (map sq_perplexity seqs) perplexity else perplexity = worst_perplexity) /\
    least (f32mul (f32_of_nat (length bs - 1)) (f32_of_nat 2)) (map sq_cost seqs) cost /\
    greatest f0 (map sq_context seqs) context /\
    (Forall (fun s => fis_nan (combined ln m p perplexity cost context s) = false) seqs ->
     first_best (combined ln m p perplexity cost context) seqs best) /\
    (log_like ln -> (N.of_nat (length bs) < 8388608)%N -> positive_weights p -> Forall (well_scored (use_lm m p)) seqs ->
     first_best (combined ln m p perplexity cost context) seqs best).
Proof.
  intros H. apply mls_chosen in H as [H|(g & symbols & seqs & best & x & c & t & Hlat & H1 & H2 & H3 & H4 & H5 & H6 & H7)]; [by left|right].
  exists g, symbols, seqs, best, x, c, t. split; [done|]. split; [done|]. split; [done|]. split; [done|]. split; [done|]. split; [done|]. split; [done|].
  assert (Forall (fun s => fis_nan (combined ln m p x c t s) = false) seqs -> first_best (combined ln m p x c t) seqs best) as G.
  { intros Hn. cbv zeta in H7. destruct H7 as (l1 & l2 & E & F1 & F2).
    - eapply Forall_impl; [exact Hn|]. intros s. by rewrite score_combined.
    - exists l1, l2. split; [done|]. split; intros y Hy; rewrite <- !score_combined; auto. }
  split; [exact G|]. intros Hl Hb Hw Hs. apply G. eapply Forall_impl; [by eapply scores_numbers|]. intros s. apply nonpos_number.
Qed.

(** * The search depends on the lookups of its candidates only *)
Lemma rmapM_ext {A B} (f g : A -> res B) l : (forall x, x ∈ l -> f x = g x) -> rmapM f l = rmapM g l.
Proof.
  induction l as [|x l IH]; intros H; [done|]. cbn [rmapM]. rewrite (H x) by left. rewrite IH; [done|]. intros y Hy. apply H. by right.
Qed.
Lemma rfoldl_ext {A B} (f g : B -> A -> res B) l : (forall a x, f a x = g a x) -> forall a, rfoldl f a l = rfoldl g a l.
Proof.
  intros H. induction l as [|x l IH]; intros a; [done|]. cbn [rfoldl]. rewrite H. destruct (g a x); [|done]. cbn [rbind]. apply IH.
Qed.
Definition real_candidate (t : str) (x : tmatch) : Prop := at_bytes t (tm_begin x) (tm_end x) (tm_text x) /\ tm_text x <> [].
Lemma worth_nonempty s : worth_matching s = true -> s <> [].
Proof. by intros H ->. Qed.
Lemma ngrams_loop_real t bs order e ahead : forall begin i last ms,
  match_ngrams_loop t bs ahead order begin e i = Ok (last, ms) -> Forall (real_candidate t) ms.
Proof.
  induction ahead as [|b ahead IH]; intros begin i last ms; cbn [match_ngrams_loop]; [intros [= <- <-]; constructor|].
  destruct (e <? tm_begin b); [intros [= <- <-]; constructor|].
  destruct (slice t begin (tm_begin b)) as [s|] eqn:Es; [|done]. cbn [rbind].
  destruct (rexpect (nth_error bs i)) as [bi|]; [|done]. cbn [rbind].
  destruct (match_ngrams_loop t bs ahead order (tm_end bi) e (S i)) as [[l r]|] eqn:E; [|done]. cbn [rbind]. intros [= <- <-].
  apply IH in E. destruct (worth_matching s) eqn:Hw; [|done]. constructor; [|done].
  split; [by apply slice_spec|by apply worth_nonempty].
Qed.
Lemma ngrams_real t bs order begin e ms : find_match_ngrams t bs order begin e = Ok ms -> Forall (real_candidate t) ms.
Proof.
  unfold find_match_ngrams. destruct (order =? 0); [done|].
  destruct (match_ngrams_loop _ _ _ _ _ _ _) as [[l r]|] eqn:E; [|done]. cbn [rbind]. apply ngrams_loop_real in E.
  destruct (l <? _); [|by intros [= <-]]. destruct (slice t l _) as [s|] eqn:Es; [|done]. cbn [rbind].
  destruct (worth_matching s) eqn:Hw; cbn [andb]; [|by intros [= <-]].
  destruct (_ =? order); [|by intros [= <-]]. intros [= <-]. apply Forall_app. split; [done|]. constructor; [|done].
  split; [by apply slice_spec|by apply worth_nonempty].
Qed.
Section ext.
  Context (ln32 : f32 -> f32) (ln : f64 -> f64) (ws : N -> bool) (solve : fst_graph -> nat -> list (list nat * f32)).
  Context (alpha : N -> bool) (k1 k2 : str -> res (list variant_result)) (m : model) (p : search_parameters) (t : str).
  Hypothesis (H : forall s b e, at_bytes t b e s -> s <> [] -> k1 s = k2 s).
  #[local] Set Default Proof Using "All".
  Lemma gather_ext n bs b e : gather_batch k1 t n bs b e = gather_batch k2 t n bs b e.
  Proof.
    unfold gather_batch. apply rfoldl_ext. intros batch order. destruct (find_match_ngrams t bs order b (Some e)) as [cur|] eqn:E; [|done].
    cbn [rbind]. apply ngrams_real in E. rewrite Forall_forall in E. rewrite (rmapM_ext _ (segment_variants k2 order batch)); [done|].
    intros x Hx. unfold segment_variants. destruct (_ || _); [|done]. destruct (E x Hx) as [H1 H2]. by rewrite (H _ _ _ H1 H2).
  Qed.
  Lemma batches_ext bounds l : forall i b bi, batches ln32 ln ws solve k1 m p t bounds l i b bi = batches ln32 ln ws solve k2 m p t bounds l i b bi.
  Proof.
    induction l as [|[s x] l IH]; intros i b bi; [done|]. cbn [batches]. destruct (_ && _); [|apply IH]. rewrite gather_ext.
    destruct (slice t b (tm_begin x)); [|done]. cbn [rbind]. destruct (gather_batch k2 t _ _ b (tm_begin x)); [|done]. cbn [rbind].
    destruct (consolidate _ _ _ _ _ _ _ _ _); [|done]. cbn [rbind]. by rewrite IH.
  Qed.
  Lemma find_all_ext : find_all_matches ln32 ln ws solve alpha k1 m t p = find_all_matches ln32 ln ws solve alpha k2 m t p.
  Proof.
    unfold find_all_matches. destruct (bool_decide _); [done|]. destruct (bool_decide _); [done|].
    destruct (find_boundaries alpha t); [|done]. cbn [rbind]. by rewrite batches_ext.
  Qed.
End ext.

(** * The search succeeds *)
Lemma reads_shorter A t ks : reads A t ks -> length ks <= length t.
Proof.
  intros H. induction H as [|t i e t' ks -> He _ _ IH|c t ks _ _ IH]; cbn; [lia| |lia].
  rewrite app_length. destruct e as [|c e]; [by destruct He|]. cbn. lia.
Qed.
Lemma result_ids lc ses m m' q ks p l : built m m' -> query m q ks -> tame m p -> finds lc ses m' q p l ->
  Forall (fun v => vr_id v < length (m_decoder m')) l.
Proof.
  intros B Q T H. destruct (instances lc ses m m' q ks B Q p) as (inst & Hf & _ & Hi & _). apply (Hf p) in H; [|done].
  apply score_and_rank_inv in H as ->. rewrite Forall_forall. intros r Hr.
  apply trace in Hr as (id & d & v & Hid & Hv & _ & H). destruct H as [(-> & _)|(_ & _ & s & Hs & _)].
  - by destruct (Hi id d Hid) as (_ & ? & _).
  - rewrite (decoder_same lc ses m m' q ks B Q) in Hv |- *. by eapply (tm_inside _ _ T).
Qed.

(** the non-empty parts of a text *)
Definition parts (t : str) : list str := flat_map (fun i => map (fun n => take n (drop i t)) (seq 1 (length t))) (seq 0 (length t)).
Lemma part_in t b e s : at_bytes t b e s -> s <> [] -> s ∈ parts t.
Proof.
  intros (pre & post & -> & _) Hs. apply elem_of_list_In. unfold parts. apply in_flat_map.
  assert (0 < length s) by (destruct s; [done|cbn; lia]).
  exists (length pre). split; [apply in_seq; rewrite !app_length; lia|]. apply in_map_iff. exists (length s).
  split; [|apply in_seq; rewrite !app_length; lia]. rewrite drop_app. apply take_app.
Qed.
Lemma part_length t s : s ∈ parts t -> length s <= length t.
Proof.
  intros Hs%elem_of_list_In. apply in_flat_map in Hs as (i & _ & Hs). apply in_map_iff in Hs as (n & <- & _).
  rewrite take_length, drop_length. lia.
Qed.
Lemma enough_fuel lc ses m' p (l : list str) : (forall s, s ∈ l -> exists r, finds lc ses m' s p r) ->
  exists F, forall s, s ∈ l -> exists r, finds lc ses m' s p r /\
    forall f order, F <= f -> some_order order -> find_variants lc ses f order m' s p = Ok r.
Proof.
  induction l as [|s l IH]; intros H; [exists 0; intros s Hs; inversion Hs|].
  destruct IH as [F HF]; [intros x Hx; apply H; by right|]. destruct (H s ltac:(left)) as (r & F' & Hr).
  exists (F + F'). intros x Hx. apply elem_of_cons in Hx as [->|Hx].
  - exists r. split; [by exists F'|]. intros f order Hf. apply Hr. lia.
  - destruct (HF x Hx) as (r' & Hr' & Hf'). exists r'. split; [done|]. intros f order Hf. apply Hf'. lia.
Qed.

Lemma search_succeeds lc ses ln32 ln ws solve alpha m m' t p :
  built m m' -> tame m p -> scorable m' -> solver_sound solve -> solver_complete solve -> 0 < p_max_seq p -> alpha 32%N = false ->
  (N.of_nat (length t) < 65281)%N ->
  exists F ms, forall lookup, looks_up lc ses F m' p lookup -> find_all_matches ln32 ln ws solve alpha lookup m' t p = Ok ms.
Proof.
  intros B T [S1 S2 S3] Hs Hc H0 Hsp Hl.
  assert (forall s, s ∈ parts t -> s <> [] -> exists ks, query m s ks) as Hq.
  { intros s Hin Hne. destruct (reads_total_unique (m_alphabet m) s (bt_alphabet _ _ B)) as (ks & Hr & _). exists ks.
    split; [done|by apply (reads_nonempty _ _ _ Hr)|]. pose proof (reads_shorter _ _ _ Hr). pose proof (part_length _ _ Hin). lia. }
  assert (forall s, s ∈ List.filter (fun s => negb (bool_decide (s = []))) (parts t) -> s ∈ parts t /\ s <> []) as Hp.
  { intros s Hin%elem_of_list_In. apply filter_In in Hin as [Hin Hb]. split; [by apply elem_of_list_In|].
    by destruct (bool_decide_reflect (s = [])). }
  destruct (enough_fuel lc ses m' p (List.filter (fun s => negb (bool_decide (s = []))) (parts t))) as [F HF].
  { intros s Hin. destruct (Hp s Hin) as [Hin' Hne]. destruct (Hq s Hin' Hne) as [ks Q]. by apply (total lc ses m m' s ks B Q p). }
  assert (forall s b e, at_bytes t b e s -> s <> [] -> exists r, Forall (fun v => vr_id v < length (m_decoder m')) r /\
    forall f order, F <= f -> some_order order -> find_variants lc ses f order m' s p = Ok r) as G.
  { intros s b e Hat Hne. pose proof (part_in t b e s Hat Hne) as Hin. destruct (HF s) as (r & Hr & Hf).
    { apply elem_of_list_In, filter_In. split; [by apply elem_of_list_In|]. by rewrite bool_decide_eq_false_2. }
    exists r. split; [|done]. destruct (Hq s Hin Hne) as [ks Q]. by eapply (result_ids lc ses m m' s ks p). }
  set (k0 := fun s => find_variants lc ses F (fun l => l) m' s p).
  assert (exists ms, find_all_matches ln32 ln ws solve alpha k0 m' t p = Ok ms) as [ms Hms].
  { pose proof (find_all_wp ln32 ln ws solve alpha k0 m' p t False (fun id => id < length (m_decoder m'))) as W.
    destruct (find_all_matches ln32 ln ws solve alpha k0 m' t p) as [ms|]; [by exists ms|]. exfalso. apply W; try done.
    - intros s b e Hat Hne. destruct (G s b e Hat Hne) as (r & Hr & Hf). unfold k0. rewrite (Hf F (fun l => l)); [done|lia|]. apply some_order_id.
    - intros id Hid. unfold entry_tokens. destruct (lookup_lt_is_Some_2 (m_decoder m') id Hid) as [v Hv].
      by rewrite (into_ngram_vng m' id v None Hv (S1 id v Hv)).
    - intros ids. unfold test_context_rules. destruct (test_rules_spec (m_context_rules m') (lex_sequence (m_decoder m') ids) S3) as (rs & apps & -> & _). done.
    - intros g l fin Hw R Hin E. by apply (Hc g (p_max_seq p) l fin). }
  exists F, ms. intros lookup Hk. rewrite <- Hms. apply find_all_ext. intros s b e Hat Hne.
  destruct (G s b e Hat Hne) as (r & _ & Hf). destruct (Hk s) as (f & order & Lf & Ho & ->). unfold k0.
  rewrite (Hf f order Lf Ho), (Hf F (fun l => l)); [done|lia|]. apply some_order_id.
Qed.

Lemma entry_tokens_ok m id : words_counted m -> id < length (m_decoder m) -> exists l, entry_tokens m id = Ok l.
Proof.
  intros Hw Hid. unfold entry_tokens. destruct (lookup_lt_is_Some_2 (m_decoder m) id Hid) as [v Hv].
  rewrite (into_ngram_vng m id v None Hv (Hw id v Hv)). by eexists.
Qed.
Lemma lm_score_ok ln32 ws m symbols bs : scorable m ->
  Forall (fun o => os_boundary o < length bs /\ os_vocab o < length (m_decoder m)) symbols ->
  exists tokens, lm_score ln32 ws m symbols bs =
    Ok (sequence_logprob ln32 (m_ngrams m) (Some BOS :: tokens ++ [Some EOS]),
        perplexity_of (S (length tokens)) (sequence_logprob ln32 (m_ngrams m) (Some BOS :: tokens ++ [Some EOS]))).
Proof.
  intros [S1 S2 _] H. unfold lm_score.
  assert (exists ts, rmapM (symbol_tokens ws m bs) symbols = Ok ts) as [ts ->].
  { induction H as [|o os [Hb Hv] _ [ts IH]]; [by exists []|]. cbn [rmapM].
    assert (exists l, symbol_tokens ws m bs o = Ok l) as [l ->].
    { unfold symbol_tokens. destruct (lookup_lt_is_Some_2 bs (os_boundary o) Hb) as [b Eb]. rewrite nth_error_lookup_eq, Eb. cbn [rexpect rbind].
      destruct (entry_tokens_ok m (os_vocab o) S1 Hv) as [own Eo].
      assert (exists own', (if os_vocab o =? 0 then Ok [None] else entry_tokens m (os_vocab o)) = Ok own') as [own' ->] by (destruct (_ =? 0); eauto).
      cbn [rbind]. destruct (trim ws (tm_text b)) as [|c r]; [by eexists|]. destruct (m_encoder m !! (c :: r)) as [id|] eqn:E; [|by eexists].
      destruct (entry_tokens_ok m id S1 (S2 _ _ E)) as [sep ->]. by eexists. }
    cbn [rbind]. rewrite IH. by eexists. }
  cbn [rbind]. rewrite lm_score_tokens_spec by done. exists (concat ts). cbn [length]. rewrite app_length. cbn [length].
  do 3 f_equal. lia.
Qed.
