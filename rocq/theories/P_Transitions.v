(** Proofs about the counts of a language model and transitions. *)
From Coq Require Import Lia.
From Verif Require Import M_Base M_Anahash M_Iter M_Distance M_Float M_Types M_Model M_Confusable M_Rules M_Search M_Text M_Matches M_Cli M_Main M_Options.
From Verif Require Import S_Anahash S_Model S_Search S_Confusable S_Rules S_Cli S_Main S_Options S_RuleFile S_Program S_Matches S_Transitions.
From Verif Require Import P_Base P_Model P_Start P_Contains.
From Verif Require P_Files P_Vocab P_Main P_RuleFile P_Count.
From stdpp Require Import options.

Lemma run_links_freq m L id v' : m_decoder m !! id = Some v' ->
  exists v, m_decoder (run_links m L) !! id = Some v /\ vv_text v = vv_text v' /\ vv_type v = vv_type v' /\ vv_frequency v = vv_frequency v'.
Proof.
  intros H. induction L as [|x L IH] using rev_ind; [eauto|]. destruct IH as (v1 & H1 & E1 & E2 & E3). rewrite P_Files.run_links_snoc.
  destruct (P_Files.link1_lookup _ x _ _ H1) as (g & Hg & _). eexists. split; [exact Hg|]. done.
Qed.
Lemma fields_text sep t t' ws : fields_of sep t ws -> fields_of sep t' ws -> t = t'.
Proof.
  intros H. revert t'. induction H as [f Hf|f rest fs Hf H IH]; intros t' H'; inversion H' as [f' Hf' E|f' rest' fs' Hf' H2 E]; subst; [done|by inversion H2|by inversion H|].
  f_equal. f_equal. by apply IH.
Qed.
Lemma selects_none {A} (P : A -> Prop) l : (forall x, x ∈ l -> ~ P x) -> selects P l [].
Proof. induction l as [|x l IH]; intros H; [constructor|]. constructor; [apply H; left|]. apply IH. intros y Hy. apply H. by right. Qed.
Lemma selects_one {A} (P : A -> Prop) l i x : l !! i = Some x -> P x -> (forall j y, l !! j = Some y -> P y -> j = i) -> selects P l [x].
Proof.
  revert i. induction l as [|y l IH]; intros [|i] E Hx U; [done|done| |].
  - injection E as ->. constructor; [done|]. apply selects_none. intros z Hz Pz. apply elem_of_list_lookup in Hz as (j & Hj). by specialize (U (S j) z Hj Pz).
  - constructor; [intros Py; by specialize (U 0 y eq_refl Py)|]. apply (IH i); [done|done|]. intros j z Hj Pz. specialize (U (S j) z Hj Pz). lia.
Qed.

Lemma run_adds_kept A w a r : run_adds (new_with_alphabet A w) a = Ok r -> ids_kept (new_with_alphabet A w) r.
Proof.
  intros H. assert (forall m m', run_adds m a = Ok m' -> run_calls (fun _ => None) m (map (fun x => S_Model.CAdd x.1.1 x.1.2 x.2) a) = Ok m') as K.
  { clear. induction a as [|x a IH]; intros m m' H; [exact H|]. unfold run_adds, run_calls in *. cbn in H |- *. destruct (rmap _ _) as [m1|]; [|done]. cbn in *. by apply IH. }
  apply (ids_bijection (fun _ => None) A w [] (map (fun x => S_Model.CAdd x.1.1 x.1.2 x.2) a)); [|done|by apply K].
  cbn [app]. clear. induction a; by constructor.
Qed.

Section counts.
  Context (m r : model) (A : alphabet) (w : weights) (a : list addition) (L : list link).
  Context (Hr : run_adds (new_with_alphabet A w) a = Ok r) (He : m_encoder m = m_encoder r) (Hd : m_decoder m = m_decoder (run_links r L)) (Hc : counts_say m).
  #[local] Set Default Proof Using "All".

  Lemma counts_inverse : lookups_inverse m.
  Proof.
    pose proof (P_Vocab.hi_inv _ _ (P_Vocab.history_run _ _ _ _ Hr)) as Iv.
    intros t id. rewrite He, Hd, (Iv t id). split; intros (v & D & Ht).
    - destruct (run_links_freq _ L _ _ D) as (v' & D' & E & _). exists v'. split; [done|congruence].
    - assert (exists v', m_decoder r !! id = Some v') as (v' & D') by (apply lookup_lt_is_Some_2; rewrite <- (run_links_len r L); by eapply lookup_lt_Some).
      destruct (run_links_freq _ L _ _ D') as (v1 & D1 & E & _). exists v'. split; [done|congruence].
  Qed.
  Lemma unknown_word : m_encoder m !! unk_text = Some UNK.
  Proof.
    destruct (run_adds_kept _ _ _ _ Hr 2 (special unk_text) eq_refl) as (v & D & Ht).
    rewrite He. apply (P_Vocab.hi_inv _ _ (P_Vocab.history_run _ _ _ _ Hr)). by exists v.
  Qed.
  Lemma reads_as t ws ids v : Forall2 (known_word m) ws ids -> fields_of 32 t ws -> entry_words m v ids <-> vv_text v = t.
  Proof.
    intros F Ht. assert (map (fun w => default UNK (m_encoder m !! w)) ws = ids) as E.
    { clear Ht. induction F as [|x i ws' ids' [Hx _] _ IH]; [done|]. cbn [map]. by rewrite Hx, IH. }
    split; [|intros Ev; exists ws; split; [by rewrite Ev|done]]. intros (ws' & Hf & E'). apply (fields_text 32 _ _ ws'); [done|]. assert (ws' = ws) as ->; [|done].
    clear Hf Ht E. subst ids. revert ws' F. induction ws as [|x ws IH]; intros [|x' ws'] F; [done|by inversion F|by inversion F|]. cbn [map] in F.
    apply Forall2_cons_1 in F as [[Hx Nx] F]. f_equal; [|by apply IH]. set (i := default UNK (m_encoder m !! x')) in Hx. assert (default UNK (m_encoder m !! x') = i) as E1 by done. clearbody i.
    assert (m_encoder m !! x' = Some i) as Hx'.
      { destruct (m_encoder m !! x') as [i'|]; [cbn in E1; congruence|]. cbn in E1. subst i. pose proof unknown_word as U.
        apply counts_inverse in U as (v1 & D1 & T1). apply counts_inverse in Hx as (v2 & D2 & T2). destruct Nx. congruence. }
      apply counts_inverse in Hx as (v1 & D1 & T1). apply counts_inverse in Hx' as (v2 & D2 & T2). congruence.
  Qed.
  Lemma entry_here t : about t a <> [] -> exists id v v', m_decoder m !! id = Some v /\ S_Model.entry r t v' /\ vv_text v = t /\ vv_type v = vv_type v' /\ vv_frequency v = vv_frequency v'.
  Proof.
    intros N. pose proof (P_Vocab.history_run _ _ _ _ Hr) as Hh. destruct (proj2 (P_Vocab.hi_texts _ _ Hh t)) as (id & Ei).
    { right. destruct (about t a) as [|x l] eqn:E; [done|]. assert (x ∈ about t a) as Hx by (rewrite E; left). unfold about in Hx.
      apply elem_of_list_filter in Hx as [Et Hx]. apply elem_of_list_fmap. by exists x. }
    pose proof Ei as Ei'. apply (P_Vocab.hi_inv _ _ Hh) in Ei' as (v' & D' & Ht). destruct (run_links_freq _ L _ _ D') as (v & D & E1 & E2 & E3).
    exists id, v, v'. rewrite Hd. split; [done|]. split; [by exists id|]. split; [congruence|done].
  Qed.
  Lemma one_entry t id v id' v' : m_decoder m !! id = Some v -> vv_text v = t -> m_decoder m !! id' = Some v' -> vv_text v' = t -> id' = id.
  Proof.
    intros D E D' E'. assert (m_encoder m !! t = Some id) as K by (apply counts_inverse; by exists v).
    assert (m_encoder m !! t = Some id') as K' by (apply counts_inverse; by exists v'). congruence.
  Qed.
  Context (Hmax : Forall (fun x => vp_freq_handling x.2 = FMax) a).
  Lemma counted t ws ids g x rest : Forall2 (known_word m) ws ids -> fields_of 32 t ws -> ng_to_vec g = ids -> about t a = x :: rest ->
    special_text t \/ flag (declared_type x) lm_bit = true ->
    exists n, m_ngrams m !! g = Some n /\ (exists y, y ∈ about t a /\ S_Model.given y = n) /\ forall y, y ∈ about t a -> (S_Model.given y <= n)%N.
  Proof.
    intros F Ht Hg Ea Hl. destruct (entry_here t) as (id & v & v' & D & En & E1 & E2 & E3); [by rewrite Ea|]. exists (vv_frequency v).
    assert (flag (vv_type v) lm_bit = true) as Fl.
    { rewrite E2. destruct (P_Vocab.special_dec t) as [Hs|Hs].
      - rewrite (P_Vocab.es_type_special _ _ _ _ (P_Vocab.hi_entry _ _ (P_Vocab.history_run _ _ _ _ Hr) _ _ En) Hs), Ea. done.
      - destruct Hl as [Hl|Hl]; [done|]. destruct (P_Vocab.flags_spec _ _ _ _ _ _ Hr En Hs) as (x' & rest' & Ea' & _ & Ef & _). rewrite Ea in Ea'. injection Ea' as <- _. by rewrite Ef. }
    split.
    - rewrite (cn_counts _ Hc g [v]); [cbn; by rewrite N.add_0_r|]. apply (selects_one _ _ id); [done| |].
      + split; [done|]. rewrite Hg. by apply (reads_as t ws).
      + intros j y Dj [_ Hy]. rewrite Hg in Hy. apply (reads_as t ws) in Hy; [|done|done]. by eapply one_entry.
    - assert (Forall (fun x => vp_freq_handling x.2 = FMax) (about t a)) as Fm by (rewrite Forall_forall in Hmax |- *; intros z Hz; apply Hmax; unfold about in Hz; by apply elem_of_list_filter in Hz as [_ Hz]).
      assert (forall l s, Forall (fun x => vp_freq_handling x.2 = FMax) l -> (fold_policy s l = s \/ exists y, y ∈ l /\ S_Model.given y = fold_policy s l) /\
        (s <= fold_policy s l)%N /\ forall y, y ∈ l -> (S_Model.given y <= fold_policy s l)%N) as K.
      { clear. induction l as [|y l IH]; intros s Fm; [split; [by left|]; split; [cbn; lia|intros y Hy; by apply elem_of_nil in Hy]|].
        inversion Fm as [|? ? Hy Fm']; subst. cbn [fold_policy foldl]. change (foldl _ ?s l) with (fold_policy s l). rewrite Hy. cbn [policy].
        destruct (IH (N.max s (S_Model.given y)) Fm') as (I1 & I2 & I3). split; [|split; [lia|]].
        - destruct I1 as [I1|(z & Hz & I1)]; [|right; exists z; split; [by right|done]]. rewrite I1. destruct (N.max_spec s (S_Model.given y)) as [[_ ->]|[_ ->]]; [|by left].
          right. exists y. split; [left|done].
        - intros z [->|Hz]%elem_of_cons; [lia|by apply I3]. }
      rewrite E3. destruct (P_Vocab.frequency_policy _ _ _ _ _ _ Hr En) as [Fs Fo]. destruct (P_Vocab.special_dec t) as [Hs|Hs].
      + rewrite (Fs Hs). destruct (K (about t a) 0%N Fm) as (I1 & I2 & I3). split; [|done]. destruct I1 as [I1|I1]; [|done].
        exists x. split; [rewrite Ea; left|]. assert (S_Model.given x <= fold_policy 0 (about t a))%N by (apply I3; rewrite Ea; left). lia.
      + destruct (Fo Hs) as (x' & rest' & Ea' & ->). rewrite Ea in Ea'. injection Ea' as <- <-. rewrite Ea in Fm |- *. inversion Fm as [|? ? _ Fm']; subst.
        destruct (K rest (S_Model.given x) Fm') as (I1 & I2 & I3). split.
        * destruct I1 as [I1|(y & Hy & I1)]; [exists x; split; [left|done]|exists y; split; [by right|done]].
        * intros y [->|Hy]%elem_of_cons; [done|by apply I3].
  Qed.
  Lemma uncounted t ws ids g : Forall2 (known_word m) ws ids -> fields_of 32 t ws -> ng_to_vec g = ids ->
    (about t a = [] \/ exists x rest, about t a = x :: rest /\ ~ special_text t /\ flag (declared_type x) lm_bit = false) -> m_ngrams m !! g = None.
  Proof.
    intros F Ht Hg Hn. rewrite (cn_counts _ Hc g []); [done|]. apply selects_none. intros v Hv [Fl Hw]. rewrite Hg in Hw. apply (reads_as t ws) in Hw; [|done|done].
    apply elem_of_list_lookup in Hv as (id & D). rewrite Hd in D.
    assert (exists v', m_decoder r !! id = Some v') as (v' & D') by (apply lookup_lt_is_Some_2; rewrite <- (run_links_len r L); by eapply lookup_lt_Some).
    destruct (run_links_freq _ L _ _ D') as (v1 & D1 & E1 & E2 & _). rewrite D in D1. injection D1 as <-. pose proof (P_Vocab.history_run _ _ _ _ Hr) as Hh.
    assert (S_Model.entry r t v') as En by (exists id; split; [apply (P_Vocab.hi_inv _ _ Hh); exists v'; split; [done|congruence]|done]).
    rewrite E2 in Fl. destruct Hn as [Hn|(x & rest & Ea & Hs & Hx)].
    - destruct (P_Vocab.special_dec t) as [Hs|Hs].
      + rewrite (P_Vocab.es_type_special _ _ _ _ (P_Vocab.hi_entry _ _ Hh _ _ En) Hs), Hn in Fl. done.
      + destruct (P_Vocab.flags_spec _ _ _ _ _ _ Hr En Hs) as (x' & rest' & Ea' & _). congruence.
    - destruct (P_Vocab.flags_spec _ _ _ _ _ _ Hr En Hs) as (x' & rest' & Ea' & _ & Ef & _). rewrite Ea in Ea'. injection Ea' as <- _. congruence.
  Qed.
End counts.

(** * Files *)
Lemma line_adds_det p x y y' : line_adds p x y -> line_adds p x y' -> y' = y.
Proof.
  intros (fs & t & F & Ht & f & -> & Hf) (fs' & t' & F' & Ht' & f' & -> & Hf').
  apply P_Vocab.fields_det in F, F'. subst fs'. rewrite <- F in *. rewrite Ht in Ht'. injection Ht' as <-.
  assert (f' = f) as ->; [|done]. destruct (vp_freq_column p) as [c|]; [|congruence].
  destruct (fs !! c); [|congruence]. apply P_Vocab.parse_uint_spec in Hf, Hf'. congruence.
Qed.
Lemma lines_give i ty f adds : Forall2 (line_adds (default_params i ty)) (filter (fun l => l <> []) (f_lines f)) adds ->
  Forall (fun x => x.2 = default_params i ty) adds /\
  forall t n, (exists x, x ∈ adds /\ x.1.1 = t /\ S_Model.given x = n) <-> line_gives f t n.
Proof.
  intros F. assert (forall l x, line_adds (default_params i ty) l x -> exists n, x = (x.1.1, Some n, default_params i ty) /\ line_adds (default_params 0 VT_LM) l (x.1.1, Some n, default_params 0 VT_LM)) as K1.
  { intros l x (fl & t & H1 & H2 & n & -> & H3). exists n. split; [done|]. exists fl, t. split; [done|]. split; [done|]. by exists n. }
  assert (forall l t n, line_adds (default_params 0 VT_LM) l (t, Some n, default_params 0 VT_LM) -> line_adds (default_params i ty) l (t, Some n, default_params i ty)) as K2.
  { intros l t n (fl & t' & H1 & H2 & n' & [= -> ->] & H3). exists fl, t'. split; [done|]. split; [done|]. by exists n'. }
  split.
  - apply Forall_forall. intros x Hx. apply elem_of_list_lookup in Hx as (k & Hk). destruct (Forall2_lookup_r _ _ _ _ _ F Hk) as (l & _ & Hl).
    destruct (K1 l x Hl) as (n & -> & _). done.
  - intros t n. split.
    + intros (x & Hx & Et & En). apply elem_of_list_lookup in Hx as (k & Hk). destruct (Forall2_lookup_r _ _ _ _ _ F Hk) as (l & Hl & Ha).
      apply elem_of_list_lookup_2, elem_of_list_filter in Hl as [Hl1 Hl2]. destruct (K1 l x Ha) as (n' & E & Ha'). exists l. split; [done|]. split; [done|].
      rewrite E in En. cbn in En. subst n'. by rewrite <- Et.
    + intros (l & H1 & H2 & Ha). assert (l ∈ filter (fun l => l <> []) (f_lines f)) as Hl by (by apply elem_of_list_filter).
      apply elem_of_list_lookup in Hl as (k & Hk). destruct (Forall2_lookup_l _ _ _ _ _ F Hk) as (x & Hx & Hx'). exists x. split; [by eapply elem_of_list_lookup_2|].
      apply K2 in Ha. pose proof (line_adds_det _ _ _ _ Ha Hx') as ->. done.
Qed.

Lemma source_adds pf i s a l : source_says pf i s a l ->
  Forall (fun x => vp_freq_handling x.2 = FMax /\ flag (declared_type x) lm_bit = match s with Given _ => false | Lm _ => true end) a.
Proof.
  assert (forall i ty f adds, Forall2 (line_adds (default_params i ty)) (filter (fun l => l <> []) (f_lines f)) adds ->
    Forall (fun x => vp_freq_handling x.2 = FMax /\ flag (declared_type x) lm_bit = flag ty lm_bit) adds) as K.
  { intros j ty f adds F. destruct (lines_give _ _ _ _ F) as [F' _]. eapply Forall_impl; [exact F'|]. intros x E. unfold declared_type. by rewrite E. }
  assert (forall p q es, vp_freq_handling p = FMax -> vp_freq_handling q = FMax -> flag (vp_vocab_type p) lm_bit = false -> flag (vp_vocab_type q) lm_bit = false ->
    Forall (fun x : addition => vp_freq_handling x.2 = FMax /\ flag (declared_type x) lm_bit = false) (concat (map (line_additions p q) es))) as K'.
  { intros p q es H1 H2 H3 H4. apply Forall_forall. intros x Hx. apply elem_of_list_In, in_concat in Hx as (y & Hy & Hx). apply in_map_iff in Hy as (e & <- & _).
    apply elem_of_list_In in Hx. unfold line_additions in Hx. apply elem_of_cons in Hx as [->|Hx]; [done|]. by apply elem_of_list_fmap in Hx as (z & -> & _). }
  intros H. destruct H as [f adds F|f adds F|f es F|f es F].
  - exact (K _ _ _ _ F).
  - exact (K _ _ _ _ F).
  - by apply K'.
  - by apply K'.
Qed.
Lemma sources_app pf ss1 : forall i ss2 a l, sources_say pf i (ss1 ++ ss2) a l ->
  exists a1 l1 a2 l2, sources_say pf i ss1 a1 l1 /\ sources_say pf (i + length ss1) ss2 a2 l2 /\ a = a1 ++ a2 /\ l = l1 ++ l2.
Proof.
  induction ss1 as [|s ss1 IH]; intros i ss2 a l H.
  - exists [], [], a, l. cbn [app length] in *. rewrite Nat.add_0_r. split; [constructor|done].
  - inversion H as [|? ? ? a1 l1 a2 l2 H1 H2]; subst. destruct (IH _ _ _ _ H2) as (b1 & k1 & b2 & k2 & G1 & G2 & -> & ->).
    exists (a1 ++ b1), (l1 ++ k1), b2, k2. cbn [length]. rewrite <- Nat.add_succ_comm, !app_assoc. split; [by constructor|done].
Qed.
Lemma sources_all pf i ss a l : sources_say pf i ss a l ->
  Forall (fun x => vp_freq_handling x.2 = FMax) a /\
  (forall t, (exists x, x ∈ a /\ x.1.1 = t) <-> exists s, s ∈ ss /\ mentions pf s t) /\
  (given_sources ss -> Forall (fun x => flag (declared_type x) lm_bit = false) a) /\
  forall lms, ss = map Lm lms -> Forall (fun x => flag (declared_type x) lm_bit = true) a /\
    forall t n, (exists x, x ∈ a /\ x.1.1 = t /\ S_Model.given x = n) <-> exists f, f ∈ lms /\ line_gives f t n.
Proof.
  intros H. induction H as [i|i s ss a l a' l' Hs _ (I1 & I2 & I3 & I4)].
  - split; [constructor|]. split; [intros t; split; [intros (x & Hx & _); by apply elem_of_nil in Hx|intros (x & Hx & _); by apply elem_of_nil in Hx]|]. split; [constructor|].
    intros [|f lms] E; [|done]. split; [constructor|]. intros t n. split; [intros (x & Hx & _); by apply elem_of_nil in Hx|intros (x & Hx & _); by apply elem_of_nil in Hx].
  - pose proof (source_adds _ _ _ _ _ Hs) as F. split; [|split; [|split]].
    + apply Forall_app. split; [|done]. eapply Forall_impl; [exact F|]. by intros x [? _].
    + intros t. destruct (P_Main.mentions_says pf _ _ _ _ t Hs) as [M _]. split.
      * intros (x & [Hx|Hx]%elem_of_app & Et); [exists s; split; [left|]; apply M; by exists x|]. destruct (proj1 (I2 t)) as (s' & Hs' & Hm); [by exists x|]. exists s'. split; [by right|done].
      * intros (s' & [->|Hs']%elem_of_cons & Hm).
        -- apply M in Hm as (x & Hx & Et). exists x. split; [apply elem_of_app; by left|done].
        -- destruct (proj2 (I2 t)) as (x & Hx & Et); [by exists s'|]. exists x. split; [apply elem_of_app; by right|done].
    + intros G. inversion G as [|? ? [r ->] G']; subst. apply Forall_app. split; [|by apply I3]. eapply Forall_impl; [exact F|]. by intros x [_ ?].
    + intros [|f lms] E; [done|]. injection E as -> ->. destruct (I4 lms eq_refl) as [J1 J2]. inversion Hs as [|? adds Hf| |]; subst. split.
      * apply Forall_app. split; [|done]. eapply Forall_impl; [exact F|]. by intros x [_ ?].
      * intros t n. destruct (lines_give _ _ _ _ Hf) as [_ M]. specialize (M t n). split.
        -- intros (x & [Hx|Hx]%elem_of_app & G); [exists f; split; [left|]; apply M; by exists x|]. destruct (proj1 (J2 t n)) as (f' & Hf' & Hm); [by exists x|]. exists f'. split; [by right|done].
        -- intros (f' & [->|Hf']%elem_of_cons & Hm).
           ++ apply M in Hm as (x & Hx & G). exists x. split; [apply elem_of_app; by left|done].
           ++ destruct (proj2 (J2 t n)) as (x & Hx & G); [by exists f'|]. exists x. split; [apply elem_of_app; by right|done].
Qed.
Lemma about_elem t a x : x ∈ about t a <-> x ∈ a /\ x.1.1 = t.
Proof. unfold about. rewrite elem_of_list_filter. tauto. Qed.
Lemma about_none t a : (forall x, x ∈ a -> x.1.1 <> t) -> about t a = [].
Proof. intros H. destruct (about t a) as [|x l] eqn:E; [done|]. assert (x ∈ about t a) as Hx by (rewrite E; left). apply about_elem in Hx as [Hx Et]. by destruct (H x Hx). Qed.

Section tool.
  Context (ws : N -> bool) (pf : str -> option f64) (pf32 : str -> option f32) (ps : str -> option (list edit_instruction)).
  Context (fs : str -> option (list (option str))) (c : command) (ts : list typed) (m : model) (gs : list source) (lms : list file).
  Context (C : contents_say ws pf pf32 ps fs c ts m) (K : counts_say m) (S : sources_typed fs ts (gs ++ map Lm lms)) (G : given_sources gs).
  #[local] Set Default Proof Using "All".

  Lemma counts_listed t words ids g : Forall2 (known_word m) words ids -> fields_of 32 t words -> ng_to_vec g = ids ->
    ~ special_text t -> listed pf gs t -> m_ngrams m !! g = None.
  Proof.
    intros F Ht Hg Hs Hl. destruct (cs_entries _ _ _ _ _ _ _ _ C) as (ss & a & l & r & L & Hss & Ha & Hr & _ & He & Hd & _).
    rewrite (sources_typed_det _ _ _ _ Hss S) in Ha. apply sources_app in Ha as (a1 & l1 & a2 & l2 & Ha1 & Ha2 & -> & ->).
    destruct (sources_all _ _ _ _ _ Ha1) as (F1 & M1 & G1 & _). destruct (sources_all _ _ _ _ _ Ha2) as (F2 & _). specialize (G1 G). destruct (proj2 (M1 t) Hl) as (x & Hx & Et).
    apply (uncounted m r _ _ _ L Hr He Hd K ltac:(by apply Forall_app) t words ids g F Ht Hg). right. rewrite P_Vocab.about_app.
    destruct (about t a1) as [|y rest] eqn:E.
    { assert (x ∈ about t a1) as Hx' by (by apply about_elem). rewrite E in Hx'. by apply elem_of_nil in Hx'. }
    exists y, (rest ++ about t a2). split; [done|]. split; [done|]. rewrite Forall_forall in G1. apply G1.
    assert (y ∈ about t a1) as Hy by (rewrite E; left). by apply about_elem in Hy as [Hy _].
  Qed.
  Lemma counts_greatest t words ids g n : Forall2 (known_word m) words ids -> fields_of 32 t words -> ng_to_vec g = ids ->
    ~ listed pf gs t -> greatest_count lms t n -> m_ngrams m !! g = Some n.
  Proof.
    intros F Ht Hg Hl [(f & Hf & Hn) Hmax]. destruct (cs_entries _ _ _ _ _ _ _ _ C) as (ss & a & l & r & L & Hss & Ha & Hr & _ & He & Hd & _).
    rewrite (sources_typed_det _ _ _ _ Hss S) in Ha. apply sources_app in Ha as (a1 & l1 & a2 & l2 & Ha1 & Ha2 & -> & ->).
    destruct (sources_all _ _ _ _ _ Ha1) as (F1 & M1 & _ & _). destruct (sources_all _ _ _ _ _ Ha2) as (F2 & _ & _ & G2). destruct (G2 lms eq_refl) as [T2 M2].
    assert (about t (a1 ++ a2) = about t a2) as Ea.
    { rewrite P_Vocab.about_app, about_none; [done|]. intros x Hx Et. apply Hl, M1. by exists x. }
    destruct (proj2 (M2 t n)) as (x & Hx & Et & En); [by exists f|].
    destruct (about t a2) as [|y rest] eqn:E.
    { assert (x ∈ about t a2) as Hx' by (by apply about_elem). rewrite E in Hx'. by apply elem_of_nil in Hx'. }
    destruct (counted m r _ _ _ L Hr He Hd K ltac:(by apply Forall_app) t words ids g y rest F Ht Hg Ea) as (n' & -> & (z & Hz & Ez) & U).
    { right. rewrite Forall_forall in T2. apply T2. assert (y ∈ about t a2) as Hy by (rewrite E; left). by apply about_elem in Hy as [Hy _]. }
    rewrite Ea, <- E in Hz, U. f_equal. apply about_elem in Hz as [Hz Hzt]. destruct (proj1 (M2 t n')) as (f' & Hf' & Hn'); [by exists z|].
    specialize (Hmax f' n' Hf' Hn'). assert (S_Model.given x <= n')%N by (apply U; by apply about_elem). lia.
  Qed.
  Lemma counts_none t words ids g : Forall2 (known_word m) words ids -> fields_of 32 t words -> ng_to_vec g = ids ->
    ~ listed pf gs t -> no_count lms t -> m_ngrams m !! g = None.
  Proof.
    intros F Ht Hg Hl Hn. destruct (cs_entries _ _ _ _ _ _ _ _ C) as (ss & a & l & r & L & Hss & Ha & Hr & _ & He & Hd & _).
    rewrite (sources_typed_det _ _ _ _ Hss S) in Ha. apply sources_app in Ha as (a1 & l1 & a2 & l2 & Ha1 & Ha2 & -> & ->).
    destruct (sources_all _ _ _ _ _ Ha1) as (F1 & M1 & _ & _). destruct (sources_all _ _ _ _ _ Ha2) as (F2 & _ & _ & G2). destruct (G2 lms eq_refl) as [T2 M2].
    apply (uncounted m r _ _ _ L Hr He Hd K ltac:(by apply Forall_app) t words ids g F Ht Hg). left. rewrite P_Vocab.about_app, !about_none; [done| |].
    - intros x Hx Et. destruct (proj1 (M2 t (S_Model.given x))) as (f & Hf & Hf'); [by exists x|]. by apply (Hn f (S_Model.given x) Hf).
    - intros x Hx Et. apply Hl, M1. by exists x.
  Qed.
End tool.

Lemma fields_pair u v : 32%N ∉ u -> 32%N ∉ v -> fields_of 32 (u ++ 32%N :: v) [u; v].
Proof. intros H1 H2. by apply fields_next; [|apply fields_last]. Qed.
Section values.
  Context (ws : N -> bool) (pf : str -> option f64) (pf32 : str -> option f32) (ps : str -> option (list edit_instruction)).
  Context (fs : str -> option (list (option str))) (c : command) (ts : list typed) (m : model) (gs : list source) (lms : list file).
  Context (C : contents_say ws pf pf32 ps fs c ts m) (K : counts_say m) (S : sources_typed fs ts (gs ++ map Lm lms)) (G : given_sources gs).
  #[local] Set Default Proof Using "All".
  Lemma transition_share ln u v a b n k : known_word m u a -> known_word m v b -> 32%N ∉ u -> 32%N ∉ v ->
    ~ listed pf gs u -> ~ listed pf gs (u ++ 32%N :: v) -> greatest_count lms u k -> greatest_count lms (u ++ 32%N :: v) n -> (n <= k)%N ->
    transition_value ln (m_ngrams m) (Some a, Some b) = ln (f32div (f32_of_N n) (f32_of_N k)).
  Proof.
    intros Hu Hv Su Sv Lu Lp Ck Cn Hle. unfold transition_value.
    rewrite (counts_greatest ws pf pf32 ps fs c ts m gs lms C K S G (u ++ 32%N :: v) [u; v] [a; b] (NBi a b) n); [|eauto using Forall2_cons, Forall2_nil|apply (fields_pair u v Su Sv)|done|done|done].
    rewrite (counts_greatest ws pf pf32 ps fs c ts m gs lms C K S G u [u] [a] (NUni a) k); [|eauto using Forall2_cons, Forall2_nil|by apply fields_last|done|done|done].
    cbn [default]. rewrite bool_decide_false; [done|]. cbn. lia.
  Qed.
  Lemma transition_unseen ln u v a b : known_word m u a -> known_word m v b -> 32%N ∉ u -> 32%N ∉ v ->
    ~ listed pf gs (u ++ 32%N :: v) -> no_count lms (u ++ 32%N :: v) ->
    transition_value ln (m_ngrams m) (Some a, Some b) = smoothing.
  Proof.
    intros Hu Hv Su Sv Lp Cn. unfold transition_value.
    rewrite (counts_none ws pf pf32 ps fs c ts m gs lms C K S G (u ++ 32%N :: v) [u; v] [a; b] (NBi a b)); [done|eauto using Forall2_cons, Forall2_nil|apply (fields_pair u v Su Sv)|done|done|done].
  Qed.
  Lemma transition_listed ln u v a b n : known_word m u a -> known_word m v b -> 32%N ∉ u -> 32%N ∉ v -> ~ special_text u ->
    listed pf gs u -> ~ listed pf gs (u ++ 32%N :: v) -> greatest_count lms (u ++ 32%N :: v) n -> (1 < n < 4294967296)%N ->
    transition_value ln (m_ngrams m) (Some a, Some b) = ln (f32_of_N n) /\ (log32_like ln -> flt f0 (transition_value ln (m_ngrams m) (Some a, Some b)) = true).
  Proof.
    intros Hu Hv Su Sv Nu Lu Lp Cn Hn. assert (transition_value ln (m_ngrams m) (Some a, Some b) = ln (f32_of_N n)) as E.
    { unfold transition_value.
      rewrite (counts_greatest ws pf pf32 ps fs c ts m gs lms C K S G (u ++ 32%N :: v) [u; v] [a; b] (NBi a b) n); [|eauto using Forall2_cons, Forall2_nil|apply (fields_pair u v Su Sv)|done|done|done].
      rewrite (counts_listed ws pf pf32 ps fs c ts m gs lms C K S G u [u] [a] (NUni a)); [|eauto using Forall2_cons, Forall2_nil|by apply fields_last|done|done|done].
      cbn [default]. rewrite bool_decide_true; [done|]. cbn. lia. }
    split; [done|]. intros L. rewrite E. apply (l32_high _ L). by apply P_Count.count_above.
  Qed.
End values.

(** * The rows of a file *)
Definition row_of (l : str) : list (str * N) :=
  match split_on 9 l with
  | [] => []
  | [t] => [(t, 1%N)]
  | t :: s :: _ => match parse_uint 4294967295 s with Some n => [(t, n)] | None => [] end
  end.
Definition rows_of (f : file) : list (str * N) := concat (map row_of (filter (fun l => l <> []) (f_lines f))).
Lemma row_iff l t n : line_adds (default_params 0 VT_LM) l (t, Some n, default_params 0 VT_LM) <-> (t, n) ∈ row_of l.
Proof.
  unfold line_adds, row_of. split.
  - intros (fs & t' & F & Ht & n' & E & Hn). apply P_Vocab.fields_det in F. rewrite <- F. injection E as <- <-. destruct fs as [|x [|y fs]]; [done| |]; cbn in Ht, Hn; injection Ht as ->.
    + rewrite Hn. left.
    + apply P_Vocab.parse_uint_spec in Hn. rewrite Hn. left.
  - intros H. exists (split_on 9 l), t. split; [by apply P_RuleFile.fields_split|]. destruct (split_on 9 l) as [|x [|y fs]]; [by apply elem_of_nil in H| |].
    + apply elem_of_list_singleton in H. injection H as -> ->. split; [done|]. by exists 1%N.
    + destruct (parse_uint 4294967295 y) as [k|] eqn:E; [|by apply elem_of_nil in H]. apply elem_of_list_singleton in H. injection H as -> ->. split; [done|]. exists k. split; [done|].
      cbn. by apply P_Vocab.parse_uint_spec.
Qed.
Lemma rows_iff f t n : line_gives f t n <-> (t, n) ∈ rows_of f.
Proof.
  unfold line_gives, rows_of. rewrite elem_of_list_In, in_concat. split.
  - intros (l & H1 & H2 & H3). exists (row_of l). split; [apply in_map, elem_of_list_In, elem_of_list_filter; done|]. by apply elem_of_list_In, row_iff.
  - intros (x & Hx & Hin). apply in_map_iff in Hx as (l & <- & Hl). apply elem_of_list_In, elem_of_list_filter in Hl as [H1 H2]. exists l. split; [done|]. split; [done|]. by apply row_iff, elem_of_list_In.
Qed.
Lemma greatest_rows lms t n : (t, n) ∈ concat (map rows_of lms) -> forallb (fun x => negb (bool_decide (x.1 = t)) || (x.2 <=? n)%N) (concat (map rows_of lms)) = true -> greatest_count lms t n.
Proof.
  intros H F. split.
  - apply elem_of_list_In, in_concat in H as (x & Hx & H). apply in_map_iff in Hx as (f & <- & Hf). exists f. split; [by apply elem_of_list_In|]. by apply rows_iff, elem_of_list_In.
  - intros f n' Hf Hn. rewrite forallb_forall in F. specialize (F (t, n')). cbn in F. rewrite bool_decide_true in F by done. cbn in F. apply N.leb_le, F.
    apply in_concat. exists (rows_of f). split; [by apply in_map, elem_of_list_In|]. by apply elem_of_list_In, rows_iff.
Qed.
