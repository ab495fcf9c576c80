(** Proofs about vocabulary, index and variant links. *)
From Coq Require Import Lia.
From Verif Require Import M_Base M_Anahash M_Iter M_Float M_Types M_Model S_Anahash S_Model M_Distance P_Base P_Anahash.
From stdpp Require Import options.

Ltac inv_bind H := apply rbind_ok in H as (? & ? & H).

Lemma rexpect_ok {A} (o : option A) x : rexpect o = Ok x <-> o = Some x.
Proof. destruct o; cbn; split; congruence. Qed.

Lemma rfoldl_inv {A B} (P : B -> Prop) (f : B -> A -> res B) l acc acc' :
  (forall b a b', P b -> f b a = Ok b' -> P b') -> P acc -> rfoldl f acc l = Ok acc' -> P acc'.
Proof.
  intros Hf. revert acc. induction l as [|a l IH]; intros acc Ha; cbn; [congruence|].
  intros H. inv_bind H. eauto.
Qed.

(** ** The vocabulary as a bijection *)

(** what every operation preserves, relating the state before and after *)
Record grows (m m' : model) : Prop := {
  g_alphabet : m_alphabet m' = m_alphabet m;
  g_kept : forall id v, m_decoder m !! id = Some v ->
    exists v', m_decoder m' !! id = Some v' /\ vv_text v' = vv_text v /\ vv_norm v' = vv_norm v /\
      vv_tokencount v' = vv_tokencount v;
}.
Lemma grows_refl m : grows m m.
Proof. split; [done|]. eauto. Qed.
Lemma grows_trans m1 m2 m3 : grows m1 m2 -> grows m2 m3 -> grows m1 m3.
Proof.
  intros [A1 K1] [A2 K2]. split; [congruence|].
  intros id v H. destruct (K1 id v H) as (v2 & H2 & E1 & E2 & E3).
  destruct (K2 id v2 H2) as (v3 & H3 & F1 & F2 & F3). exists v3.
  split; [done|]. split; [congruence|]. split; congruence.
Qed.

Lemma update_item_fields id v f p v' :
  update_item id v f p = Ok v' ->
  vv_text v' = vv_text v /\ vv_norm v' = vv_norm v /\ vv_tokencount v' = vv_tokencount v /\
  vv_variants v' = vv_variants v /\
  update_frequency (vp_freq_handling p) (vv_frequency v) f = Ok (vv_frequency v') /\
  (exists bit, shl1 (vp_index p) = Ok bit /\ vv_lexindex v' = N.lor (vv_lexindex v) bit) /\
  vv_type v' = update_type id (vv_type v) (vp_vocab_type p).
Proof.
  unfold update_item. intros H. apply rbind_ok in H as (x & E1 & H).
  apply rbind_ok in H as (b & E2 & H). injection H as <-. cbn. eauto 10.
Qed.

Lemma new_item_fields A t f p v :
  new_item A t f p = Ok v ->
  vv_text v = t /\ normalize_to_alphabet A t = Ok (vv_norm v) /\
  u8_succ (as_u8 (count_spaces t)) = Ok (vv_tokencount v) /\ vv_variants v = None /\
  vv_frequency v = f /\ shl1 (vp_index p) = Ok (vv_lexindex v) /\ vv_type v = vp_vocab_type p.
Proof.
  unfold new_item. intros H. apply rbind_ok in H as (x & E1 & H).
  apply rbind_ok in H as (b & E2 & H). apply rbind_ok in H as (c & E3 & H). injection H as <-. cbn. eauto 10.
Qed.

(** the two outcomes of an addition *)
Lemma add_cases m t f p m' id :
  add_to_vocabulary m t f p = Ok (m', id) ->
  (exists item item', m_encoder m !! t = Some id /\ m_decoder m !! id = Some item /\
     update_item id item (default 1%N f) p = Ok item' /\
     m' = with_vocab m (<[id := item']> (m_decoder m)) (m_encoder m)) \/
  (exists item, m_encoder m !! t = None /\ id = length (m_decoder m) /\
     new_item (m_alphabet m) t (default 1%N f) p = Ok item /\
     m' = with_vocab m (m_decoder m ++ [item]) (<[t := id]> (m_encoder m))).
Proof.
  unfold add_to_vocabulary. destruct (m_encoder m !! t) as [i|] eqn:E; intros H.
  - left. apply rbind_ok in H as (item & E1%rexpect_ok & H). apply rbind_ok in H as (item' & E2 & H).
    injection H as <- <-. eauto 10.
  - right. apply rbind_ok in H as (item & E1 & H). injection H as <- <-. eauto 10.
Qed.

Lemma add_wf m t f p m' id :
  lookups_inverse m -> add_to_vocabulary m t f p = Ok (m', id) ->
  lookups_inverse m' /\ grows m m' /\ exists v, m_decoder m' !! id = Some v /\ vv_text v = t.
Proof.
  intros W H. apply add_cases in H as [(item & item' & E & D & U & ->)|(item & E & -> & U & ->)].
  - apply update_item_fields in U as (T & Nm & Tc & _).
    assert (id < length (m_decoder m)) as L by (by eapply lookup_lt_Some).
    assert (vv_text item = t) as Ti.
    { apply W in E as (v & D' & Tv). congruence. }
    split; [|split].
    + intros t' id'. cbn. rewrite (W t' id'). destruct (decide (id' = id)) as [->|Hne].
      * rewrite list_lookup_insert by done. split.
        -- intros (v & D' & Tv). exists item'. split; [done|]. congruence.
        -- intros (v & [= <-] & Tv). exists item. split; [done|]. congruence.
      * rewrite list_lookup_insert_ne by congruence. done.
    + split; [done|]. intros id' v D'. cbn. destruct (decide (id' = id)) as [->|Hne].
      * rewrite list_lookup_insert by done. exists item'. split; [done|].
        assert (v = item) as -> by congruence. done.
      * rewrite list_lookup_insert_ne by congruence. eauto.
    + cbn. rewrite list_lookup_insert by done. exists item'. split; [done|congruence].
  - apply new_item_fields in U as (T & Nm & Tc & _). split; [|split].
    + intros t' id'. cbn. destruct (decide (t' = t)) as [->|Hne].
      * rewrite lookup_insert. split.
        -- intros [= <-]. exists item. split; [|done]. by rewrite list_lookup_middle.
        -- intros (v & D' & Tv). destruct (decide (id' < length (m_decoder m))) as [L|L].
           ++ rewrite lookup_app_l in D' by done.
              assert (m_encoder m !! t = Some id') by (apply W; eauto). congruence.
           ++ rewrite lookup_app_r in D' by lia.
              destruct (id' - length (m_decoder m)) as [|k] eqn:Ek; [|done]. f_equal. lia.
      * rewrite lookup_insert_ne by congruence. rewrite (W t' id'). split.
        -- intros (v & D' & Tv). exists v. split; [|done]. rewrite lookup_app_l; [done|]. by eapply lookup_lt_Some.
        -- intros (v & D' & Tv). destruct (decide (id' < length (m_decoder m))) as [L|L].
           ++ rewrite lookup_app_l in D' by done. eauto.
           ++ rewrite lookup_app_r in D' by lia.
              destruct (id' - length (m_decoder m)) as [|k] eqn:Ek; [|done]. injection D' as <-. congruence.
    + split; [done|]. intros id' v D'. cbn. exists v. split; [|done]. rewrite lookup_app_l; [done|]. by eapply lookup_lt_Some.
    + cbn. exists item. split; [|done]. by rewrite list_lookup_middle.
Qed.

(** changing entries without touching their texts *)
Lemma update_decoder_lookup dec i f j v :
  update_decoder dec i f !! j = Some v <->
  (i = j /\ exists w, dec !! j = Some w /\ v = f w) \/ (i <> j /\ dec !! j = Some v).
Proof.
  unfold update_decoder. destruct (decide (i = j)) as [->|Hne].
  - destruct (dec !! j) as [w|] eqn:D.
    + rewrite list_lookup_insert by (by eapply lookup_lt_Some). split.
      * intros [= <-]. left. eauto.
      * intros [(_ & w' & [= <-] & ->)|[? ?]]; [done|done].
    + rewrite D. split; [done|]. intros [(_ & w' & ? & _)|[? ?]]; done.
  - destruct (dec !! i) as [w|] eqn:D.
    + rewrite list_lookup_insert_ne by done. split; [intros H; right; done|]. intros [(? & _)|[_ ?]]; done.
    + split; [intros H; right; done|]. intros [(? & _)|[_ ?]]; done.
Qed.

Lemma update_decoder_wf m i f :
  (forall v, vv_text (f v) = vv_text v /\ vv_norm (f v) = vv_norm v /\ vv_tokencount (f v) = vv_tokencount v) ->
  lookups_inverse m ->
  lookups_inverse (with_vocab m (update_decoder (m_decoder m) i f) (m_encoder m)) /\
  grows m (with_vocab m (update_decoder (m_decoder m) i f) (m_encoder m)).
Proof.
  intros Hf W. split.
  - intros t id. cbn. rewrite (W t id). split.
    + intros (v & D & T). destruct (decide (i = id)) as [->|Hne].
      * exists (f v). split; [apply update_decoder_lookup; left; eauto|]. by rewrite (proj1 (Hf v)).
      * exists v. split; [apply update_decoder_lookup; right; eauto|done].
    + intros (v & D & T). apply update_decoder_lookup in D as [(-> & w & D & ->)|[_ D]].
      * exists w. split; [done|]. by rewrite <- (proj1 (Hf w)).
      * eauto.
  - split; [done|]. intros id v D. cbn. destruct (decide (i = id)) as [->|Hne].
    + exists (f v). split; [apply update_decoder_lookup; left; eauto|]. apply Hf.
    + exists v. split; [apply update_decoder_lookup; right; eauto|done].
Qed.

Lemma link_wf m r v s :
  lookups_inverse m -> lookups_inverse (add_variant_by_id m r v s).1 /\ grows m (add_variant_by_id m r v s).1.
Proof.
  intros W. unfold add_variant_by_id. destruct (v =? r)%nat; cbn [negb fst].
  { split; [done|apply grows_refl]. }
  match goal with |- context [update_decoder (m_decoder m) r ?f] => set (f1 := f) end.
  match goal with |- context [update_decoder _ v ?f] => set (f2' := f) end.
  destruct (update_decoder_wf m r f1) as [W1 G1]; [done|done|].
  destruct (update_decoder_wf (with_vocab m (update_decoder (m_decoder m) r f1) (m_encoder m)) v f2') as [W2 G2]; [done|done|].
  split; [exact W2|]. eapply grows_trans; [exact G1|exact G2].
Qed.

Definition same_vocab (m m' : model) : Prop :=
  m_decoder m' = m_decoder m /\ m_encoder m' = m_encoder m /\ m_alphabet m' = m_alphabet m.
Lemma same_vocab_wf m m' : same_vocab m m' -> lookups_inverse m -> lookups_inverse m' /\ grows m m'.
Proof.
  intros (D & E & A) W. split.
  - intros t id. rewrite D, E. apply W.
  - split; [done|]. intros id v. rewrite D. eauto.
Qed.

Definition keeps (m m' : model) : Prop := lookups_inverse m -> lookups_inverse m' /\ grows m m'.
Lemma keeps_refl m : keeps m m.
Proof. intros W. split; [done|apply grows_refl]. Qed.
Lemma keeps_trans m1 m2 m3 : keeps m1 m2 -> keeps m2 m3 -> keeps m1 m3.
Proof.
  intros H1 H2 W. destruct (H1 W) as [W2 G1]. destruct (H2 W2) as [W3 G2]. split; [done|].
  by eapply grows_trans.
Qed.
Lemma add_keeps m t f p m' id : add_to_vocabulary m t f p = Ok (m', id) -> keeps m m'.
Proof. intros H W. destruct (add_wf m t f p m' id W H) as (W' & G & _). done. Qed.
Lemma same_vocab_keeps m m' : same_vocab m m' -> keeps m m'.
Proof. intros H W. by apply same_vocab_wf. Qed.

Lemma variant_keeps m r t s f p m' b : add_variant m r t s f p = Ok (m', b) -> keeps m m'.
Proof.
  unfold add_variant. intros H. apply rbind_ok in H as ([m1 id] & E & H). cbn in H. injection H as H.
  eapply keeps_trans; [by eapply add_keeps|]. intros W. destruct (link_wf m1 r id s W). rewrite H in *. done.
Qed.

Lemma rfoldl_keeps {A B} (g : B -> model) (f : B -> A -> res B) l st st' :
  (forall st a st', f st a = Ok st' -> keeps (g st) (g st')) -> rfoldl f st l = Ok st' -> keeps (g st) (g st').
Proof.
  intros Hf. revert st. induction l as [|a l IH]; intros st; cbn.
  - intros [= <-]. apply keeps_refl.
  - intros H. apply rbind_ok in H as (m1 & E & H). eapply keeps_trans; [by eapply Hf|]. by apply IH.
Qed.

Lemma read_vocabulary_line_keeps p m line m' : read_vocabulary_line p m line = Ok m' -> keeps m m'.
Proof.
  unfold read_vocabulary_line. destruct line as [|c line]; [intros [= <-]; apply keeps_refl|].
  intros H. apply rbind_ok in H as (t & _ & H). apply rbind_ok in H as ([m1 f] & E & H).
  apply rbind_ok in H as ([m2 id] & E2 & H). injection H as <-. cbn in E2.
  eapply keeps_trans; [|by eapply add_keeps]. destruct (vp_freq_column p).
  - apply rbind_ok in E as (f' & _ & E). injection E as <- <-. apply same_vocab_keeps. by destruct vt_check.
  - injection E as <- <-. apply keeps_refl.
Qed.
Lemma read_vocabulary_keeps m name lines p m' : read_vocabulary m name lines p = Ok m' -> keeps m m'.
Proof.
  unfold read_vocabulary. intros H. apply rbind_ok in H as (m1 & E & H). injection H as <-.
  apply (keeps_trans _ m1); [|by apply same_vocab_keeps].
  refine (rfoldl_keeps id _ _ _ _ _ E). intros ? ? ?. apply read_vocabulary_line_keeps.
Qed.

Section variants.
  Context (pf : str -> option f64).
  #[local] Set Default Proof Using "Type".

  Lemma read_variants_freq_keeps fields : forall m r p m',
    read_variants_freq pf m r p fields = Ok m' -> keeps m m'.
  Proof.
    induction fields as [fields IH] using (induction_ltof1 _ (@length _)). unfold ltof in IH.
    intros m r p m'. destruct fields as [|v [|s [|f rest]]]; cbn; try (intros [= <-]; apply keeps_refl).
    intros H. apply rbind_ok in H as (s' & _ & H). apply rbind_ok in H as (f' & _ & H).
    apply rbind_ok in H as ([m1 b] & E & H). cbn in H. eapply keeps_trans; [by eapply variant_keeps|].
    eapply IH; [|exact H]. cbn. lia.
  Qed.
  Lemma read_variants_nofreq_keeps fields : forall m r p m',
    read_variants_nofreq pf m r p fields = Ok m' -> keeps m m'.
  Proof.
    induction fields as [fields IH] using (induction_ltof1 _ (@length _)). unfold ltof in IH.
    intros m r p m'. destruct fields as [|v [|s rest]]; cbn; try (intros [= <-]; apply keeps_refl).
    intros H. apply rbind_ok in H as (s' & _ & H).
    apply rbind_ok in H as ([m1 b] & E & H). cbn in H. eapply keeps_trans; [by eapply variant_keeps|].
    eapply IH; [|exact H]. cbn. lia.
  Qed.
  Lemma read_variants_line_keeps p tp st line st' :
    read_variants_line pf p tp st line = Ok st' -> keeps st.1 st'.1.
  Proof.
    unfold read_variants_line. destruct line as [|c line]; [intros [= <-]; apply keeps_refl|].
    intros H. apply rbind_ok in H as (t & _ & H). apply rbind_ok in H as (hf & _ & H).
    apply rbind_ok in H as ([m1 id] & E & H). apply rbind_ok in H as (m2 & E2 & H). injection H as <-. cbn in *.
    eapply keeps_trans; [by eapply add_keeps|].
    destruct (hf.1) as [[|]|]; [by eapply read_variants_freq_keeps|by eapply read_variants_nofreq_keeps..].
  Qed.
  Lemma read_variants_keeps m name lines p tr m' :
    read_variants pf m name lines p tr = Ok m' -> keeps m m'.
  Proof.
    unfold read_variants. intros H. apply rbind_ok in H as (st & E & H). injection H as <-.
    apply (keeps_trans _ st.1); [|by apply same_vocab_keeps].
    refine (rfoldl_keeps fst _ _ _ _ _ E). intros ? ? ?. apply read_variants_line_keeps.
  Qed.
End variants.

(** ** build *)

Lemma encode_token_unk m t u r : encode_token m t true u = Ok r -> r.2 = u.
Proof. unfold encode_token. destruct (m_encoder m !! t); intros [= <-]; done. Qed.
Lemma encode_tokens_unk m n : forall parts u r, encode_tokens m n parts u = Ok r -> r.2 = u.
Proof.
  induction n as [|n IH]; intros parts u r; cbn; [intros [= <-]; done|].
  destruct parts as [|p parts]; [done|]. intros H. apply rbind_ok in H as (x & E & H).
  apply rbind_ok in H as (y & E2 & H). injection H as <-. cbn.
  apply encode_token_unk in E. apply IH in E2. congruence.
Qed.
Lemma into_ngram_unk m w u r : into_ngram m w u = Ok r -> r.2 = u.
Proof.
  unfold into_ngram. intros H. apply rbind_ok in H as (v & _ & H).
  destruct (vv_tokencount v <=? 5)%nat; [|injection H as <-; done].
  apply rbind_ok in H as (x & E & H). injection H as <-. cbn. by eapply encode_tokens_unk.
Qed.
Lemma lm_step_unseen m st id st' : lm_step m st id = Ok st' -> st'.2 = st.2.
Proof.
  destruct st as [[ng fs] u]. unfold lm_step. intros H. apply rbind_ok in H as (v & _ & H).
  destruct (vt_check (vv_type v) VT_LM); [|injection H as <-; done].
  apply rbind_ok in H as (x & E & H). apply into_ngram_unk in E. cbn. destruct (x.1).
  - apply rbind_ok in H as (fs' & _ & H). apply rbind_ok in H as (ng' & _ & H). injection H as <-. done.
  - injection H as <-. done.
Qed.
Lemma build_index_vocab o m m' : build_index o m = Ok m' -> same_vocab m m'.
Proof.
  unfold build_index. intros H. apply rbind_ok in H as (hs & _ & H). apply rbind_ok in H as (ix & _ & H).
  injection H as <-. done.
Qed.

(** [build] in two halves; the unseen parts stay empty *)
Lemma build_split o o' m m' :
  some_order o' -> build o o' m = Ok m' ->
  exists m1 ng fs, build_index o m = Ok m1 /\
    rfoldl (lm_step m1) (m_ngrams m1, m_freq_sum m1, Some ∅) (seq 0 (length (m_decoder m1))) = Ok (ng, fs, Some ∅) /\
    m' = with_lm m1 ng fs (negb (bool_decide (ng = ∅))).
Proof.
  intros Ho. unfold build. intros H. apply rbind_ok in H as (m1 & E1 & H).
  apply rbind_ok in H as (st & E2 & H).
  assert (st.2 = Some ∅) as U.
  { refine (rfoldl_inv (fun st => st.2 = Some ∅) _ _ _ _ _ _ E2); [|done].
    intros b a b' Hb Hs. apply lm_step_unseen in Hs. congruence. }
  destruct st as [[ng fs] u]. cbn in U. subst u. rewrite map_to_list_empty in H.
  assert (o' [] = []) as Hn by (apply Permutation_nil_r, Ho).
  rewrite Hn in H. cbn in H. injection H as <-. eauto 10.
Qed.
Lemma build_keeps o o' m m' : some_order o' -> build o o' m = Ok m' -> keeps m m'.
Proof.
  intros Ho H. destruct (build_split o o' m m' Ho H) as (m1 & ng & fs & E & _ & ->).
  eapply keeps_trans; [apply same_vocab_keeps; by eapply build_index_vocab|]. by apply same_vocab_keeps.
Qed.

(** ** C30 *)
Lemma new_inverse A w : lookups_inverse (new_with_alphabet A w).
Proof.
  intros t id. cbn. unfold init_encoder. split.
  - intros H. apply lookup_insert_Some in H as [[<- <-]|[_ H]]; [eexists; split; [reflexivity|done]|].
    apply lookup_insert_Some in H as [[<- <-]|[_ H]]; [eexists; split; [reflexivity|done]|].
    apply lookup_insert_Some in H as [[<- <-]|[_ H]]; [eexists; split; [reflexivity|done]|].
    by rewrite lookup_empty in H.
  - intros (v & D & <-). destruct id as [|[|[|id]]]; try done; injection D as <-; cbn.
    + rewrite !lookup_insert_ne by done. by rewrite lookup_insert.
    + rewrite lookup_insert_ne by done. by rewrite lookup_insert.
    + by rewrite lookup_insert.
Qed.

Lemma run_call_keeps pf m c m' : call_ok c -> run_call pf m c = Ok m' -> keeps m m'.
Proof.
  destruct c as [t f p|r t sc f p|r v sc|name lines p|name lines p tr|o o']; cbn; intros Hc H.
  - apply rbind_ok in H as ([m1 id] & E & H). injection H as <-. by eapply add_keeps.
  - apply rbind_ok in H as ([m1 b] & E & H). injection H as <-. by eapply variant_keeps.
  - injection H as <-. intros W. by apply link_wf.
  - by eapply read_vocabulary_keeps.
  - by eapply read_variants_keeps.
  - eapply build_keeps; [apply Hc|exact H].
Qed.
Lemma run_calls_keeps pf cs : forall m m', Forall call_ok cs -> run_calls pf m cs = Ok m' -> keeps m m'.
Proof.
  unfold run_calls. induction cs as [|c cs IH]; intros m m' Hc; cbn.
  - intros [= <-]. apply keeps_refl.
  - intros H. apply rbind_ok in H as (m1 & E & H). inversion Hc; subst.
    eapply keeps_trans; [by eapply run_call_keeps|]. by apply IH.
Qed.

Lemma ids_bijection pf A w cs1 cs2 m1 m2 :
  Forall call_ok (cs1 ++ cs2) ->
  run_calls pf (new_with_alphabet A w) cs1 = Ok m1 -> run_calls pf m1 cs2 = Ok m2 ->
  lookups_inverse m2 /\ ids_kept m1 m2.
Proof.
  intros Hc H1 H2. apply Forall_app in Hc as [Hc1 Hc2].
  destruct (run_calls_keeps pf cs1 _ _ Hc1 H1 (new_inverse A w)) as [W1 _].
  destruct (run_calls_keeps pf cs2 _ _ Hc2 H2 W1) as [W2 G2]. split; [done|].
  intros id v D. destruct (g_kept _ _ G2 id v D) as (v' & D' & T & _). eauto.
Qed.
