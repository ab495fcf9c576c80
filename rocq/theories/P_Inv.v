(** What holds of every vocabulary made by sensible calls. *)
From Coq Require Import Lia.
From Verif Require Import M_Base M_Anahash M_Iter M_Distance M_Float M_Types M_Model M_Confusable M_Search.
From Verif Require Import S_Anahash S_Iter S_Distance S_Model S_Search P_Base P_Anahash P_Model P_Vocab.
From stdpp Require Import options.

Definition target (r : variant_ref) : vocab_id := match r with ReferenceFor y _ => y | VariantOf y _ => y end.
Definition targets (v : vocab_value) : list vocab_id := map target (default [] (vv_variants v)).

Record inv_at (A : alphabet) (n : nat) (id : vocab_id) (v : vocab_value) : Prop := {
  ia_freq : (vv_frequency v < 4294967296)%N;
  ia_special : id < 3 -> flag (vv_type v) searchable_bit = false;
  ia_norm : 3 <= id -> normalize_to_alphabet A (vv_text v) = Ok (vv_norm v);
  ia_links : Forall (fun y => y < n) (targets v);
}.
Definition sane (m : model) : Prop :=
  3 <= length (m_decoder m) /\ forall id v, m_decoder m !! id = Some v -> inv_at (m_alphabet m) (length (m_decoder m)) id v.

Lemma inv_at_le A n n' id v : n <= n' -> inv_at A n id v -> inv_at A n' id v.
Proof. intros H [? ? ? L]. split; [done..|]. eapply Forall_impl; [exact L|]. cbn. lia. Qed.

Lemma new_sane A w : sane (new_with_alphabet A w).
Proof.
  split; [done|]. intros id v H. cbn in H. destruct id as [|[|[|id]]]; try done; cbn in H; injection H as <-; split; cbn; try done; try lia; constructor.
Qed.

Lemma update_frequency_u32 h a b c : (a < 4294967296)%N -> (b < 4294967296)%N -> update_frequency h a b = Ok c -> (c < 4294967296)%N.
Proof.
  intros Ha Hb. destruct h; cbn; [|destruct (_ <? _)%N; intros [= <-]; done..|intros [= <-]; done].
  unfold u32_add. destruct (_ <? _)%N eqn:E; [|done]. intros [= <-]. by apply N.ltb_lt.
Qed.

Lemma add_sane m t f p m' id : freq_ok f -> sane m -> add_to_vocabulary m t f p = Ok (m', id) ->
  sane m' /\ id < length (m_decoder m') /\ length (m_decoder m) <= length (m_decoder m').
Proof.
  intros Hf [H3 H] E.
  assert (default 1 f < 4294967296)%N as Hf' by (destruct f; cbn in *; lia).
  apply add_cases in E as [(item & item' & E & D & U & ->)|(item & E & -> & U & ->)].
  - apply update_item_fields in U as (T & Nm & Tc & Vs & Fr & _ & Ty). cbn [m_decoder with_vocab].
    pose proof (lookup_lt_Some _ _ _ D) as L. destruct (H id item D) as [If Is In Il].
    split; [|rewrite insert_length; lia]. split; [cbn; by rewrite insert_length|].
    cbn. rewrite insert_length. intros id' v D'. destruct (decide (id' = id)) as [->|Hne].
    + rewrite list_lookup_insert in D' by done. injection D' as <-. split.
      * exact (update_frequency_u32 _ _ _ _ If Hf' Fr).
      * intros Hi. rewrite Ty. unfold update_type, BOS, EOS, UNK.
        destruct id as [|[|[|id]]]; [done..|lia].
      * intros Hi. rewrite T, Nm. by apply In.
      * unfold targets. by rewrite Vs.
    + rewrite list_lookup_insert_ne in D' by done. by apply H.
  - apply new_item_fields in U as (T & Nm & Tc & Vs & Fr & _ & Ty). cbn [m_decoder with_vocab].
    rewrite app_length. cbn [length]. split; [|lia]. split; [cbn; rewrite app_length; lia|].
    cbn. rewrite app_length. cbn [length]. intros id' v D'. apply lookup_app_Some in D' as [D'|[Hge D']].
    + eapply inv_at_le; [|by apply H]. lia.
    + apply list_lookup_singleton_Some in D' as [Ei <-]. split.
      * by rewrite Fr.
      * lia.
      * intros _. by rewrite T.
      * unfold targets. rewrite Vs. constructor.
Qed.

Lemma link_sane m r v s : r < length (m_decoder m) -> v < length (m_decoder m) -> sane m ->
  sane (add_variant_by_id m r v s).1 /\ length (m_decoder (add_variant_by_id m r v s).1) = length (m_decoder m).
Proof.
  intros Hr Hv [H3 H]. unfold add_variant_by_id. destruct (v =? r)%nat; cbn [negb fst]; [done|].
  assert (forall dec i present link, target link < length (m_decoder m) -> length dec = length (m_decoder m) ->
    (forall id v, dec !! id = Some v -> inv_at (m_alphabet m) (length (m_decoder m)) id v) ->
    let dec' := update_decoder dec i (fun v => with_variants v (push_link present link (vv_variants v))) in
    length dec' = length (m_decoder m) /\
    forall id v, dec' !! id = Some v -> inv_at (m_alphabet m) (length (m_decoder m)) id v) as Hstep.
  { intros dec i present link Ht Hl Hd. cbn zeta. split.
    { unfold update_decoder. destruct (dec !! i); [by rewrite insert_length|done]. }
    intros id v' D. apply update_decoder_lookup in D as [(-> & w & D & ->)|[_ D]]; [|by apply Hd].
    destruct (Hd _ _ D) as [If Is In Il]. split; cbn; [done..|].
    unfold targets in *. cbn. unfold push_link. destruct (vv_variants w) as [l|]; cbn in *; [|by repeat constructor].
    destruct (existsb present l); cbn; [done|]. rewrite map_app. apply Forall_app. split; [done|]. by repeat constructor. }
  destruct (Hstep (m_decoder m) r (is_reference_for v) (ReferenceFor v s)) as [L1 H1]; [done|done|done|].
  destruct (Hstep _ v (is_variant_of v) (VariantOf r s) Hr L1 H1) as [L2 H2].
  split; [|exact L2]. split; cbn [m_decoder with_vocab m_alphabet]; [lia|]. intros id v' D. rewrite L2. by apply H2.
Qed.

Lemma variant_sane m r t s f p m' b : freq_ok f -> r < length (m_decoder m) -> sane m -> add_variant m r t s f p = Ok (m', b) ->
  sane m' /\ length (m_decoder m) <= length (m_decoder m').
Proof.
  intros Hf Hr S. unfold add_variant. intros H. apply rbind_ok in H as ([m1 id] & E & H). cbn in H. injection H as H.
  destruct (add_sane _ _ _ _ _ _ Hf S E) as (S1 & Hid & Hle). destruct (link_sane m1 r id s ltac:(lia) Hid S1) as [S2 L].
  rewrite H in *. cbn in *. split; [done|lia].
Qed.

Lemma parse_u32_ok s f : parse_u32 s = Some f -> (f < 4294967296)%N.
Proof.
  unfold parse_u32, parse_uint. destruct (match s with 43%N :: s' => s' | _ => s end); [done|].
  destruct (parse_digits _ _); [|done]. destruct (_ <=? _)%N eqn:E; [|done]. intros [= <-]. apply N.leb_le in E. lia.
Qed.

Lemma same_sane m m' : m_decoder m' = m_decoder m -> m_alphabet m' = m_alphabet m -> sane m -> sane m'.
Proof. intros D A [H3 H]. split; rewrite ?D, ?A; done. Qed.

Lemma read_vocabulary_sane m name lines p m' : sane m -> read_vocabulary m name lines p = Ok m' -> sane m'.
Proof.
  intros S. unfold read_vocabulary. intros H. apply rbind_ok in H as (m1 & E & H). injection H as <-.
  apply (same_sane m1); [done|done|]. refine (rfoldl_inv sane _ _ _ _ _ S E). clear.
  generalize (with_params_index p (N.of_nat (as_u8 (length (m_lexicons m))))). clear.
  intros p m line m' S. unfold read_vocabulary_line. destruct line as [|c line]; [by intros [= <-]|].
  intros H. apply rbind_ok in H as (t & _ & H). apply rbind_ok in H as ([m1 f] & E & H).
  apply rbind_ok in H as ([m2 id] & E2 & H). injection H as <-. cbn in *.
  assert (sane m1 /\ (f < 4294967296)%N) as [S1 Hf].
  { destruct (vp_freq_column _).
    - apply rbind_ok in E as (f' & Ef%rexpect_ok & E). injection E as <- <-. split; [|by eapply parse_u32_ok].
      destruct vt_check; [|done]. by apply (same_sane m).
    - injection E as <- <-. done. }
  by destruct (add_sane m1 t (Some f) _ m2 id Hf S1 E2).
Qed.

Section variants.
  Context (pf : str -> option f64).
  #[local] Set Default Proof Using "Type".
  Lemma read_variants_freq_sane fields : forall m r p m', sane m -> r < length (m_decoder m) ->
    read_variants_freq pf m r p fields = Ok m' -> sane m'.
  Proof.
    induction fields as [fields IH] using (induction_ltof1 _ (@length _)). unfold ltof in IH.
    intros m r p m' S Hr. destruct fields as [|v [|s [|f rest]]]; cbn; try (by intros [= <-]).
    intros H. apply rbind_ok in H as (s' & _ & H). apply rbind_ok in H as (f' & Ef%rexpect_ok & H).
    apply rbind_ok in H as ([m1 b] & E & H). cbn in H. apply parse_u32_ok in Ef.
    destruct (variant_sane m r v s' (Some f') p m1 b Ef Hr S E) as [S1 L1].
    eapply IH; [| |  |exact H]; [cbn; lia|done|lia].
  Qed.
  Lemma read_variants_nofreq_sane fields : forall m r p m', sane m -> r < length (m_decoder m) ->
    read_variants_nofreq pf m r p fields = Ok m' -> sane m'.
  Proof.
    induction fields as [fields IH] using (induction_ltof1 _ (@length _)). unfold ltof in IH.
    intros m r p m' S Hr. destruct fields as [|v [|s rest]]; cbn; try (by intros [= <-]).
    intros H. apply rbind_ok in H as (s' & _ & H).
    apply rbind_ok in H as ([m1 b] & E & H). cbn in H.
    destruct (variant_sane m r v s' None p m1 b I Hr S E) as [S1 L1].
    eapply IH; [| |  |exact H]; [cbn; lia|done|lia].
  Qed.
  Lemma read_variants_sane m name lines p tr m' : sane m -> read_variants pf m name lines p tr = Ok m' -> sane m'.
  Proof.
    intros S. unfold read_variants. intros H. apply rbind_ok in H as (st & E & H). injection H as <-.
    apply (same_sane st.1); [done|done|]. refine (rfoldl_inv (fun st => sane st.1) _ _ (m, None) _ _ S E). clear.
    match goal with |- context [read_variants_line pf ?a ?b] => generalize a, b end. clear.
    intros p tp st line st' S. unfold read_variants_line. destruct line as [|c line]; [by intros [= <-]|].
    intros H. apply rbind_ok in H as (t & _ & H). apply rbind_ok in H as (hf & Eh & H).
    apply rbind_ok in H as ([m1 id] & E & H). apply rbind_ok in H as (m2 & E2 & H). injection H as <-. cbn in *.
    assert (freq_ok hf.2) as Hf.
    { revert Eh. unfold detect_freq. destruct (st.2) as [[|]|].
      - intros Eh. apply rbind_ok in Eh as (x & _ & Eh). apply rbind_ok in Eh as (f & Ef%rexpect_ok & Eh). injection Eh as <-.
        by eapply parse_u32_ok.
      - by intros [= <-].
      - destruct (_ <? _)%nat; [done|]. destruct (_ =? _)%nat; [|by intros [= <-]].
        intros Eh. apply rbind_ok in Eh as (x & _ & Eh). destruct (parse_u32 x) eqn:Ef; injection Eh as <-; [|done].
        by eapply parse_u32_ok. }
    destruct (add_sane _ _ _ _ _ _ Hf S E) as (S1 & Hid & _).
    destruct (hf.1) as [[|]|]; [by eapply read_variants_freq_sane|by eapply read_variants_nofreq_sane..].
  Qed.

  Lemma call_keeps_sane m c m' : call_sane m c -> sane m -> run_call pf m c = Ok m' -> sane m'.
  Proof.
    destruct c as [t f p|r t sc f p|r v sc|name lines p|name lines p tr|o o']; cbn; intros Hc S H.
    - apply rbind_ok in H as ([m1 id] & E & H). injection H as <-. by eapply add_sane.
    - apply rbind_ok in H as ([m1 b] & E & H). injection H as <-. destruct Hc. by eapply variant_sane.
    - injection H as <-. destruct Hc. by apply link_sane.
    - by eapply read_vocabulary_sane.
    - by eapply read_variants_sane.
    - destruct Hc as [_ Ho]. destruct (build_split o o' m m' Ho H) as (m1 & ng & fs & E & _ & ->).
      apply build_index_vocab in E as (D & _ & HA). by apply (same_sane m).
  Qed.
  Lemma loads_sane m cs m' : loads pf m cs m' -> sane m -> sane m'.
  Proof. induction 1 as [|m c m1 cs m2 Hc Hr _ IH]; [done|]. intros S. by apply IH, (call_keeps_sane m c). Qed.

  Lemma loaded A w cs m : loads pf (new_with_alphabet A w) cs m -> normalised m /\ links_inside m /\ freq_u32 m.
  Proof.
    intros H. apply loads_sane in H as [H3 H]; [|apply new_sane]. split; [|split].
    - intros id v [D Hs]. destruct (H id v D) as [_ Is In _]. apply In. destruct (decide (3 <= id)); [done|].
      rewrite Is in Hs by lia. done.
    - intros id v r s D Hin. destruct (H id v D) as [_ _ _ Il]. unfold targets in Il. unfold stored_references in Hin.
      apply elem_of_list_omap in Hin as (x & Hx & E). rewrite Forall_forall in Il. apply Il, elem_of_list_fmap.
      exists x. split; [|done]. destruct x; [done|]. by injection E as -> ->.
    - intros id v D. by destruct (H id v D).
  Qed.
End variants.
