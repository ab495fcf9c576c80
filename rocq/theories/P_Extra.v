(** More about looking up: meeting the assumptions, reach below the query's
    length, expansion. *)
From Coq Require Import Lia.
From Verif Require Import M_Base M_Anahash M_Iter M_Distance M_Float M_Types M_Model M_Confusable M_Search.
From Verif Require Import S_Anahash S_Iter S_Distance S_Model S_Search P_Base P_Anahash P_Model P_Vocab P_Rank P_Find P_Lookup P_Results P_Inv.
From stdpp Require Import options.

(** ** Meeting the assumptions *)
Lemma reads_check A t ks : alphabet_ok A -> normalize_to_alphabet A t = Ok (map (norm_code A) ks) ->
  Forall (fun k => k <= length A) ks -> reads A t ks.
Proof.
  intros HA H Hk. destruct (reads_total A t HA) as [ks' Hr]. rewrite (normalize_reads _ _ _ HA Hr) in H. injection H as H.
  assert (ks' = ks) as <-; [|done]. rewrite <- (norm_code_back A ks Hk), <- H. symmetry. apply norm_code_back. by eapply reads_bound.
Qed.
Lemma loads_alphabet pf m cs m' : loads pf m cs m' -> lookups_inverse m -> m_alphabet m' = m_alphabet m /\ lookups_inverse m'.
Proof.
  induction 1 as [|m c m1 cs m2 Hc Hr _ IH]; [done|]. intros W.
  assert (call_ok c) as Hok by (destruct c; cbn in *; tauto).
  destruct (run_call_keeps pf m c m1 Hok Hr W) as [W1 G].
  destruct (IH W1) as [E W2]. split; [|done]. rewrite E. apply G.
Qed.
Lemma loaded_built pf A w cs m o o' m' :
  loads pf (new_with_alphabet A w) cs m -> alphabet_ok A -> length A <= 166 -> m_weights m = w -> weights_ok w ->
  forallb (fun v => (N.of_nat (length (vv_norm v)) <? 65536)%N) (m_decoder m) = true ->
  some_order o -> some_order o' -> build o o' m = Ok m' -> built m m'.
Proof.
  intros HL HA H166 Ew Hw Hs Ho Ho' B. destruct (loads_alphabet _ _ _ _ HL (new_inverse A w)) as [EA _]. cbn in EA.
  destruct (loaded _ _ _ _ _ HL) as (Hn & _ & _). split; [by rewrite EA|by rewrite EA|eauto| |done|by rewrite Ew].
  intros id v ks [Hi Hr]. pose proof (Hn id v Hi) as E. rewrite (normalize_reads _ _ ks) in E; [|by rewrite EA|done].
  injection E as E. rewrite forallb_forall in Hs. destruct Hi as [D _].
  specialize (Hs v). rewrite <- E, map_length in Hs. apply N.ltb_lt, Hs, elem_of_list_In. by eapply elem_of_list_lookup_2.
Qed.

(** ** Reach *)
Lemma reach_within ks ks' max : max < length ks -> length ks' < 256 -> in_reach ks max ks' <-> bag_within ks ks' max.
Proof.
  intros Hm Hl. split; [by intros (? & _)|]. intros Hb. split; [done|]. split; [|by left]. right.
  destruct Hb as (d & (c & x & y & E1 & E2 & -> & _) & Hd). destruct c as [|k c].
  - apply Permutation_length in E1. cbn in E1. lia.
  - exists k. rewrite E1, E2. split; left.
Qed.

Section complete.
  Context (lc : N -> bool) (ses : str -> str -> list edit_instruction).
  Context (m m' : model) (q : str) (ks : list nat).
  Context (B : built m m') (Q : query m q ks).
  #[local] Set Default Proof Using "All".

  Lemma complete_within p : length ks <= 255 -> tame m p -> no_links m -> m_confusables m = [] ->
    p_max_matches p = 0 -> fge (p_cutoff_threshold p) f1 = false -> p_stop_criterion p = Exhaustive ->
    effective_limit (p_max_anagram_distance p) (length ks) < length ks ->
    (forall id v ks', entry_reading m id v ks' -> length ks' < 256) ->
    exists l, finds lc ses m' q p l /\ NoDup (map vr_id l) /\
      forall id, id ∈ map vr_id l <-> exists v ks' d, entry_reading m id v ks' /\
        bag_within ks ks' (effective_limit (p_max_anagram_distance p) (length ks)) /\
        distance_between lc (m_weights m) q ks (vv_text v) ks' d /\
        d_ld d <= effective_limit (p_max_edit_distance p) (length ks) /\
        fle (p_score_threshold p) (distance_score (m_weights m) (length ks) d) = true.
  Proof.
    intros Hl T HN HC Hmm Hcut Hstop Hlim H256.
    destruct (complete lc ses m m' q ks B Q p Hl T HN HC Hmm Hcut) as (l & Hf & Hd & Hiff).
    exists l. split; [done|]. split; [done|]. intros id. rewrite (Hiff id). unfold candidate. rewrite Hstop. cbn [reached]. split.
    - intros (v & d & (ks' & He & Hr & Hdb & Hle) & Ht). exists v, ks', d. split; [done|]. split; [by apply Hr|done].
    - intros (v & ks' & d & He & Hw & Hdb & Hle & Ht). exists v, d. split; [|done]. exists ks'. split; [done|].
      split; [|done]. apply reach_within; [done|by eapply H256|done].
  Qed.
End complete.

(** ** Expansion *)
Lemma via_link_exp m r t s r' : expansion m r (VariantOf t s) = Some r' <-> via_link m r (t, s) r'.
Proof.
  unfold via_link. cbn. destruct (m_decoder m !! t) as [v|]; split.
  - intros [= <-]. exists v. done.
  - intros (v' & [= <-] & E1 & E2 & E3 & E4). destruct r'; cbn in *. by subst.
  - done.
  - by intros (v' & ? & _).
Qed.
Lemma expand_refs_rel m r refs : forall acc x,
  rfoldl (expand_ref m r) acc refs = Ok x <->
  exists rs, x = acc ++ rs /\
    Forall2 (via_link m r) (omap (fun y => match y with VariantOf y s => Some (y, s) | _ => None end) refs) rs.
Proof.
  induction refs as [|ref refs IH]; intros acc x; cbn [rfoldl].
  - split; [intros [= <-]; exists []; split; [by rewrite app_nil_r|constructor]|]. intros (rs & -> & F). cbn in F. inversion F; subst. by rewrite app_nil_r.
  - destruct ref as [t s|t s]; cbn [expand_ref rbind omap list_omap].
    + apply IH.
    + split.
      * intros H. apply rbind_ok in H as (acc' & H1 & H). apply rbind_ok in H1 as (item & Hi%rexpect_ok & [= <-]).
        apply IH in H as (rs & -> & F). eexists (_ :: rs). split; [by rewrite <- app_assoc|]. constructor; [|done].
        apply via_link_exp. unfold expansion. by rewrite Hi.
      * intros (rs & -> & F). inversion F as [|? r' ? rs' Hv F']; subst. pose proof Hv as (v & Hi & _).
        apply via_link_exp in Hv. unfold expansion in Hv. cbn in Hi. rewrite Hi in *. injection Hv as <-. cbn [rexpect rbind].
        apply IH. exists rs'. split; [by rewrite <- app_assoc|done].
Qed.
Lemma expand_iff m l l' : expand_variants m l = Ok l' <-> expands m l l'.
Proof.
  unfold expand_variants.
  enough (forall acc x, rfoldl (expand_one m) acc l = Ok x <-> exists l', x = acc ++ l' /\ expands m l l') as E.
  { rewrite E. split; [by intros (? & -> & ?)|]. intros H. by exists l'. }
  clear l'. induction l as [|r l IH]; intros acc x; cbn [rfoldl].
  - split; [intros [= <-]; exists []; rewrite app_nil_r; split; [done|constructor]|]. intros (l' & -> & H). inversion H; subst. by rewrite app_nil_r.
  - split.
    + intros H. apply rbind_ok in H as (acc' & H1 & H). apply rbind_ok in H1 as (v & Hv%rexpect_ok & H1).
      apply rbind_ok in H1 as (acc2 & H2 & [= <-]). apply IH in H as (l' & -> & He).
      assert (exists rs, acc2 = acc ++ rs /\ Forall2 (via_link m r) (stored_references v) rs) as (rs & -> & F).
      { unfold stored_references. destruct (vv_variants v) as [refs|]; [by apply expand_refs_rel|]. injection H2 as <-. exists []. split; [by rewrite app_nil_r|constructor]. }
      exists (rs ++ (if flag (vv_type v) transparent_bit then [] else [r]) ++ l'). split.
      * rewrite vt_check_transparent. unfold flag, transparent_bit. destruct (N.testbit _ _); cbn; by rewrite <- ?app_assoc.
      * by econstructor.
    + intros (l' & -> & H). inversion H as [|? v ? rs l2 Hv F He]; subst. apply rbind_ok.
      exists (acc ++ rs ++ (if flag (vv_type v) transparent_bit then [] else [r])). split.
      * unfold expand_one. rewrite Hv. cbn [rexpect rbind]. apply rbind_ok. exists (acc ++ rs). split.
        -- unfold stored_references in F. destruct (vv_variants v) as [refs|]; [apply expand_refs_rel; eauto|].
           cbn in F. inversion F; subst. by rewrite app_nil_r.
        -- rewrite vt_check_transparent. unfold flag, transparent_bit. destruct (N.testbit _ _); by rewrite ?app_nil_r, ?app_assoc.
      * apply IH. exists l2. split; [by rewrite <- !app_assoc|done].
Qed.
Lemma expand_total m l : links_inside m -> Forall (fun r => vr_id r < length (m_decoder m)) l -> exists l', expands m l l'.
Proof. intros HL Hl. eexists. apply expand_iff. by apply expand_variants_ok. Qed.
