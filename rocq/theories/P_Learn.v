(** Proofs: what learning does to the vocabulary. *)
From Coq Require Import Lia.
From Verif Require Import M_Base M_Utf8 M_Anahash M_Iter M_Float M_Types M_Model M_Values M_Search M_Text M_Matches M_Learn S_Model S_Learn
  P_Base P_Model P_Links.
From stdpp Require Import options.

Lemma first_mentions_seen l : forall s1 s2, (forall x, x ∈ s1 <-> x ∈ s2) -> first_mentions s1 l = first_mentions s2 l.
Proof.
  induction l as [|[v s] l IH]; intros s1 s2 H; [done|]. cbn [first_mentions].
  destruct (decide (v ∈ s1)) as [H1|H1]; destruct (decide (v ∈ s2)) as [H2|H2]; [by apply IH|by destruct H2; apply H|by destruct H1; apply H|].
  f_equal. apply IH. set_solver.
Qed.
Lemma first_mentions_app2 l1 l2 : forall seen,
  first_mentions seen (l1 ++ l2) = first_mentions seen l1 ++ first_mentions (seen ++ map fst (first_mentions seen l1)) l2.
Proof.
  induction l1 as [|[v s] l1 IH]; intros seen; cbn [app first_mentions map]; [by rewrite app_nil_r|].
  destruct (decide (v ∈ seen)) as [H|H]; [apply IH|]. rewrite IH. cbn [app map fst]. f_equal. f_equal. apply first_mentions_seen. set_solver.
Qed.
Lemma declared_references_app2 id L1 L2 : declared_references id (L1 ++ L2) = declared_references id L1 ++ declared_references id L2.
Proof. unfold declared_references. by rewrite filter_app, map_app. Qed.
Lemma declared_variants_app2 id L1 L2 : declared_variants id (L1 ++ L2) = declared_variants id L1 ++ declared_variants id L2.
Proof. unfold declared_variants. by rewrite filter_app, map_app. Qed.

Lemma learned_nothing L id v : declared_references id L = [] -> declared_variants id L = [] -> entry_learned L 0 id v v.
Proof. intros H1 H2. split; [done..| | |]; [by rewrite N.add_0_r|by rewrite H1, app_nil_r|by rewrite H2, app_nil_r]. Qed.
Lemma learned_trans L1 L2 k1 k2 id v v1 v2 : entry_learned L1 k1 id v v1 -> entry_learned L2 k2 id v1 v2 -> entry_learned (L1 ++ L2) (k1 + k2) id v v2.
Proof.
  intros [A1 A2 A3 A4 A5 A6 A7 A8] [B1 B2 B3 B4 B5 B6 B7 B8]. split; [congruence..| | |].
  - rewrite B6, A6. lia.
  - by rewrite B7, A7, declared_references_app2, app_assoc.
  - rewrite B8, A8, declared_variants_app2, first_mentions_app2, app_assoc, map_app. done.
Qed.

(** one link *)
Lemma link_entry m r y s id v : no_self_links m -> y <> r -> m_decoder m !! id = Some v ->
  exists v', m_decoder (add_variant_by_id m r y s).1 !! id = Some v' /\ entry_learned [(r, y, s)] 0 id v v'.
Proof.
  intros Hs Hyr D. unfold add_variant_by_id. rewrite (proj2 (Nat.eqb_neq _ _) Hyr). cbn [negb fst m_decoder with_vocab].
  unfold declared_references, declared_variants.
  destruct (decide (r = id)) as [->|Hr]; [|destruct (decide (y = id)) as [->|Hy]].
  - set (v2 := with_variants v (push_link (is_reference_for y) (ReferenceFor y s) (vv_variants v))).
    destruct (push_reference y s (vv_variants v)) as [P1 P2].
    exists v2. split; [apply update_decoder_lookup; right; split; [done|]; apply update_decoder_lookup; left; split; [done|]; by exists v|].
    split; [done..| | |].
    + cbn. by rewrite N.add_0_r.
    + unfold declared_references. rewrite filter_cons_False by (by cbn; intros [? _]). cbn [filter list_filter map]. rewrite app_nil_r. exact P2.
    + unfold declared_variants. rewrite filter_cons_True by (by cbn). cbn [filter list_filter map first_mentions fst snd].
      change (stored_variants v2) with (refs_of (vv_variants v2)). change (vv_variants v2) with (push_link (is_reference_for y) (ReferenceFor y s) (vv_variants v)).
      rewrite P1. change (refs_of (vv_variants v)) with (stored_variants v). destruct (decide _); [by rewrite app_nil_r|done].
  - set (v2 := with_variants v (push_link (is_variant_of id) (VariantOf r s) (vv_variants v))).
    destruct (push_variant id r s (vv_variants v)) as [P1 P2]; [exact (Hs id v D)|].
    exists v2. split; [apply update_decoder_lookup; left; split; [done|]; exists v; split; [|done]; apply update_decoder_lookup; by right|].
    split; [done..| | |].
    + cbn. by rewrite N.add_0_r.
    + unfold declared_references. rewrite filter_cons_True by (by cbn). exact P1.
    + unfold declared_variants. rewrite filter_cons_False by (by cbn; intros [? _]). cbn [filter list_filter map first_mentions]. rewrite app_nil_r. exact P2.
  - exists v. split; [apply update_decoder_lookup; right; split; [done|]; apply update_decoder_lookup; by right|].
    apply learned_nothing; unfold declared_references, declared_variants; rewrite filter_cons_False; [done|by cbn; intros [? _]|done|by cbn; intros [? _]].
Qed.
Lemma link_length m r y s : length (m_decoder (add_variant_by_id m r y s).1) = length (m_decoder m).
Proof.
  unfold add_variant_by_id. destruct (negb (y =? r)); [|done]. cbn [fst m_decoder with_vocab]. unfold update_decoder.
  destruct (m_decoder m !! r) as [v|]; [|by destruct (m_decoder m !! y); [apply insert_length|]].
  destruct (_ !! y) as [w|]; by rewrite ?insert_length.
Qed.

Lemma inverse_text m id v : lookups_inverse m -> m_decoder m !! id = Some v -> m_encoder m !! vv_text v = Some id.
Proof. intros W D. apply W. eauto. Qed.

(** learning keeps ids and encodings *)
Lemma learned_encoder prev l m m' t id : lookups_inverse m -> learned prev l m m' -> m_encoder m !! t = Some id -> m_encoder m' !! t = Some id.
Proof.
  intros W H E. apply W in E as (v & D & T). destruct (le_old _ _ _ _ H id v D) as (v' & D' & Hv).
  apply (le_inverse _ _ _ _ H). exists v'. split; [done|]. by rewrite (el_text _ _ _ _ _ Hv).
Qed.
Lemma learned_links prev l m m' l0 : lookups_inverse m -> learned prev l m m' -> (forall s, s ∈ map fst l0 -> is_Some (m_encoder m !! s)) ->
  links_for m' l0 = links_for m l0.
Proof.
  intros W H Hs. apply map_ext_in. intros [s r] Hin%elem_of_list_In. cbn [fst snd].
  destruct (Hs s) as [id E]; [apply elem_of_list_fmap; by exists (s, r)|]. by rewrite E, (learned_encoder _ _ _ _ _ _ W H E).
Qed.
Lemma new_item_empty A t f p v : new_item A t f p = Ok v -> vv_variants v = None.
Proof.
  unfold new_item. intros H. apply rbind_ok in H as (n & _ & H). apply rbind_ok in H as (c & _ & H). apply rbind_ok in H as (b & _ & H). by injection H as <-.
Qed.
Lemma learned_no_self prev l m m' : learned prev l m m' -> no_self_links m -> no_self_links m'.
Proof.
  intros H N id v' D'. destruct (m_decoder m !! id) as [v|] eqn:D.
  - destruct (le_old _ _ _ _ H id v D) as (v2 & D2 & Hv). rewrite D' in D2. injection D2 as <-.
    rewrite (el_references _ _ _ _ _ Hv), map_app, elem_of_app. intros [K|K]; [by apply (N id v D)|by apply declared_references_self in K].
  - destruct (le_new _ _ _ _ H id v' D' D) as (_ & _ & v & Nw & Hv). rewrite (el_references _ _ _ _ _ Hv).
    apply new_item_empty in Nw. unfold stored_references at 1. rewrite Nw. cbn [default app omap list_omap]. intros K. by apply declared_references_self in K.
Qed.

Lemma learned_cons prev x l m m1 m2 : lookups_inverse m -> vr_id x.2 < length (m_decoder m) ->
  learned prev [x] m m1 -> learned (Some x.1) l m1 m2 -> learned prev (x :: l) m m2.
Proof.
  intros W Hr H1 H2. pose proof (le_inverse _ _ _ _ H1) as W1.
  assert (links_for m2 [x] = links_for m1 [x]) as EL by (apply (learned_links _ _ _ _ _ W1 H2), (le_inputs _ _ _ _ H1)).
  assert (links_for m2 (x :: l) = links_for m1 [x] ++ links_for m2 l) as EL2 by (rewrite <- EL; done).
  assert (forall t, starts t prev (map fst (x :: l)) = starts t prev (map fst [x]) + starts t (Some x.1) (map fst l)) as ES.
  { intros t. cbn [map starts]. lia. }
  split.
  - rewrite (le_rest _ _ _ _ H2). rewrite (le_rest _ _ _ _ H1) at 1. done.
  - exact (le_inverse _ _ _ _ H2).
  - intros id v D. destruct (le_old _ _ _ _ H1 id v D) as (v1 & D1 & K1). destruct (le_old _ _ _ _ H2 id v1 D1) as (v2 & D2 & K2).
    exists v2. split; [done|]. rewrite EL2, ES. rewrite (el_text _ _ _ _ _ K1) in K2. by eapply learned_trans.
  - intros id v' D' D. destruct (m_decoder m1 !! id) as [v1|] eqn:D1.
    + destruct (le_new _ _ _ _ H1 id v1 D1 D) as (T & E & v & Nw & K1). destruct (le_old _ _ _ _ H2 id v1 D1) as (v2 & D2 & K2).
      rewrite D' in D2. injection D2 as <-. rewrite (el_text _ _ _ _ _ K2). split; [cbn [map] in *; set_solver|]. split; [done|].
      exists v. split; [done|]. rewrite EL2, ES. by eapply learned_trans.
    + destruct (le_new _ _ _ _ H2 id v' D' D1) as (T & E & v & Nw & K2).
      assert (m_encoder m !! vv_text v' = None) as E0.
      { destruct (m_encoder m !! vv_text v') as [i|] eqn:Ei; [|done]. by rewrite (learned_encoder _ _ _ _ _ _ W H1 Ei) in E. }
      assert (x.1 <> vv_text v') as Hne.
      { intros Ex. destruct (le_inputs _ _ _ _ H1 (vv_text v')) as [i Ei]; [cbn; rewrite Ex; by left|]. congruence. }
      split; [cbn [map]; by right|]. split; [done|]. exists v. split.
      { rewrite (le_rest _ _ _ _ H1) in Nw. exact Nw. }
      rewrite EL2, ES. cbn [map starts]. rewrite decide_False by tauto. cbn [Nat.add].
      pose proof (learned_trans (links_for m1 [x]) (links_for m2 l) 0 (starts (vv_text v') (Some x.1) (map fst l)) id v v v') as G.
      cbn [Nat.add] in G. apply G; [|done]. destruct (le_inputs _ _ _ _ H1 x.1) as [i Ei]; [by left|].
      assert (i <> id) as Hi. { intros ->. apply W1 in Ei as (v3 & D3 & _). congruence. }
      assert (vr_id x.2 <> id) as Hx.
      { intros Ex. apply lookup_lt_is_Some in Hr as [v3 D3]. rewrite Ex in D3. destruct (le_old _ _ _ _ H1 id v3 D3) as (v4 & D4 & _). congruence. }
      unfold links_for. cbn [map]. rewrite Ei. cbn [default].
      apply learned_nothing; unfold declared_references, declared_variants; rewrite filter_cons_False; [done|by cbn; intros [? _]|done|by cbn; intros [? _]].
  - intros s Hs. cbn [map] in Hs. apply elem_of_cons in Hs as [->|Hs]; [|by apply (le_inputs _ _ _ _ H2)].
    destruct (le_inputs _ _ _ _ H1 x.1) as [i Ei]; [by left|]. exists i. by apply (learned_encoder _ _ _ _ _ _ W1 H2).
Qed.

(** one step *)
Lemma learn_step m c prev s r m1 c1 prev1 : lookups_inverse m -> no_self_links m -> vr_id r < length (m_decoder m) ->
  (forall p, prev = Some p -> is_Some (m_encoder m !! p)) ->
  learn_one (m, c, prev) (s, r) = Ok (m1, c1, prev1) ->
  learned prev [(s, r)] m m1 /\ prev1 = Some s /\ c1 = c + length (different m1 [(s, r)]).
Proof.
  intros W Ns Hr Hp. unfold learn_one.
  (* the entry of the input *)
  assert (forall mA id, match m_encoder m !! s with
      | Some id =>
          let* item := rexpect (m_decoder m !! id) in
          let* f := if bool_decide (prev = Some s) then Ok (vv_frequency item) else u32_add (vv_frequency item) 1%N in
          Ok (with_vocab m (<[id := VocabValue (vv_text item) (vv_norm item) f (vv_tokencount item) (vv_lexindex item) (vv_variants item) (vv_type item)]>
                (m_decoder m)) (m_encoder m), id)
      | None => add_to_vocabulary m s (Some 1%N) learn_params
      end = Ok (mA, id) ->
    mA = with_vocab m (m_decoder mA) (m_encoder mA) /\ lookups_inverse mA /\ m_encoder mA !! s = Some id /\ length (m_decoder m) <= length (m_decoder mA) /\
    (forall j v, m_decoder m !! j = Some v -> exists v', m_decoder mA !! j = Some v' /\ entry_learned [] (starts (vv_text v) prev [s]) j v v') /\
    (forall j v', m_decoder mA !! j = Some v' -> m_decoder m !! j = None -> vv_text v' = s /\ j = id /\ m_encoder m !! s = None /\
       exists v, new_item (m_alphabet m) s 0 learn_params = Ok v /\ entry_learned [] 1 j v v')) as HA.
  { intros mA id. destruct (m_encoder m !! s) as [i|] eqn:E.
    - intros H. apply rbind_ok in H as (item & D%rexpect_ok & H). apply rbind_ok in H as (f & F & H). injection H as <- <-.
      assert (i < length (m_decoder m)) as Li by (by eapply lookup_lt_Some).
      assert (vv_text item = s) as Ti by (apply W in E as (v & D' & Tv); congruence).
      split; [done|]. cbn [m_decoder m_encoder with_vocab]. split; [|split; [done|split; [by rewrite insert_length|split]]].
      + intros t j. cbn [m_decoder m_encoder with_vocab]. rewrite (W t j). destruct (decide (i = j)) as [<-|Hne].
        * rewrite list_lookup_insert by done. split; [intros (v & D' & T); eexists; split; [done|]; cbn; congruence|].
          intros (v & [= <-] & T). exists item. done.
        * by rewrite list_lookup_insert_ne by done.
      + intros j v Dj. destruct (decide (i = j)) as [<-|Hne].
        * rewrite list_lookup_insert by done. eexists. split; [done|]. rewrite D in Dj. injection Dj as <-.
          split; cbn; [done..| |by rewrite app_nil_r|by rewrite app_nil_r].
          rewrite Ti. destruct (bool_decide (prev = Some s)) eqn:Eb.
          -- apply bool_decide_eq_true in Eb. rewrite decide_False by tauto. injection F as <-. cbn. by rewrite N.add_0_r.
          -- apply bool_decide_eq_false in Eb. rewrite decide_True by done. unfold u32_add in F. destruct (_ <? _)%N; [|done]. by injection F as <-.
        * exists v. rewrite list_lookup_insert_ne by done. split; [done|].
          assert (starts (vv_text v) prev [s] = 0) as ->; [|by apply learned_nothing].
          cbn. rewrite decide_False; [done|]. intros [-> _]. pose proof (inverse_text _ _ _ W Dj). congruence.
      + intros j v' Dj Dn. destruct (decide (i = j)) as [<-|Hne]; [congruence|]. rewrite list_lookup_insert_ne in Dj by done. congruence.
    - intros H. pose proof H as H0. apply add_wf in H0 as (WA & _ & _); [|done].
      apply add_cases in H as [(? & ? & E' & _)|(item & _ & -> & U & ->)]; [congruence|].
      split; [done|]. split; [done|]. cbn [m_decoder m_encoder with_vocab]. split; [by rewrite lookup_insert|]. split; [rewrite app_length; lia|]. split.
      + intros j v Dj. exists v. split; [by apply lookup_app_l_Some|].
        assert (starts (vv_text v) prev [s] = 0) as ->; [|by apply learned_nothing].
        cbn. rewrite decide_False; [done|]. intros [-> _]. pose proof (inverse_text _ _ _ W Dj). congruence.
      + intros j v' Dj Dn. apply lookup_ge_None in Dn. rewrite lookup_app_r in Dj by lia.
        destruct (j - length (m_decoder m)) as [|k] eqn:Ek; [|done]. injection Dj as <-.
        pose proof (new_item_empty _ _ _ _ _ U) as Hv.
        unfold new_item in U. apply rbind_ok in U as (n & U1 & U). apply rbind_ok in U as (tc & U2 & U). apply rbind_ok in U as (b & U3 & U).
        injection U as <-. cbn [vv_text]. split; [done|]. split; [lia|]. split; [done|].
        exists (VocabValue s n 0 tc b None (vp_vocab_type learn_params)). split; [unfold new_item; rewrite U1; cbn [rbind]; rewrite U2; cbn [rbind]; by rewrite U3|].
        split; done. }
  intros H. apply rbind_ok in H as ([mA id] & HmA & H). destruct (HA mA id HmA) as (R & WA & EA & LA & OA & NA). clear HA HmA.
  assert (no_self_links mA) as NsA.
  { intros j v' Dj. destruct (m_decoder m !! j) as [v|] eqn:D.
    - destruct (OA j v D) as (v2 & D2 & K). rewrite Dj in D2. injection D2 as <-. rewrite (el_references _ _ _ _ _ K), app_nil_r. by apply (Ns j).
    - destruct (NA j v' Dj D) as (_ & _ & _ & v & Nw & K). rewrite (el_references _ _ _ _ _ K), app_nil_r.
      apply new_item_empty in Nw. unfold stored_references. rewrite Nw. apply not_elem_of_nil. }
  (* the link *)
  assert (exists mB, m1 = mB /\ c1 = c + (if decide (vr_id r = id) then 0 else 1) /\ prev1 = Some s /\
    mB = with_vocab mA (m_decoder mB) (m_encoder mB) /\ lookups_inverse mB /\ m_encoder mB = m_encoder mA /\ length (m_decoder mB) = length (m_decoder mA) /\
    (forall j v, m_decoder mA !! j = Some v -> exists v', m_decoder mB !! j = Some v' /\ entry_learned [(vr_id r, id, vr_dist r)] 0 j v v')) as
    (mB & -> & -> & -> & RB & WB & EB & LB & OB).
  { destruct (vr_id r =? id) eqn:Eq.
    - apply Nat.eqb_eq in Eq. injection H as <- <- <-. exists mA. rewrite decide_True by done. split; [done|]. split; [lia|]. split; [done|].
      split; [by destruct mA|]. split; [done|]. split; [done|]. split; [done|]. intros j v Dj. exists v. split; [done|].
      apply learned_nothing; unfold declared_references, declared_variants; rewrite filter_cons_False; [done|cbn; intros [? ?]; congruence|done|cbn; intros [? ?]; congruence].
    - apply Nat.eqb_neq in Eq. pose proof (link_wf mA (vr_id r) id (vr_dist r) WA) as [WB _].
      pose proof (link_length mA (vr_id r) id (vr_dist r)) as LB.
      pose proof (fun j v D => link_entry mA (vr_id r) id (vr_dist r) j v NsA (not_eq_sym Eq) D) as OB.
      assert ((add_variant_by_id mA (vr_id r) id (vr_dist r)).2 = true /\ m_encoder (add_variant_by_id mA (vr_id r) id (vr_dist r)).1 = m_encoder mA /\
        (add_variant_by_id mA (vr_id r) id (vr_dist r)).1 = with_vocab mA (m_decoder (add_variant_by_id mA (vr_id r) id (vr_dist r)).1) (m_encoder (add_variant_by_id mA (vr_id r) id (vr_dist r)).1)) as (B1 & B2 & B3).
      { unfold add_variant_by_id. by rewrite (proj2 (Nat.eqb_neq _ _) (not_eq_sym Eq)). }
      destruct (add_variant_by_id mA (vr_id r) id (vr_dist r)) as [mB added]. cbn [fst snd] in *. subst added. injection H as <- <- <-.
      exists mB. rewrite decide_False by done. split; [done|]. split; [lia|]. done. }
  assert (links_for mB [(s, r)] = [(vr_id r, id, vr_dist r)]) as EL by (unfold links_for; cbn; by rewrite EB, EA).
  split; [|split; [done|]].
  - split.
    + rewrite RB, R. done.
    + done.
    + intros j v Dj. destruct (OA j v Dj) as (v1 & D1 & K1). destruct (OB j v1 D1) as (v2 & D2 & K2). exists v2. split; [done|].
      rewrite EL. pose proof (learned_trans _ _ _ _ _ _ _ _ K1 K2) as K. cbn [app] in K. by rewrite Nat.add_0_r in K.
    + intros j v' Dj Dn. assert (j < length (m_decoder mA)) as Lj by (rewrite <- LB; by eapply lookup_lt_Some).
      apply lookup_lt_is_Some in Lj as [v1 D1]. destruct (NA j v1 D1 Dn) as (T & -> & E & v & Nw & K1).
      destruct (OB id v1 D1) as (v2 & D2 & K2). rewrite Dj in D2. injection D2 as <-. rewrite (el_text _ _ _ _ _ K2), T.
      split; [by left|]. split; [done|]. exists v. split; [done|]. rewrite EL.
      assert (starts s prev (map fst [(s, r)]) = 1) as ->.
      { cbn. rewrite decide_True; [done|]. split; [done|]. intros Ep. destruct (Hp _ Ep). congruence. }
      exact (learned_trans _ _ _ _ _ _ _ _ K1 K2).
    + intros s' ->%elem_of_list_singleton. cbn [fst]; rewrite EB, EA. by eexists.
  - f_equal. unfold different. destruct (decide (vr_id r = id)) as [He|He].
    + rewrite filter_cons_False; [done|]. cbn. rewrite EB, EA. intros K. apply K. congruence.
    + rewrite filter_cons_True; [done|]. cbn. rewrite EB, EA. congruence.
Qed.

Lemma learn_run l : forall m c prev m' c' prev', lookups_inverse m -> no_self_links m ->
  Forall (fun x => vr_id x.2 < length (m_decoder m)) l -> (forall p, prev = Some p -> is_Some (m_encoder m !! p)) ->
  rfoldl learn_one (m, c, prev) l = Ok (m', c', prev') ->
  learned prev l m m' /\ c' = c + length (different m' l).
Proof.
  induction l as [|[s r] l IH]; intros m c prev m' c' prev' W Ns Hf Hp; cbn [rfoldl].
  { intros [= <- <- <-]. split; [|done]. split; [by destruct m|done| |congruence|intros s Hs; by apply elem_of_nil in Hs].
    intros id v D. exists v. split; [done|]. by apply learned_nothing. }
  intros H. apply rbind_ok in H as ([[m1 c1] prev1] & H1 & H). inversion Hf as [|? ? Hr Hf']; subst.
  apply learn_step in H1 as (L1 & -> & ->); [|done..].
  pose proof (le_inverse _ _ _ _ L1) as W1.
  assert (length (m_decoder m) <= length (m_decoder m1)) as Hlen.
  { destruct (decide (length (m_decoder m) <= length (m_decoder m1))) as [?|Hl]; [done|exfalso].
    assert (length (m_decoder m1) < length (m_decoder m)) as Hl' by lia. apply lookup_lt_is_Some in Hl' as [v D].
    destruct (le_old _ _ _ _ L1 _ v D) as (v' & D' & _). apply lookup_lt_Some in D'. lia. }
  apply IH in H as [L2 ->]; [|done|by eapply learned_no_self| |].
  - split; [by eapply (learned_cons prev (s, r))|]. unfold different. rewrite (filter_cons _ (s, r) l). cbn [fst snd].
    destruct (le_inputs _ _ _ _ L1 s) as [i Ei]; [by left|].
    rewrite filter_cons, filter_nil. cbn [fst snd]. rewrite Ei, (learned_encoder _ _ _ _ _ _ W1 L2 Ei).
    destruct (decide _); cbn [length]; lia.
  - eapply Forall_impl; [exact Hf'|]. cbn. intros. lia.
  - intros p [= <-]. apply (le_inputs _ _ _ _ L1). by left.
Qed.
