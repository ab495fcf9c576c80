(** Proofs about collecting the instances of the retrieved classes. *)
From Coq Require Import Lia Sorted.
From stdpp Require Import sorting.
From Verif Require Import M_Base M_Anahash M_Iter M_Distance M_Float M_Types M_Model M_Confusable M_Search.
From Verif Require Import S_Anahash S_Iter S_Distance S_Model S_Search.
From Verif Require Import P_Base P_Primes P_Anahash P_Iter P_Recurse P_Distance P_Distance2 P_Damerau P_Model P_Index P_Nearest.
From stdpp Require Import options.

Lemma build_fields o o' m m' : some_order o' -> build o o' m = Ok m' ->
  m_weights m' = m_weights m /\ m_have_freq m' = m_have_freq m /\ m_confusables m' = m_confusables m /\
  m_confusables_before_pruning m' = m_confusables_before_pruning m.
Proof.
  intros Ho' H. destruct (build_split _ _ _ _ Ho' H) as (m1 & ng & fs & E & _ & ->). cbn.
  unfold build_index in E. apply rbind_ok in E as (hs & _ & E). apply rbind_ok in E as (ix & _ & E).
  injection E as <-. done.
Qed.

(** ** Names of unknown characters do not matter *)
Definition swap_unk (A : alphabet) (k : nat) : nat :=
  if (k =? length A)%nat then S (length A) else if (k =? S (length A))%nat then length A else k.
Lemma swap_unk_invol A k : swap_unk A (swap_unk A k) = k.
Proof.
  unfold swap_unk. destruct (Nat.eqb_spec k (length A)) as [->|H1].
  - destruct (Nat.eqb_spec (S (length A)) (length A)); [lia|]. by rewrite Nat.eqb_refl.
  - destruct (Nat.eqb_spec k (S (length A))) as [->|H2]; [by rewrite Nat.eqb_refl|].
    destruct (Nat.eqb_spec k (length A)); [lia|]. destruct (Nat.eqb_spec k (S (length A))); [lia|done].
Qed.
Lemma norm_swap A ks : Forall (fun k => k <= length A) ks -> map (norm_code A) ks = map (swap_unk A) ks.
Proof.
  intros H. apply map_ext_in. intros k Hk. rewrite Forall_forall in H. specialize (H k).
  rewrite elem_of_list_In in H. specialize (H Hk). unfold norm_code, swap_unk.
  destruct (Nat.eqb_spec k (length A)); [done|]. destruct (Nat.eqb_spec k (S (length A))); [lia|done].
Qed.

Lemma longest_unique P a b : longest P a -> longest P b -> a = b.
Proof. intros (x & Hx & -> & Mx) (y & Hy & -> & My). specialize (Mx y Hy). specialize (My x Hx). lia. Qed.
Lemma min_edits_unique {B} sw (s t : list B) d d' : min_edits sw s t d -> min_edits sw s t d' -> d = d'.
Proof. intros [H1 M1] [H2 M2]. specialize (M1 _ H2). specialize (M2 _ H1). lia. Qed.
Lemma distance_unique lc w i ks t ks' d d' :
  distance_between lc w i ks t ks' d -> distance_between lc w i ks t ks' d' -> d = d'.
Proof.
  intros [A1 A2 A3 A4 A5] [B1 B2 B3 B4 B5]. destruct d as [a b c e s], d' as [a' b' c' e' s']. cbn in *. f_equal.
  - by eapply min_edits_unique.
  - destruct (fgt (w_lcs w) f0); [by eapply longest_unique|congruence].
  - destruct (fgt (w_prefix w) f0); [by eapply longest_unique|congruence].
  - destruct (fgt (w_suffix w) f0); [by eapply longest_unique|congruence].
  - destruct (fgt (w_case w) f0); [|congruence].
    destruct A5 as (x & y & Hx & Hy & S1), B5 as (x' & y' & Hx' & Hy' & S2).
    assert (x = x') as <- by congruence. assert (y = y') as <- by congruence. destruct s, s'; try done.
    + symmetry. apply S2, S1. done.
    + apply S1, S2. done.
Qed.

Lemma reads_nonempty A t ks : reads A t ks -> ks <> [] <-> t <> [].
Proof. intros H. destruct H as [|t i e t' ks -> He _ _|]; [done| |done]. split; [|done]. by destruct e. Qed.

(** [id_before m i j]: the entry [i] has a smaller hash than [j], or the same and a smaller number *)
Definition id_before (m : model) (i j : vocab_id) : Prop :=
  exists v v' h h', m_decoder m !! i = Some v /\ m_decoder m !! j = Some v' /\
    anahash (m_alphabet m) (vv_text v) = Ok h /\ anahash (m_alphabet m) (vv_text v') = Ok h' /\
    ((h < h')%N \/ (h = h' /\ i < j)).

Section gather.
  Context (lc : N -> bool).
  Context (m m' : model) (HA : alphabet_ok (m_alphabet m)) (R : index_right m m').
  Context (EA : m_alphabet m' = m_alphabet m) (EW : m_weights m' = m_weights m).
  Context (HN : normalised m) (HS : short_entries m).
  Context (q : str) (ks : list nat) (Hr : reads (m_alphabet m) q ks).
  Context (Hne : ks <> []) (Hlen : (N.of_nat (length ks) < 65536)%N).
  #[local] Set Default Proof Using "All".

  Local Notation nq := (map (norm_code (m_alphabet m)) ks).
  Local Notation w := (m_weights m).

  Lemma nq_swap : nq = map (swap_unk (m_alphabet m)) ks.
  Proof. apply norm_swap. by eapply reads_bound. Qed.

  Lemma entry_norm id v ks' : entry_reading m id v ks' -> vv_norm v = map (swap_unk (m_alphabet m)) ks'.
  Proof.
    intros [Hi Hr']. pose proof (HN id v Hi) as E. rewrite (normalize_reads _ _ _ HA Hr') in E.
    injection E as <-. apply norm_swap. by eapply reads_bound.
  Qed.

  (** everything but the edit distance *)
  Lemma make_distance_ok id v ks' ld : entry_reading m id v ks' -> ks' <> [] ->
    exists d, make_distance lc w nq q v ld = Ok d /\ d_ld d = ld /\ measured (length ks) d /\
      (min_edits true ks ks' ld -> distance_between lc w q ks (vv_text v) ks' d).
  Proof.
    intros Hv Hne'. pose proof (entry_norm _ _ _ Hv) as En. rewrite nq_swap.
    set (g := swap_unk (m_alphabet m)) in *. assert (forall x, g (g x) = x) as Hg by apply swap_unk_invol.
    unfold make_distance. rewrite En.
    assert ((N.of_nat (Nat.min (length (map g ks)) (length (map g ks'))) < 65536)%N) as Hmin by (rewrite !map_length; lia).
    assert (forall (P : list nat -> list nat -> Prop) (f : list nat -> list nat -> res N) (b : bool),
      (exists w, f (map g ks) (map g ks') = Ok (N.of_nat (length w)) /\ P w (map g ks) /\ P w (map g ks') /\
        forall w', P w' (map g ks) -> P w' (map g ks') -> length w' <= length w) ->
      (forall x l, P x l -> P (map g x) (map g l)) -> (forall x l, P x l -> length x <= length l) ->
      exists n, (if b then f (map g ks) (map g ks') else Ok 0%N) = Ok n /\ (n <= N.of_nat (length ks))%N /\
        if b then longest (fun x => P x ks /\ P x ks') n else n = 0%N) as Comp.
    { intros P f b (x & E & P1 & P2 & Mx) Hmap Hle. destruct b; [|exists 0%N; split; [done|split; [lia|done]]].
      exists (N.of_nat (length x)). split; [done|]. split.
      - apply Hle in P1. rewrite map_length in P1. lia.
      - exists (map g x). split.
        + apply Hmap in P1, P2. rewrite !(map_back g Hg) in P1, P2. done.
        + split; [by rewrite map_length|]. intros y [Y1 Y2]. rewrite map_length. apply Hmap in Y1, Y2.
          specialize (Mx _ Y1 Y2). by rewrite map_length in Mx. }
    assert (forall x l : list nat, substring x l -> length x <= length l) as L1.
    { intros x l (a & b & ->). rewrite !app_length. lia. }
    destruct (Comp substring lcs_length (fgt (w_lcs w) f0)) as (n1 & -> & B1 & C1);
      [by apply lcs_spec|intros; by apply substring_map|done|]. cbn [rbind].
    destruct (Comp (fun x l => x `prefix_of` l) common_prefix_length (fgt (w_prefix w) f0)) as (n2 & -> & B2 & C2);
      [by apply common_prefix_spec|intros; by apply prefix_map|intros; by apply prefix_length|]. cbn [rbind].
    destruct (Comp (fun x l => x `suffix_of` l) common_suffix_length (fgt (w_suffix w) f0)) as (n3 & -> & B3 & C3);
      [by apply common_suffix_spec|intros; by apply suffix_map|intros; by apply suffix_length|]. cbn [rbind].
    apply (reads_nonempty _ _ _ Hr) in Hne as Hq. destruct Hv as [Hi Hv].
    apply (reads_nonempty _ _ _ Hv) in Hne' as Ht.
    assert (exists b, (if fgt (w_case w) f0 then samecase_of lc (vv_text v) q else Ok true) = Ok b /\
      if fgt (w_case w) f0 then exists c c', head (vv_text v) = Some c /\ head q = Some c' /\ (b = true <-> lc c = lc c')
      else b = true) as (b & -> & Hb).
    { destruct (fgt (w_case w) f0); [|by exists true]. destruct (vv_text v) as [|c t]; [done|].
      destruct q as [|c' q']; [done|]. eexists. split; [reflexivity|]. exists c, c'. split; [done|]. split; [done|].
      by destruct (lc c), (lc c'). }
    cbn [rbind]. eexists. split; [reflexivity|]. split; [done|]. split; [done|]. intros Hm. by split.
  Qed.

  Definition pick (max : nat) (id : vocab_id) : option (vocab_id * distance) :=
    match m_decoder m' !! id with
    | None => None
    | Some v =>
        match damerau_levenshtein nq (vv_norm v) max with
        | Ok (Some ld) => match make_distance lc w nq q v ld with Ok d => Some (id, d) | Panic _ => None end
        | _ => None
        end
    end.

  Definition gatherable (id : vocab_id) : Prop := exists v ks', entry_reading m id v ks' /\ ks' <> [].

  Lemma gather_ids max ids : forall found, Forall gatherable ids ->
    rfoldl (gather_instance lc m' nq q max) found ids = Ok (found ++ omap (pick max) ids).
  Proof.
    induction ids as [|id ids IH]; intros found Hids; [cbn; by rewrite app_nil_r|].
    apply Forall_cons in Hids as [(v & ks' & Hv & Hne') Hids]. cbn [rfoldl omap list_omap].
    assert (m_decoder m' !! id = Some v) as D by (rewrite (ir_decoder _ _ R); apply Hv).
    unfold gather_instance at 1, pick at 1. rewrite D. cbn [rexpect rbind].
    destruct (damerau_total nq (vv_norm v) max) as [[ld|] ->]; cbn [rbind]; [|by apply IH].
    rewrite EW. destruct (make_distance_ok id v ks' ld Hv Hne') as (d & -> & _). cbn [rbind].
    rewrite IH by done. by rewrite <- app_assoc.
  Qed.

  Definition ids_at (h : N) : list vocab_id := match m_index m' !! h with Some nd => nd_instances nd | None => [] end.

  Lemma gather_all max near : Forall (fun h => is_Some (m_index m' !! h)) near ->
    Forall gatherable (mjoin (map ids_at near)) ->
    gather_instances lc m' near nq q max = Ok (omap (pick max) (mjoin (map ids_at near))).
  Proof.
    intros Hn Hg. unfold gather_instances.
    enough (forall found, rfoldl (fun found anahash => let* node := rexpect (m_index m' !! anahash) in
      rfoldl (gather_instance lc m' nq q max) found (nd_instances node)) found near =
      Ok (found ++ omap (pick max) (mjoin (map ids_at near)))) as -> by done.
    induction near as [|h near IH]; intros found; [cbn; by rewrite app_nil_r|].
    apply Forall_cons in Hn as [[nd Hnd] Hn]. cbn [map mjoin list_join] in *. apply Forall_app in Hg as [Hg1 Hg2].
    cbn [rfoldl]. rewrite Hnd. cbn [rexpect rbind].
    assert (ids_at h = nd_instances nd) as Eids by (unfold ids_at; by rewrite Hnd). rewrite Eids in *.
    rewrite gather_ids by done. cbn [rbind]. rewrite IH by done. rewrite omap_app. by rewrite app_assoc.
  Qed.

  (** the ids filed under different hashes are different *)
  Lemma ids_at_iff h id : id ∈ ids_at h <-> exists v, indexed m id v /\ anahash (m_alphabet m) (vv_text v) = Ok h.
  Proof.
    rewrite <- (ir_content _ _ R h id). unfold ids_at. destruct (m_index m' !! h) as [nd|]; split.
    - intros H. by exists nd.
    - intros (nd' & [= <-] & H). done.
    - intros H. by apply elem_of_nil in H.
    - intros (? & ? & _). done.
  Qed.
  Lemma ids_at_nodup near : NoDup near -> NoDup (mjoin (map ids_at near)).
  Proof.
    induction 1 as [|h near Hh Hnd IH]; [constructor|]. cbn. apply NoDup_app. split; [|split; [|done]].
    - unfold ids_at. destruct (m_index m' !! h) as [nd|] eqn:E; [|constructor].
      destruct (ir_node _ _ R h nd E) as [_ So]. clear -So. induction So as [|x l So IHs Hx]; [constructor|].
      constructor; [|done]. intros Hin. rewrite Forall_forall in Hx. specialize (Hx x Hin). lia.
    - intros id H1 H2. apply elem_of_list_join in H2 as (l & H2 & Hl).
      apply elem_of_list_fmap in Hl as (h' & -> & Hl). apply ids_at_iff in H1 as (v & [D _] & E1), H2 as (v' & [D' _] & E2).
      assert (v' = v) as -> by congruence. assert (h' = h) as -> by congruence. done.
  Qed.

  Lemma btree_list_perm (s : gset N) : btree_list s ≡ₚ elements s.
  Proof. apply merge_sort_Permutation. Qed.
  Lemma elem_of_btree_list (s : gset N) h : h ∈ btree_list s <-> h ∈ s.
  Proof. rewrite btree_list_perm. apply elem_of_elements. Qed.

  (** the order of the ids: by hash, then by number *)
  Lemma ssorted_app {X} (Rel : X -> X -> Prop) l1 l2 : StronglySorted Rel l1 -> StronglySorted Rel l2 ->
    (forall x y, x ∈ l1 -> y ∈ l2 -> Rel x y) -> StronglySorted Rel (l1 ++ l2).
  Proof.
    induction 1 as [|x l1 H1 IH Hx]; intros H2 H; [done|]. cbn. constructor.
    - apply IH; [done|]. intros a b Ha Hb. apply H; [by right|done].
    - apply Forall_app. split; [done|]. rewrite Forall_forall. intros y Hy. apply H; [left|done].
  Qed.
  Lemma btree_list_sorted (s : gset N) : StronglySorted N.lt (btree_list s).
  Proof.
    assert (StronglySorted N.le (btree_list s)) as So by (apply StronglySorted_merge_sort; intros x y; lia).
    assert (NoDup (btree_list s)) as Nd by (rewrite btree_list_perm; apply NoDup_elements).
    induction So as [|x l So IH Hx]; [constructor|]. apply NoDup_cons in Nd as [Nx Nd]. constructor; [by apply IH|].
    rewrite Forall_forall in *. intros y Hy. specialize (Hx y Hy). cbn in Hx. destruct (decide (x = y)) as [->|]; [done|lia].
  Qed.
  Lemma ids_sorted near : StronglySorted N.lt near -> StronglySorted (id_before m) (mjoin (map ids_at near)).
  Proof.
    induction 1 as [|h near So IH Hh]; [constructor|]. cbn. apply ssorted_app; [|done|].
    - assert (forall x, x ∈ ids_at h -> exists v, m_decoder m !! x = Some v /\ anahash (m_alphabet m) (vv_text v) = Ok h) as E.
      { intros x Hx. apply ids_at_iff in Hx as (v & [? _] & ?). by exists v. }
      assert (StronglySorted lt (ids_at h)) as Sl.
      { unfold ids_at. destruct (m_index m' !! h) as [nd|] eqn:En; [|constructor]. by destruct (ir_node _ _ R h nd En). }
      clear -E Sl. induction Sl as [|x l Sl IHs Hx]; [constructor|]. constructor.
      + apply IHs. intros y Hy. apply E. by right.
      + rewrite Forall_forall in *. intros y Hy. destruct (E x) as (v & ? & ?); [left|]. destruct (E y) as (v' & ? & ?); [by right|].
        exists v, v', h, h. split_and!; try done. right. split; [done|]. by apply Hx.
    - intros x y Hx Hy. apply ids_at_iff in Hx as (v & [? _] & ?). apply elem_of_list_join in Hy as (l & Hy & Hl).
      apply elem_of_list_fmap in Hl as (h' & -> & Hl). apply ids_at_iff in Hy as (v' & [? _] & ?).
      exists v, v', h, h'. split_and!; try done. left. rewrite Forall_forall in Hh. by apply Hh.
  Qed.

  (** ** The whole, for a set of hashes described by their bags *)
  Context (maxd : nat) (Hmaxd : maxd <= 255).
  Context (P : list nat -> Prop) (HP : forall ks1 ks2, ks1 ≡ₚ ks2 -> P ks1 -> P ks2) (HPne : forall ks', P ks' -> ks' <> []).
  Context (near : gset N) (Hnear : forall h, h ∈ near <-> exists ks', entry_bag m h ks' /\ P ks').

  Lemma near_ids id : id ∈ mjoin (map ids_at (btree_list near)) <-> exists v ks', entry_reading m id v ks' /\ P ks'.
  Proof.
    rewrite elem_of_list_join. split.
    - intros (l & Hl & Hin). apply elem_of_list_fmap in Hin as (h & -> & Hin). rewrite elem_of_btree_list in Hin.
      apply Hnear in Hin as (ks' & Hb & HPk). apply ids_at_iff in Hl as (v & Hi & Hh).
      destruct (reads_total _ (vv_text v) HA) as [k2 Hr2]. exists v, k2. split; [done|]. apply (HP ks'); [|done].
      rewrite (anahash_reads _ _ _ HA Hr2) in Hh. injection Hh as Hh.
      pose proof (entry_bag_below m m' HA R EA HS _ _ Hb). destruct Hb as (? & ? & _ & ->).
      symmetry. apply prod_inj; [by eapply reads_below168|done|done].
    - intros (v & ks' & [Hi Hr'] & HPk). exists (ids_at (prod ks')). split.
      + apply ids_at_iff. exists v. split; [done|]. by apply anahash_reads.
      + apply elem_of_list_fmap. exists (prod ks'). split; [done|]. apply elem_of_btree_list, Hnear.
        exists ks'. split; [|done]. by exists id, v.
  Qed.

  Lemma gather_near :
    exists inst, gather_instances lc m' (btree_list near) nq q maxd = Ok inst /\ NoDup (map fst inst) /\
      (forall id d, (id, d) ∈ inst -> exists v ks', entry_reading m id v ks' /\ P ks' /\ measured (length ks) d) /\
      (length ks <= 255 -> forall id d, (id, d) ∈ inst <->
        exists v ks', entry_reading m id v ks' /\ P ks' /\ distance_between lc w q ks (vv_text v) ks' d /\ d_ld d <= maxd) /\
      (forall id v, entry_reading m id v ks -> P ks -> exists d, (id, d) ∈ inst /\ d_ld d = 0 /\
        distance_between lc w q ks (vv_text v) ks d) /\
      StronglySorted (id_before m) (map fst inst).
  Proof.
    pose proof near_ids as NI. set (ids := mjoin (map ids_at (btree_list near))) in *.
    exists (omap (pick maxd) ids).
    assert (forall id d, (id, d) ∈ omap (pick maxd) ids <-> id ∈ ids /\ pick maxd id = Some (id, d)) as Hin.
    { intros id d. rewrite elem_of_list_omap. split.
      - intros (x & Hx & E). assert (x = id) as -> by (unfold pick in E; by repeat case_match; simplify_eq). done.
      - intros [Hx E]. by exists id. }
    split_and!.
    - apply gather_all.
      + rewrite Forall_forall. intros h Hh. rewrite elem_of_btree_list in Hh. apply Hnear in Hh as (ks' & Hb & _).
        by apply (indexed_hash_bag m m' HA R EA HS h); exists ks'.
      + rewrite Forall_forall. intros id Hid. apply NI in Hid as (v & ks' & ? & Hp). exists v, ks'. split; [done|]. by apply HPne.
    - assert (NoDup ids) as Hnd by (apply ids_at_nodup; rewrite btree_list_perm; apply NoDup_elements).
      clear -Hnd. induction Hnd as [|id ids Hid Hnd IH]; [constructor|]. cbn.
      destruct (pick maxd id) as [[id' d]|] eqn:E; [|done]. cbn.
      assert (id' = id) as -> by (unfold pick in E; by repeat case_match; simplify_eq).
      constructor; [|done]. intros Hx. apply Hid. apply elem_of_list_fmap in Hx as ([i e] & -> & Hx). cbn.
      apply elem_of_list_omap in Hx as (y & Hy & Ey). assert (y = i) as -> by (unfold pick in Ey; by repeat case_match; simplify_eq). done.
    - intros id d [Hid E]%Hin. apply NI in Hid as (v & ks' & Hv & Hp). exists v, ks'. split; [done|]. split; [done|].
      revert E. unfold pick. assert (m_decoder m' !! id = Some v) as -> by (rewrite (ir_decoder _ _ R); apply Hv).
      destruct (damerau_levenshtein _ _ _) as [[ld|]|]; [|done..].
      destruct (make_distance_ok id v ks' ld Hv (HPne _ Hp)) as (d' & -> & _ & Hm & _). by intros [= <-].
    - intros H255 id d. rewrite Hin, NI.
      assert (forall v ks', entry_reading m id v ks' -> P ks' ->
        pick maxd id = Some (id, d) <-> distance_between lc w q ks (vv_text v) ks' d /\ d_ld d <= maxd) as Key.
      { intros v ks' Hv Hp. unfold pick.
        assert (m_decoder m' !! id = Some v) as -> by (rewrite (ir_decoder _ _ R); apply Hv).
        destruct (damerau_spec nq (vv_norm v) maxd) as (ld & Hld & E); [by rewrite map_length|done|]. rewrite E. clear E.
        rewrite (entry_norm _ _ _ Hv), nq_swap in Hld. rewrite (min_edits_map_iff _ (swap_unk_invol _)) in Hld.
        destruct (make_distance_ok id v ks' ld Hv (HPne _ Hp)) as (d' & E & El & _ & Hd'). specialize (Hd' Hld).
        destruct (Nat.leb_spec ld maxd).
        - rewrite E. split.
          + intros [= <-]. split; [done|]. lia.
          + intros [Hd _]. do 2 f_equal. by eapply distance_unique.
        - split; [done|]. intros [Hd ?]. exfalso.
          assert (d_ld d = ld) by (eapply min_edits_unique; [apply Hd|done]). lia. }
      split.
      + intros ((v & ks' & Hv & Hp) & E). exists v, ks'. split; [done|]. split; [done|]. by apply (Key v ks').
      + intros (v & ks' & Hv & Hp & E). split; [by exists v, ks'|]. by apply (Key v ks').
    - intros id v Hv Hp. destruct (make_distance_ok id v ks 0 Hv Hne) as (d & E & El & _ & Hd).
      exists d. split; [|split; [done|]].
      + apply Hin. split; [apply NI; by exists v, ks|]. unfold pick.
        assert (m_decoder m' !! id = Some v) as -> by (rewrite (ir_decoder _ _ R); apply Hv).
        rewrite (entry_norm _ _ _ Hv), <- nq_swap. rewrite damerau_refl. by rewrite E.
      + apply Hd. split; [constructor|]. intros; lia.
    - assert (StronglySorted (id_before m) ids) as So by (apply ids_sorted, btree_list_sorted).
      clear -So. induction So as [|id ids So IH Hid]; [constructor|]. cbn.
      destruct (pick maxd id) as [[id' d]|] eqn:E; [|done]. cbn.
      assert (id' = id) as -> by (unfold pick in E; by repeat case_match; simplify_eq).
      constructor; [done|]. rewrite Forall_forall in *. intros x Hx. apply Hid. apply elem_of_list_fmap in Hx as ([i e] & -> & Hx). cbn.
      apply elem_of_list_omap in Hx as (y & Hy & Ey). assert (y = i) as -> by (unfold pick in Ey; by repeat case_match; simplify_eq). done.
  Qed.
End gather.
