(** The search index after [build]. *)
From Coq Require Import Lia Sorted.
From stdpp Require Import sorting.
From Verif Require Import M_Base M_Anahash M_Iter M_Float M_Types M_Model S_Anahash S_Iter S_Model M_Distance P_Primes P_Base P_Anahash P_Iter P_Recurse P_Model P_Vocab.
From stdpp Require Import options.

Lemma hash_entries_total A dec : alphabet_ok A -> forall k, exists hs, hash_entries A k dec = Ok hs.
Proof.
  intros HA. induction dec as [|v dec IH]; intros k; cbn; [by eexists|].
  destruct (IH (S k)) as [hs E]. rewrite E. destruct (vt_check _ _); [|by eexists].
  destruct (hash_total A (vv_text v) HA) as [[h ->] _]. cbn. by eexists.
Qed.
Lemma hash_entries_spec A dec : forall k hs, hash_entries A k dec = Ok hs ->
  StronglySorted lt (map snd hs) /\
  forall h id, (h, id) ∈ hs <-> k <= id /\ exists v, dec !! (id - k) = Some v /\
    flag (vv_type v) searchable_bit = true /\ anahash A (vv_text v) = Ok h.
Proof.
  induction dec as [|v dec IH]; intros k hs; cbn.
  - intros [= <-]. split; [constructor|]. intros h id. rewrite elem_of_nil, lookup_nil. naive_solver.
  - rewrite vt_check_indexed.
    assert (forall id h, k <= id /\ (exists v', (v :: dec) !! (id - k) = Some v' /\
        flag (vv_type v') searchable_bit = true /\ anahash A (vv_text v') = Ok h) <->
      (id = k /\ flag (vv_type v) searchable_bit = true /\ anahash A (vv_text v) = Ok h) \/
      (S k <= id /\ exists v', dec !! (id - S k) = Some v' /\
        flag (vv_type v') searchable_bit = true /\ anahash A (vv_text v') = Ok h)) as G.
    { intros id h. destruct (decide (id = k)) as [->|Hne].
      - rewrite Nat.sub_diag. cbn. split.
        + intros [_ (v' & [= <-] & ?)]. auto.
        + intros [(_ & ?)|[? _]]; [|lia]. split; [lia|]. eauto.
      - destruct (decide (k < id)) as [Hlt|]; [|split; [intros [? _]; lia|intros [[? _]|[? _]]; lia]].
        assert (id - k = S (id - S k)) as -> by lia. cbn. split.
        + intros [_ ?]. right. split; [lia|done].
        + intros [[? _]|[_ ?]]; [lia|]. split; [lia|done]. }
    change (flag (vv_type v) searchable_bit) with (N.testbit (vv_type v) 0) in G.
    destruct (N.testbit (vv_type v) 0) eqn:F.
    + intros H. apply rbind_ok in H as (h & E & H). apply rbind_ok in H as (rest & Er & H). injection H as <-.
      destruct (IH _ _ Er) as [Hs Hr]. split.
      * cbn. constructor; [done|]. apply Forall_forall. intros id Hid.
        apply elem_of_list_fmap in Hid as ([h' id'] & -> & Hin). apply Hr in Hin. cbn. lia.
      * intros h' id. rewrite elem_of_cons, G, Hr. split.
        -- intros [[= -> ->]|?]; [left; auto|auto].
        -- intros [(-> & _ & E')|?]; [left|auto]. congruence.
    + intros H. destruct (IH _ _ H) as [Hs Hr]. split; [done|]. intros h id. rewrite G, Hr. naive_solver.
Qed.

(** ids filed under a hash *)
Definition ids_of (h : N) (hs : list (N * vocab_id)) : list vocab_id := map snd (filter (fun x => x.1 = h) hs).
Lemma ids_of_app h hs hs' : ids_of h (hs ++ hs') = ids_of h hs ++ ids_of h hs'.
Proof. unfold ids_of. by rewrite filter_app, map_app. Qed.
Lemma elem_of_ids_of h hs id : id ∈ ids_of h hs <-> (h, id) ∈ hs.
Proof.
  unfold ids_of. rewrite elem_of_list_fmap. split.
  - intros ([h' i] & -> & [E Hin]%elem_of_list_filter). cbn in *. by subst.
  - intros Hin. exists (h, id). split; [done|]. apply elem_of_list_filter. done.
Qed.
Lemma ids_of_sorted h hs : StronglySorted lt (map snd hs) -> StronglySorted lt (ids_of h hs).
Proof.
  unfold ids_of. induction hs as [|[h' i] hs IH]; cbn [map]; [done|]. inversion 1 as [|? ? Hs Hf]; subst.
  rewrite filter_cons. destruct (decide _); cbn; [|by apply IH]. constructor; [by apply IH|].
  apply Forall_forall. intros x Hx. rewrite Forall_forall in Hf. apply Hf.
  apply elem_of_list_fmap in Hx as (y & -> & [_ Hy]%elem_of_list_filter). apply elem_of_list_fmap. eauto.
Qed.

Definition index_for (asz : nat) (hs : list (N * vocab_id)) (ix : gmap N node) : Prop :=
  forall h, match ids_of h hs with
            | [] => ix !! h = None
            | ids => exists cc, ix !! h = Some (Node ids cc) /\ char_count h asz = Ok cc
            end.
Lemma index_run asz hs : forall ix, rfoldl (index_instance asz) ∅ hs = Ok ix -> index_for asz hs ix.
Proof.
  induction hs as [|[h0 id] hs IH] using rev_ind; intros ix.
  - cbn. intros [= <-] h. cbn. by rewrite lookup_empty.
  - rewrite rfoldl_app. intros H. apply rbind_ok in H as (ix1 & E & H). apply IH in E.
    cbn in H. apply rbind_ok in H as (ix2 & E2 & H). injection H as <-.
    unfold index_instance in E2. cbn in E2. intros h. rewrite ids_of_app. pose proof (E h) as Eh.
    assert (ids_of h [(h0, id)] = if decide (h0 = h) then [id] else []) as ->.
    { unfold ids_of. rewrite filter_cons. cbn [fst]. by destruct (decide _). }
    destruct (decide (h0 = h)) as [->|Hne].
    + destruct (ids_of h hs) as [|i ids] eqn:Ei.
      * rewrite Eh in E2. apply rbind_ok in E2 as (cc & Ec & E2). injection E2 as <-. cbn.
        exists cc. by rewrite lookup_insert.
      * destruct Eh as (cc & El & Ec). rewrite El in E2. injection E2 as <-. cbn. exists cc.
        by rewrite lookup_insert.
    + rewrite app_nil_r. assert (ix2 !! h = ix1 !! h) as Hx.
      { destruct (ix1 !! h0); [injection E2 as <-|apply rbind_ok in E2 as (cc & _ & E2); injection E2 as <-];
          by rewrite lookup_insert_ne. }
      destruct (ids_of h hs); by rewrite Hx.
Qed.

Lemma char_count_mod asz ks : bag_ok asz ks -> char_count (prod ks) asz = Ok (as_u16 (N.of_nat (length ks))).
Proof.
  intros Hb. unfold char_count.
  destruct (iter_run asz ks _ Hb (le_n _)) as (l & -> & Hp & _ & _). cbn.
  f_equal. apply Permutation_length in Hp. rewrite map_length in Hp. by rewrite Hp.
Qed.
Lemma reads_bag_ok A t ks : alphabet_ok A -> reads A t ks -> bag_ok (S (length A)) ks.
Proof.
  intros [HA _] H. split; [lia|]. apply reads_bound in H. eapply Forall_impl; [exact H|]. cbn. lia.
Qed.
Lemma char_count_reads A t ks h :
  alphabet_ok A -> reads A t ks -> anahash A t = Ok h ->
  char_count h (S (length A)) = Ok (as_u16 (N.of_nat (length ks))).
Proof.
  intros HA Hr Hh. rewrite (anahash_reads _ _ _ HA Hr) in Hh. injection Hh as <-.
  apply char_count_mod. by eapply reads_bag_ok.
Qed.

(** the index run succeeds *)
Lemma index_total asz hs :
  (forall h id, (h, id) ∈ hs -> exists cc, char_count h asz = Ok cc) ->
  exists ix, rfoldl (index_instance asz) ∅ hs = Ok ix.
Proof.
  generalize (∅ : gmap N node) as ix. induction hs as [|[h id] hs IH]; intros ix H; cbn; [by eexists|].
  assert (exists ix', index_instance asz ix (h, id) = Ok ix') as [ix' ->].
  { unfold index_instance. cbn. destruct (ix !! h); [by eexists|].
    destruct (H h id) as [cc ->]; [left|]. cbn. by eexists. }
  cbn. apply IH. intros h' id' Hin. eapply H. by right.
Qed.

(** ** hashes by size *)
Lemma collect_lookup l : forall c,
  foldl collect_size ∅ l !! c =
  match filter (fun e => nd_charcount e.2 = c) l with [] => None | l' => Some (map fst l') end.
Proof.
  induction l as [|e l IH] using rev_ind; intros c.
  - cbn. by rewrite lookup_empty.
  - rewrite foldl_app, filter_app. cbn [foldl]. unfold collect_size at 1.
    rewrite filter_cons. cbn [filter list_filter]. destruct (decide (nd_charcount e.2 = c)) as [<-|Hne].
    + rewrite lookup_insert, IH.
      destruct (filter _ l) as [|x l'] eqn:E; [done|]. cbn. by rewrite map_app.
    + rewrite lookup_insert_ne, IH by done. by rewrite app_nil_r.
Qed.

Lemma sort_keys_perm l : sort_keys l ≡ₚ l.
Proof. apply merge_sort_Permutation. Qed.
Lemma sort_keys_sorted l : Sorted N.le (sort_keys l).
Proof. apply Sorted_merge_sort. intros x y. lia. Qed.
Lemma sort_keys_unique l l' : l ≡ₚ l' -> sort_keys l = sort_keys l'.
Proof.
  intros H. apply (Sorted_unique N.le); [apply sort_keys_sorted..|].
  by rewrite !sort_keys_perm.
Qed.
Lemma sorted_lt l : NoDup l -> Sorted N.le l -> StronglySorted N.lt l.
Proof.
  intros Hn Hs. apply Sorted_StronglySorted in Hs; [|intros ? ? ?; lia].
  induction Hs as [|x l Hs IH Hf]; [constructor|]. apply NoDup_cons in Hn as [Hx Hn]. constructor; [by apply IH|].
  apply Forall_forall. intros y Hy. rewrite Forall_forall in Hf. specialize (Hf y Hy).
  assert (x <> y) by congruence. lia.
Qed.

Definition six_of (o : list (N * node) -> list (N * node)) (ix : gmap N node) : gmap N (list N) :=
  sort_keys <$> foldl collect_size ∅ (o (map_to_list ix)).
Lemma six_order o1 o2 ix : some_order o1 -> some_order o2 -> six_of o1 ix = six_of o2 ix.
Proof.
  intros H1 H2. apply map_eq. intros c. unfold six_of. rewrite !lookup_fmap, !collect_lookup.
  assert (filter (fun e => nd_charcount e.2 = c) (o1 (map_to_list ix)) ≡ₚ
          filter (fun e => nd_charcount e.2 = c) (o2 (map_to_list ix))) as P by (by rewrite (H1 _), (H2 _)).
  destruct (filter _ (o1 _)) as [|x l] eqn:E1, (filter _ (o2 _)) as [|y l'] eqn:E2.
  - done.
  - by apply Permutation_nil_cons in P.
  - symmetry in P. by apply Permutation_nil_cons in P.
  - cbn [fmap option_fmap option_map]. f_equal. apply sort_keys_unique. by apply (Permutation_map fst) in P.
Qed.
Lemma six_lookup o ix c : some_order o ->
  match six_of o ix !! c with
  | None => forall h nd, ix !! h = Some nd -> nd_charcount nd <> c
  | Some keys => keys <> [] /\ StronglySorted N.lt keys /\
      forall h, h ∈ keys <-> exists nd, ix !! h = Some nd /\ nd_charcount nd = c
  end.
Proof.
  intros Ho. unfold six_of. rewrite lookup_fmap, collect_lookup.
  assert (forall h nd, (h, nd) ∈ filter (fun e => nd_charcount e.2 = c) (o (map_to_list ix)) <->
    ix !! h = Some nd /\ nd_charcount nd = c) as G.
  { intros h nd. rewrite elem_of_list_filter, (Ho _), elem_of_map_to_list. cbn. tauto. }
  assert (NoDup (map fst (filter (fun e => nd_charcount e.2 = c) (o (map_to_list ix))))) as Hn.
  { assert (NoDup (map fst (o (map_to_list ix)))) as Hn.
    { pose proof (Permutation_map fst (Ho (map_to_list ix))) as Pm. rewrite Pm. apply (NoDup_fst_map_to_list ix). }
    clear G. induction (o (map_to_list ix)) as [|e l IH]; [constructor|]. cbn in Hn. apply NoDup_cons in Hn as [Hx Hn].
    rewrite filter_cons. destruct (decide _); cbn; [|by apply IH]. apply NoDup_cons. split; [|by apply IH].
    intros Hin. apply Hx. apply elem_of_list_fmap in Hin as (y & -> & [_ Hy]%elem_of_list_filter).
    apply elem_of_list_fmap. eauto. }
  destruct (filter _ _) as [|x l] eqn:E.
  - cbn. intros h nd Hh Hc. assert ((h, nd) ∈ ([] : list (N * node))) as H by (by apply G). by apply elem_of_nil in H.
  - set (keys := map fst (x :: l)) in *. cbn [fmap option_fmap option_map]. split; [|split].
    + intros Hk. pose proof (sort_keys_perm keys) as P. rewrite Hk in P. by apply Permutation_nil_cons in P.
    + apply sorted_lt; [|apply sort_keys_sorted]. by rewrite sort_keys_perm.
    + intros h. rewrite sort_keys_perm. unfold keys. rewrite elem_of_list_fmap. split.
      * intros ([h' nd] & -> & Hin). apply G in Hin. eauto.
      * intros (nd & Hin). apply G in Hin. exists (h, nd). done.
Qed.

(** ** the index half of build *)
Lemma build_index_ok o m : alphabet_ok (m_alphabet m) -> exists m', build_index o m = Ok m'.
Proof.
  intros HA. unfold build_index. destruct (hash_entries_total _ (m_decoder m) HA 0) as [hs E]. rewrite E. cbn [rbind].
  destruct (hash_entries_spec _ _ _ _ E) as [_ Hs]. destruct hs as [|x hs]; [by eexists|].
  rewrite (alphabet_size_ok _ HA). cbn [rbind].
  destruct (index_total (S (length (m_alphabet m))) (x :: hs)) as [ix ->]; [|by eexists].
  intros h id Hin. apply Hs in Hin as (_ & v & _ & _ & Hh). destruct (reads_total _ (vv_text v) HA) as [ks Hr].
  eexists. by eapply char_count_reads.
Qed.

Lemma build_index_inv o m m' :
  alphabet_ok (m_alphabet m) -> build_index o m = Ok m' ->
  exists hs ix, hash_entries (m_alphabet m) 0 (m_decoder m) = Ok hs /\
    index_for (S (length (m_alphabet m))) hs ix /\ m' = with_index m ix (six_of o ix).
Proof.
  intros HA. unfold build_index. intros H. apply rbind_ok in H as (hs & E & H). apply rbind_ok in H as (ix & E2 & H).
  exists hs, ix. split; [done|]. split; [|by injection H as <-].
  destruct hs as [|x hs].
  - injection E2 as <-. intros h. cbn. by rewrite lookup_empty.
  - rewrite (alphabet_size_ok _ HA) in E2. by apply index_run.
Qed.

Lemma index_for_det asz hs ix ix' : index_for asz hs ix -> index_for asz hs ix' -> ix = ix'.
Proof.
  intros H H'. apply map_eq. intros h. specialize (H h). specialize (H' h). destruct (ids_of h hs); [congruence|].
  destruct H as (c & -> & ?), H' as (c' & -> & ?). congruence.
Qed.

Lemma build_index_right o m m' :
  alphabet_ok (m_alphabet m) -> some_order o -> build_index o m = Ok m' -> index_right m m'.
Proof.
  intros HA Ho H. destruct (build_index_inv _ _ _ HA H) as (hs & ix & E & Hx & ->).
  destruct (hash_entries_spec _ _ _ _ E) as [Hso Hs]. cbn.
  assert (forall h id, (exists nd, ix !! h = Some nd /\ id ∈ nd_instances nd) <-> (h, id) ∈ hs) as G.
  { intros h id. rewrite <- elem_of_ids_of. specialize (Hx h). destruct (ids_of h hs) as [|i ids].
    - rewrite Hx. rewrite elem_of_nil. naive_solver.
    - destruct Hx as (cc & -> & _). split; [intros (nd & [= <-] & ?); done|]. intros ?. by eexists. }
  assert (forall h id, (h, id) ∈ hs <-> exists v, indexed m id v /\ anahash (m_alphabet m) (vv_text v) = Ok h) as G2.
  { intros h id. rewrite Hs. rewrite Nat.sub_0_r. unfold indexed. split.
    - intros (_ & v & ? & ? & ?). eauto.
    - intros (v & [? ?] & ?). split; [lia|]. eauto. }
  split; cbn.
  - done.
  - intros h id. by rewrite G.
  - intros h nd Hh. specialize (Hx h). pose proof (ids_of_sorted h hs Hso). destruct (ids_of h hs) as [|i ids]; [congruence|].
    destruct Hx as (cc & Hh' & _). assert (nd = Node (i :: ids) cc) as -> by congruence. done.
  - intros h nd id v ks Hh Hin D Hr.
    assert ((h, id) ∈ hs) as Hin' by (apply G; eauto). apply G2 in Hin' as (v' & [D' _] & Hv').
    assert (v' = v) as -> by congruence. specialize (Hx h). destruct (ids_of h hs) as [|i ids]; [congruence|].
    destruct Hx as (cc & Hh' & Hc). rewrite (char_count_reads _ _ _ _ HA Hr Hv') in Hc.
    assert (nd = Node (i :: ids) cc) as -> by congruence. cbn. congruence.
  - intros c. by apply six_lookup.
Qed.

Lemma build_right o o' m m' :
  alphabet_ok (m_alphabet m) -> some_order o -> some_order o' -> build o o' m = Ok m' -> index_right m m'.
Proof.
  intros HA Ho Ho' H. destruct (build_split _ _ _ _ Ho' H) as (m1 & ng & fs & E & _ & ->).
  destruct (build_index_right _ _ _ HA Ho E) as [? ? ? ? ?]. by split.
Qed.

Lemma build_index_again o1 o2 m m1 m2 ng fs b :
  alphabet_ok (m_alphabet m) -> some_order o1 -> some_order o2 ->
  build_index o1 m = Ok m1 -> build_index o2 (with_lm m1 ng fs b) = Ok m2 ->
  m_index m2 = m_index m1 /\ m_sortedindex m2 = m_sortedindex m1 /\
  m_decoder m2 = m_decoder m1 /\ m_encoder m2 = m_encoder m1.
Proof.
  intros HA H1 H2 B1 B2. pose proof (build_index_vocab _ _ _ B1) as (D1 & E1 & A1).
  destruct (build_index_inv _ _ _ HA B1) as (hs & ix & Eh & Hx & ->).
  destruct (build_index_inv o2 (with_lm (with_index m ix (six_of o1 ix)) ng fs b) m2 HA B2) as (hs2 & ix2 & Eh2 & Hx2 & ->).
  cbn in *. assert (hs2 = hs) as -> by congruence. assert (ix2 = ix) as -> by (by eapply index_for_det).
  split_and!; try done. by apply six_order.
Qed.
Lemma build_again o1 o1' o2 o2' m m1 m2 :
  alphabet_ok (m_alphabet m) -> some_order o1 -> some_order o1' -> some_order o2 -> some_order o2' ->
  build o1 o1' m = Ok m1 -> build o2 o2' m1 = Ok m2 ->
  m_index m2 = m_index m1 /\ m_sortedindex m2 = m_sortedindex m1 /\
  m_decoder m2 = m_decoder m1 /\ m_encoder m2 = m_encoder m1.
Proof.
  intros HA H1 H1' H2 H2' B1 B2.
  destruct (build_split _ _ _ _ H1' B1) as (n1 & ng & fs & E1 & _ & ->).
  destruct (build_split _ _ _ _ H2' B2) as (n2 & ng2 & fs2 & E2 & _ & ->).
  exact (build_index_again o1 o2 m n1 n2 ng fs _ HA H1 H2 E1 E2).
Qed.
(** the iteration order of the hash maps does not matter *)
Lemma build_order o1 o1' o2 o2' m m1 m2 :
  alphabet_ok (m_alphabet m) -> some_order o1 -> some_order o1' -> some_order o2 -> some_order o2' ->
  build o1 o1' m = Ok m1 -> build o2 o2' m = Ok m2 -> m1 = m2.
Proof.
  intros HA H1 H1' H2 H2' B1 B2.
  destruct (build_split _ _ _ _ H1' B1) as (n1 & ng & fs & E1 & F1 & ->).
  destruct (build_split _ _ _ _ H2' B2) as (n2 & ng2 & fs2 & E2 & F2 & ->).
  assert (n1 = n2) as ->; [|by rewrite F1 in F2; injection F2 as -> ->].
  destruct (build_index_inv _ _ _ HA E1) as (hs & ix & Eh & Hx & ->).
  destruct (build_index_inv _ _ _ HA E2) as (hs2 & ix2 & Eh2 & Hx2 & ->).
  assert (hs2 = hs) as -> by congruence. assert (ix2 = ix) as -> by (by eapply index_for_det).
  f_equal. by apply six_order.
Qed.

(** ** lookups by text *)
Lemma rmapM_expect {B} (dec : list B) ids :
  (forall id, id ∈ ids -> exists v, dec !! id = Some v) ->
  exists vs, rmapM (fun id => rexpect (dec !! id)) ids = Ok vs /\ Forall2 (fun id v => dec !! id = Some v) ids vs.
Proof.
  induction ids as [|id ids IH]; intros H; [exists []; split; [done|constructor]|].
  destruct (H id) as [v Hv]; [left|]. destruct IH as (vs & E & F); [intros; apply H; by right|].
  exists (v :: vs). cbn. rewrite Hv. cbn. rewrite E. cbn. split; [done|by constructor].
Qed.

Lemma anagram_instances_spec m m' t :
  alphabet_ok (m_alphabet m) -> m_alphabet m' = m_alphabet m -> index_right m m' ->
  exists vs, get_anagram_instances m' t = Ok vs /\
    forall v, v ∈ vs <-> exists id, indexed m id v /\ anahash (m_alphabet m) (vv_text v) = anahash (m_alphabet m) t.
Proof.
  intros HA EA R. unfold get_anagram_instances. rewrite EA. destruct (hash_total _ t HA) as [[h Hh] _]. rewrite Hh. cbn [rbind].
  destruct (m_index m' !! h) as [nd|] eqn:E.
  - destruct (rmapM_expect (m_decoder m') (nd_instances nd)) as (vs & Ev & F).
    { intros id Hid. destruct (proj1 (ir_content _ _ R h id)) as (v & [D _] & _); [eauto|]. rewrite (ir_decoder _ _ R). eauto. }
    exists vs. split; [done|]. rewrite (ir_decoder _ _ R) in F. intros v. split.
    + intros Hv. apply elem_of_list_lookup in Hv as [i Hi]. destruct (Forall2_lookup_r _ _ _ _ _ F Hi) as (id & Hid & D).
      destruct (proj1 (ir_content _ _ R h id)) as (v' & [D' Fl] & Hv'); [apply elem_of_list_lookup_2 in Hid; eauto|].
      assert (v' = v) as -> by congruence. exists id. done.
    + intros (id & I & Hv). destruct (proj2 (ir_content _ _ R h id)) as (nd' & E' & Hid); [eauto|].
      assert (nd' = nd) as -> by congruence. apply elem_of_list_lookup in Hid as [i Hi].
      destruct (Forall2_lookup_l _ _ _ _ _ F Hi) as (v' & Hv' & D). destruct I as [D' _].
      assert (v' = v) as -> by congruence. by apply elem_of_list_lookup_2 in Hv'.
  - exists []. split; [done|]. intros v. split; [intros H; by apply elem_of_nil in H|].
    intros (id & I & Hv). destruct (proj2 (ir_content _ _ R h id)) as (nd' & E' & Hid); [eauto|]. congruence.
Qed.

Lemma has_spec m m' t :
  alphabet_ok (m_alphabet m) -> m_alphabet m' = m_alphabet m -> index_right m m' ->
  exists b, has m' t = Ok b /\ (b = true <-> exists id v, indexed m id v /\ vv_text v = t).
Proof.
  intros HA EA R. destruct (anagram_instances_spec _ _ t HA EA R) as (vs & E & F). unfold has. rewrite E. cbn.
  eexists. split; [done|]. rewrite existsb_exists. split.
  - intros (v & Hin & Ht). apply elem_of_list_In, F in Hin as (id & I & _). exists id, v. split; [done|].
    by apply bool_decide_eq_true in Ht.
  - intros (id & v & I & Ht). exists v. split; [|by apply bool_decide_eq_true].
    apply elem_of_list_In, F. exists id. split; [done|]. by rewrite Ht.
Qed.
Lemma get_spec m m' t :
  lookups_inverse m -> alphabet_ok (m_alphabet m) -> m_alphabet m' = m_alphabet m -> index_right m m' ->
  exists r, get m' t = Ok r /\ forall v, r = Some v <-> exists id, indexed m id v /\ vv_text v = t.
Proof.
  intros W HA EA R. destruct (anagram_instances_spec _ _ t HA EA R) as (vs & E & F). unfold get. rewrite E. cbn.
  eexists. split; [done|]. intros v. split.
  - intros H. apply find_some in H as [Hin Ht]. apply elem_of_list_In, F in Hin as (id & I & _). exists id. split; [done|].
    by apply bool_decide_eq_true in Ht.
  - intros (id & I & Ht). destruct (find _ vs) as [v'|] eqn:Ef.
    + apply find_some in Ef as [Hin Ht']. apply bool_decide_eq_true in Ht'.
      apply elem_of_list_In, F in Hin as (id' & I' & _). f_equal.
      assert (m_encoder m !! t = Some id) as E1 by (apply W; destruct I; eauto).
      assert (m_encoder m !! t = Some id') as E2 by (apply W; destruct I'; eauto).
      destruct I, I'. congruence.
    + exfalso. pose proof (find_none _ _ Ef v) as Hn. cbn in Hn. rewrite bool_decide_eq_false in Hn. apply Hn; [|done].
      apply elem_of_list_In, F. exists id. split; [done|]. by rewrite Ht.
Qed.

Lemma lookup_built o o' m m' t :
  lookups_inverse m -> alphabet_ok (m_alphabet m) -> some_order o -> some_order o' -> build o o' m = Ok m' ->
  (exists b, has m' t = Ok b /\ (b = true <-> exists id v, indexed m id v /\ vv_text v = t)) /\
  (exists r, get m' t = Ok r /\ forall v, r = Some v <-> exists id, indexed m id v /\ vv_text v = t) /\
  (exists vs, get_anagram_instances m' t = Ok vs /\
    forall v, v ∈ vs <-> exists id, indexed m id v /\ anahash (m_alphabet m) (vv_text v) = anahash (m_alphabet m) t).
Proof.
  intros W HA Ho Ho' B. pose proof (build_right _ _ _ _ HA Ho Ho' B) as R.
  assert (m_alphabet m' = m_alphabet m) as EA by (by apply (build_keeps o o' m m' Ho' B W)).
  split; [by apply has_spec|]. split; [by apply get_spec|by apply anagram_instances_spec].
Qed.

Lemma lm_step_no_lm m st id st' :
  (forall id v, m_decoder m !! id = Some v -> flag (vv_type v) lm_bit = false) ->
  lm_step m st id = Ok st' -> st' = st.
Proof.
  intros Hn. destruct st as [[ng fs] u]. unfold lm_step. intros H. apply rbind_ok in H as (v & D%rexpect_ok & H).
  rewrite vt_check_lm in H. pose proof (Hn _ _ D) as Hf. unfold flag, lm_bit in Hf. rewrite Hf in H. by injection H as <-.
Qed.
Lemma build_again_no_lm o1 o1' o2 o2' m m1 m2 :
  alphabet_ok (m_alphabet m) -> some_order o1 -> some_order o1' -> some_order o2 -> some_order o2' ->
  (forall id v, m_decoder m !! id = Some v -> flag (vv_type v) lm_bit = false) ->
  build o1 o1' m = Ok m1 -> build o2 o2' m1 = Ok m2 -> m2 = m1.
Proof.
  intros HA H1 H1' H2 H2' Hn B1 B2.
  destruct (build_again o1 o1' o2 o2' m m1 m2) as (I & SI & D & E); try done.
  destruct (build_split _ _ _ _ H1' B1) as (n1 & ng & fs & E1 & F1 & Em1).
  destruct (build_split _ _ _ _ H2' B2) as (n2 & ng2 & fs2 & E2 & F2 & Em2).
  pose proof (build_index_vocab _ _ _ E1) as (D1 & _). pose proof (build_index_vocab _ _ _ E2) as (D2 & _).
  assert (forall m0, m_decoder m0 = m_decoder m -> forall st l st', rfoldl (lm_step m0) st l = Ok st' -> st' = st) as G.
  { intros m0 D0 st l st' R. refine (rfoldl_inv (fun x => x = st) _ _ _ _ _ _ R); [|done].
    intros b a b' -> S. eapply lm_step_no_lm; [|exact S]. rewrite D0. exact Hn. }
  apply G in F1; [|done]. injection F1 as -> ->.
  apply G in F2; [|rewrite D2, Em1; exact D1]. injection F2 as -> ->.
  destruct (build_index_inv _ _ _ HA E1) as (hs & ix & Eh & Hx & En1).
  assert (alphabet_ok (m_alphabet m1)) as HA1 by (by rewrite Em1, En1).
  destruct (build_index_inv _ _ _ HA1 E2) as (hs2 & ix2 & Eh2 & Hx2 & En2).
  subst. cbn in *. subst. unfold with_lm, with_index. cbn. f_equal. done.
Qed.
