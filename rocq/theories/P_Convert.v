(** The [index] command and conversions to text. *)
From Coq Require Import Lia Sorted.
From Verif Require Import M_Base M_Anahash M_Iter M_Float M_Types M_Model M_Utf8 M_Text M_Values M_Cli M_Main.
From Verif Require Import S_Anahash S_Iter S_Model S_Main P_Base P_Primes P_Anahash P_Iter P_Model P_Index P_Recurse P_Confusable P_Lm P_Text.
From stdpp Require Import options.

#[local] Arguments pthen : simpl never.
#[local] Arguments put : simpl never.

(** * The index command *)
Lemma omap_seq (P : vocab_value -> bool) (dec : list vocab_value) :
  omap (fun id => dec !! id) (List.filter (fun id => match dec !! id with Some v => P v | None => false end) (seq 0 (length dec))) = List.filter P dec.
Proof.
  induction dec as [|v dec IH] using rev_ind; [done|]. rewrite app_length. cbn [length]. rewrite Nat.add_1_r, seq_S, !List.filter_app, omap_app.
  f_equal.
  - rewrite <- IH.
    assert (F : List.filter (fun id => match (dec ++ [v]) !! id with Some v => P v | None => false end) (seq 0 (length dec)) =
      List.filter (fun id => match dec !! id with Some v => P v | None => false end) (seq 0 (length dec))).
    { apply List.filter_ext_in. intros id Hid. apply in_seq in Hid. rewrite lookup_app_l by lia. done. }
    rewrite F. set (l := List.filter _ _). assert (Forall (fun id => id < length dec) l) as Hl.
    { apply Forall_forall. intros id Hid. apply elem_of_list_In, filter_In in Hid as [Hid _]. apply in_seq in Hid. lia. }
    clear -Hl. induction Hl as [|id l H _ IH]; cbn; [done|]. rewrite lookup_app_l by done. by rewrite IH.
  - cbn [plus List.filter]. rewrite list_lookup_middle by done. destruct (P v); [|done]. cbn. by rewrite list_lookup_middle.
Qed.

Lemma NoDup_perm {A} (l l' : list A) : NoDup l -> NoDup l' -> (forall x, x ∈ l <-> x ∈ l') -> l ≡ₚ l'.
Proof. intros H1 H2 H. by apply NoDup_Permutation. Qed.
Lemma sorted_nodup (l : list nat) : StronglySorted lt l -> NoDup l.
Proof.
  induction 1 as [|x l _ IH F]; constructor; [|done]. intros H. rewrite Forall_forall in F. specialize (F x H). lia.
Qed.
Lemma omap_sublist (dec : list vocab_value) : forall ids, StronglySorted lt ids -> omap (fun id => dec !! id) ids `sublist_of` dec.
Proof.
  assert (H : forall ids k, StronglySorted lt ids -> Forall (fun i => k <= i) ids -> omap (fun id => dec !! id) ids `sublist_of` drop k dec).
  { induction ids as [|i ids IH]; intros k S F; cbn; [apply sublist_nil_l|].
    inversion S as [|? ? S' F']; subst. apply Forall_cons in F as [Fi F].
    assert (omap (fun id => dec !! id) ids `sublist_of` drop (Datatypes.S i) dec) as G by (by apply IH).
    destruct (dec !! i) as [v|] eqn:E.
    - transitivity (drop i dec); [|replace i with (k + (i - k)) by lia; rewrite <- drop_drop; apply sublist_drop].
      rewrite (drop_S _ _ _ E). by constructor.
    - transitivity (drop (Datatypes.S i) dec); [done|]. replace (Datatypes.S i) with (k + (Datatypes.S i - k)) by lia. rewrite <- drop_drop. apply sublist_drop. }
  intros ids S. specialize (H ids 0 S). rewrite drop_0 in H. apply H. apply Forall_forall. lia.
Qed.
Lemma put_then a b : pthen (put a) (put b) = put (a ++ b).
Proof. done. Qed.
Lemma pall_puts l : pall (map put l) = put (concat l).
Proof. induction l as [|a l IH]; [done|]. cbn [map pall concat]. by rewrite IH. Qed.

Lemma index_lists o o' order m m' : alphabet_ok (m_alphabet m) -> some_order o -> some_order o' -> some_order order -> build o o' m = Ok m' ->
  exists gs, index_listing m gs /\ index_output order m' = Printed (concat (map index_text gs)) None.
Proof.
  intros HA Ho Ho' Hord B. destruct (build_right _ _ _ _ HA Ho Ho' B) as [Dec Con Node _ _].
  set (es := order (map_to_list (m_index m'))).
  assert (Pe : es ≡ₚ map_to_list (m_index m')) by apply Hord.
  assert (Isin : forall h nd, (h, nd) ∈ es <-> m_index m' !! h = Some nd) by (intros h nd; rewrite Pe; apply elem_of_map_to_list).
  assert (Nd : NoDup (map fst es)) by (rewrite Pe; apply NoDup_fst_map_to_list).
  set (group := fun e : N * node => (e.1, omap (fun id => m_decoder m !! id) (nd_instances e.2))).
  assert (Ids : forall h nd id, (h, nd) ∈ es -> id ∈ nd_instances nd -> exists v, indexed m id v /\ anahash (m_alphabet m) (vv_text v) = Ok h).
  { intros h nd id He Hi. apply Con. exists nd. split; [by apply Isin|done]. }
  assert (Mem : forall h nd v, (h, nd) ∈ es -> v ∈ omap (fun id => m_decoder m !! id) (nd_instances nd) ->
    exists id, indexed m id v /\ anahash (m_alphabet m) (vv_text v) = Ok h).
  { intros h nd v He Hv. apply elem_of_list_omap in Hv as (id & Hi & Hd). destruct (Ids _ _ _ He Hi) as (v' & [Hd' Hf] & Hh).
    rewrite Hd in Hd'. injection Hd' as <-. by exists id. }
  exists (map group es). split; [split|].
  - exists (List.filter (fun v => flag (vv_type v) searchable_bit) (m_decoder m)). split; [apply P_Confusable.selects_filter|].
    rewrite <- (omap_seq (fun v => flag (vv_type v) searchable_bit)).
    assert (E : concat (map snd (map group es)) = omap (fun id => m_decoder m !! id) (concat (map (fun e => nd_instances e.2) es))).
    { clear. induction es as [|e es IH]; [done|]. cbn [map concat snd]. rewrite omap_app. by rewrite IH. }
    rewrite E.
    assert (P : concat (map (fun e => nd_instances e.2) es) ≡ₚ
      List.filter (fun id => match m_decoder m !! id with Some v => flag (vv_type v) searchable_bit | None => false end) (seq 0 (length (m_decoder m)))).
    { apply NoDup_perm.
      - assert (K : forall l, l `sublist_of` es -> NoDup (map fst l) -> NoDup (concat (map (fun e => nd_instances e.2) l))).
        { induction l as [|[h nd] l IH]; intros Hl Hn; cbn; [constructor|]. cbn in Hn. apply NoDup_cons in Hn as [Hn1 Hn2].
          assert (Hin : (h, nd) ∈ es) by (eapply elem_of_submseteq; [left|by apply sublist_submseteq]).
          assert (Hl' : l `sublist_of` es) by (etransitivity; [|exact Hl]; by constructor).
          apply NoDup_app. split; [|split; [|by apply IH]].
          - apply sorted_nodup. by apply (Node h nd), Isin.
          - intros id Hi Hc. apply elem_of_list_In, in_concat in Hc as (x & Hx & Hc). apply in_map_iff in Hx as ([h' nd'] & <- & Hx).
            apply elem_of_list_In in Hx. apply elem_of_list_In in Hc. cbn in Hc.
            assert (Hin' : (h', nd') ∈ es) by (eapply elem_of_submseteq; [exact Hx|by apply sublist_submseteq]).
            destruct (Ids _ _ _ Hin Hi) as (v & [D1 _] & E1). destruct (Ids _ _ _ Hin' Hc) as (v' & [D2 _] & E2).
            rewrite D1 in D2. injection D2 as <-. rewrite E1 in E2. injection E2 as <-. apply Hn1. apply elem_of_list_fmap. by exists (h, nd'). }
        by apply K.
      - apply NoDup_ListNoDup, List.NoDup_filter, seq_NoDup.
      - intros id. rewrite !elem_of_list_In, in_concat, filter_In, in_seq. split.
        + intros (x & Hx & Hi). apply in_map_iff in Hx as ([h nd] & <- & Hx). apply elem_of_list_In in Hx. apply elem_of_list_In in Hi.
          destruct (Ids _ _ _ Hx Hi) as (v & [D F] & _). rewrite D. split; [|done]. apply lookup_lt_Some in D. lia.
        + intros [_ H]. destruct (m_decoder m !! id) as [v|] eqn:D; [|done].
          destruct (reads_total _ (vv_text v) HA) as [ks Hr]. pose proof (anahash_reads _ _ _ HA Hr) as Hh.
          destruct (proj2 (Con _ id) (ex_intro _ v (conj (conj D H) Hh))) as (nd & Hnd & Hi).
          exists (nd_instances nd). split; [|by apply elem_of_list_In]. apply in_map_iff. eexists (_, nd). split; [done|]. apply elem_of_list_In. by apply Isin. }
    clear -P. induction P as [|x l l' _ IH|x y l|l1 l2 l3 _ IH1 _ IH2]; cbn; [done| | |by etransitivity].
    + destruct (_ !! x); [|done]. by rewrite IH.
    + destruct (_ !! x), (_ !! y); try done. apply perm_swap.
  - intros g Hg. apply elem_of_list_fmap in Hg as ([h nd] & -> & Hin). destruct (Node h nd) as [Hne Hs]; [by apply Isin|]. split.
    + destruct (nd_instances nd) as [|i ids] eqn:Ei; [done|]. destruct (Ids h nd i Hin) as (v & [D _] & _); [rewrite Ei; left|].
      unfold group. cbn [fst snd]. rewrite Ei. cbn. by rewrite D.
    + by apply omap_sublist.
  - intros i j g g' v v' ks ks' Hi Hj Hv Hv' Hr Hr'. rewrite list_lookup_fmap in Hi, Hj.
    destruct (es !! i) as [[h nd]|] eqn:Ei; [|done]. destruct (es !! j) as [[h' nd']|] eqn:Ej; [|done]. injection Hi as <-. injection Hj as <-. cbn in Hv, Hv'.
    destruct (Mem h nd v) as (id & _ & Hh); [by eapply elem_of_list_lookup_2|done|]. destruct (Mem h' nd' v') as (id' & _ & Hh'); [by eapply elem_of_list_lookup_2|done|].
    destruct (hash_eq_iff _ _ _ _ _ HA Hr Hr') as (h1 & h2 & E1 & E2 & Q). rewrite Hh in E1. rewrite Hh' in E2. injection E1 as <-. injection E2 as <-.
    rewrite <- Q. split.
    + intros ->. congruence.
    + intros <-. eapply (NoDup_lookup (map fst es)); [done| |]; rewrite list_lookup_fmap; [by rewrite Ei|by rewrite Ej].
  - intros g v ks Hg Hv Hr. apply elem_of_list_fmap in Hg as ([h nd] & -> & Hin). destruct (Mem h nd v Hin Hv) as (id & _ & Hh).
    rewrite (anahash_reads _ _ _ HA Hr) in Hh. injection Hh as <-. apply bag_hash_ok. eapply reads_below168; eauto.
  - unfold index_output. fold es. change (Printed (concat (map index_text (map group es))) None) with (put (concat (map index_text (map group es)))).
    rewrite <- pall_puts. f_equal. rewrite !map_map. apply map_ext_in. intros [h nd] Hin. apply elem_of_list_In in Hin.
    destruct (Node h nd) as [Hne _]; [by apply Isin|]. unfold index_line. cbn [snd fst].
    assert (L : forall ids, Forall (fun id => exists v, m_decoder m !! id = Some v) ids ->
      pall (map (fun id => pres (rexpect (m_decoder m' !! id)) (fun v => put (tab ++ vv_text v))) ids) =
      put (concat (map (fun v => 9%N :: vv_text v) (omap (fun id => m_decoder m !! id) ids)))).
    { clear -Dec. rewrite Dec. induction 1 as [|id ids (v & E) _ IH]; [done|]. cbn [map pall]. rewrite IH. cbn [omap list_omap]. rewrite E. done. }
    destruct (nd_instances nd) as [|i ids] eqn:En; [done|]. rewrite <- En. rewrite L.
    + done.
    + apply Forall_forall. intros id Hid. destruct (Ids h nd id Hin Hid) as (v & [D _] & _). by exists v.
Qed.

(** * Decomposition *)
Lemma rmapM_map {A B C} (f : B -> res C) (g : A -> B) l : rmapM f (map g l) = rmapM (fun a => f (g a)) l.
Proof. induction l as [|a l IH]; cbn; [done|]. by rewrite IH. Qed.
Lemma reads_entry_line A t ks k : reads A t ks -> k ∈ ks -> k < length A -> exists e, entry_at A k 0 e.
Proof.
  induction 1 as [|t i e t' ks E He Hf _ IH|c t' ks Hn _ IH]; intros Hk Hl; [by apply elem_of_nil in Hk| |].
  - apply elem_of_cons in Hk as [->|Hk]; [|by apply IH]. destruct Hf as (j & (line & Hl' & Hj) & _).
    destruct line as [|e0 line]; [done|]. exists e0, (e0 :: line). done.
  - apply elem_of_cons in Hk as [->|Hk]; [lia|by apply IH].
Qed.
Definition first_form (A : alphabet) (k : nat) : res str := let* line := rexpect (A !! k) in rexpect (line !! 0).
Lemma decompose_run m t ks : alphabet_ok (m_alphabet m) -> reads (m_alphabet m) t ks ->
  exists h ks', anahash (m_alphabet m) t = Ok h /\ ks' ≡ₚ ks /\ StronglySorted ge ks' /\
    decompose_anavalue m h = rmapM (first_form (m_alphabet m)) ks'.
Proof.
  intros HA Hr. exists (prod ks). destruct (iter_run (S (length (m_alphabet m))) ks (iter_fuel (prod ks))) as (l & El & Pl & Sl & _); [by eapply reads_bag_ok|done|].
  exists (map item_char l). split; [by apply anahash_reads|]. split; [done|]. split; [done|].
  unfold decompose_anavalue. rewrite (alphabet_size_ok _ HA).
  cbn [rbind]. rewrite El. cbn [rbind]. rewrite rmapM_map. done.
Qed.
Lemma decompose_known m t ks : alphabet_ok (m_alphabet m) -> reads (m_alphabet m) t ks -> length (m_alphabet m) ∉ ks ->
  exists h ks' l, anahash (m_alphabet m) t = Ok h /\ ks' ≡ₚ ks /\ StronglySorted ge ks' /\
    decompose_anavalue m h = Ok l /\ Forall2 (fun k e => entry_at (m_alphabet m) k 0 e) ks' l.
Proof.
  intros HA Hr Hu. destruct (decompose_run m t ks HA Hr) as (h & ks' & Hh & P & S & Ed).
  assert (F : Forall (fun k => exists e, entry_at (m_alphabet m) k 0 e) ks').
  { apply Forall_forall. intros k Hk. rewrite P in Hk. eapply reads_entry_line; [done..|]. pose proof (reads_bound _ _ _ Hr) as B.
    rewrite Forall_forall in B. specialize (B k Hk). cbn in B. destruct (decide (k = length (m_alphabet m))) as [->|]; [done|lia]. }
  assert (exists l, rmapM (first_form (m_alphabet m)) ks' = Ok l /\ Forall2 (fun k e => entry_at (m_alphabet m) k 0 e) ks' l) as (l & El & Fl).
  { clear -F. induction F as [|k ks (e & line & Hl & He) _ (l & IH & Fl)]; [by exists []|]. exists (e :: l). cbn [rmapM]. unfold first_form at 1.
    rewrite Hl. cbn [rexpect rbind]. rewrite He. cbn [rexpect rbind]. rewrite IH. split; [done|]. constructor; [|done]. by exists line. }
  exists h, ks', l. rewrite Ed, El. done.
Qed.
Lemma decompose_unknown m t ks : alphabet_ok (m_alphabet m) -> reads (m_alphabet m) t ks -> length (m_alphabet m) ∈ ks ->
  exists h, anahash (m_alphabet m) t = Ok h /\ decompose_anavalue m h = Panic ExpectNone.
Proof.
  intros HA Hr Hu. destruct (decompose_run m t ks HA Hr) as (h & ks' & Hh & P & S & Ed). exists h. split; [done|]. rewrite Ed.
  assert (Hu' : length (m_alphabet m) ∈ ks') by (by rewrite P). destruct ks' as [|k ks']; [by apply elem_of_nil in Hu'|].
  assert (k = length (m_alphabet m)) as ->.
  { assert (k <= length (m_alphabet m)). { pose proof (reads_bound _ _ _ Hr) as B. rewrite <- P in B. apply Forall_cons in B as [B _]. cbn in B. lia. }
    apply elem_of_cons in Hu' as [?|Hu']; [done|]. inversion S as [|? ? _ F]; subst. rewrite Forall_forall in F. specialize (F _ Hu'). lia. }
  cbn [rmapM]. unfold first_form at 1. rewrite (proj2 (lookup_ge_None _ _)) by lia. done.
Qed.

(** * N-grams *)
Lemma join_spaced ws : join [32%N] ws = spaced ws.
Proof. induction ws as [|w ws IH]; [done|]. destruct ws; [done|]. cbn in *. by rewrite IH. Qed.
Lemma ngram_text m id v ws g u : lookups_inverse m -> (exists w, m_decoder m !! UNK = Some w /\ vv_text w = unk_text) ->
  m_decoder m !! id = Some v -> vv_tokencount v = S (count_spaces (vv_text v)) -> fields_of 32 (vv_text v) ws ->
  into_ngram m id u = Ok (Some g, u) ->
  length ws <= 5 /\ ngram_to_str m g = Ok (spaced (map (fun w => match m_encoder m !! w with Some _ => w | None => unk_text end) ws)).
Proof.
  intros I (wu & Hu & Tu) D T F H. rewrite (into_ngram_vng _ _ _ _ D T) in H. injection H as H.
  apply P_Vocab.fields_det in F. apply ng_from_list_inv in H. unfold word_ids in H.
  assert (Ew : ng_to_vec g = map (fun w => default UNK (m_encoder m !! w)) ws) by (rewrite F; done).
  split. { rewrite <- (map_length (fun w => default UNK (m_encoder m !! w)) ws), <- Ew. apply ng_to_vec_length. }
  unfold ngram_to_str. rewrite Ew.
  assert (E : rmapM (fun id => let* v := rexpect (m_decoder m !! id) in Ok (vv_text v)) (map (fun w => default UNK (m_encoder m !! w)) ws) =
    Ok (map (fun w => match m_encoder m !! w with Some _ => w | None => unk_text end) ws)).
  { clear -I Hu Tu. induction ws as [|w ws IH]; [done|]. cbn [map rmapM]. destruct (m_encoder m !! w) as [i|] eqn:Ei; cbn [default].
    - destruct (proj1 (I w i) Ei) as (v & Hv & Tv). cbn [id]. rewrite Hv. cbn [rexpect rbind]. rewrite IH. cbn. by rewrite Tv.
    - change (default UNK None) with UNK. rewrite Hu. cbn [rexpect rbind]. rewrite IH. cbn. by rewrite Tu. }
  rewrite E. cbn [rbind]. by rewrite join_spaced.
Qed.
Lemma ngram_round m id v ws u : lookups_inverse m -> words_counted m -> (exists w, m_decoder m !! UNK = Some w /\ vv_text w = unk_text) ->
  m_decoder m !! id = Some v -> fields_of 32 (vv_text v) ws ->
  (length ws <= 5 -> exists g, into_ngram m id u = Ok (Some g, u) /\
    ngram_to_str m g = Ok (spaced (map (fun w => match m_encoder m !! w with Some _ => w | None => unk_text end) ws))) /\
  (5 < length ws -> into_ngram m id u = Ok (None, u)).
Proof.
  intros I T U D F. pose proof (P_Vocab.fields_det _ _ _ F) as Ef. pose proof (into_ngram_vng _ _ _ u D (T _ _ D)) as En.
  assert (El : length (word_ids m (vv_text v)) = length ws) by (unfold word_ids; rewrite map_length; by rewrite Ef).
  split; intros Hl.
  - destruct (ng_from_list_short (word_ids m (vv_text v))) as [g Hg]; [lia|]. exists g. rewrite Hg in En. split; [done|].
    eapply (ngram_text m id v ws g u); [done..|by eapply T|done|done].
  - rewrite En. destruct (ng_from_list (word_ids m (vv_text v))) as [g|] eqn:E; [|done].
    apply ng_from_list_inv in E. pose proof (ng_to_vec_length g). rewrite E in *. lia.
Qed.
Lemma spaced_fields : forall t ws, fields_of 32 t ws -> spaced ws = t.
Proof. induction 1 as [f _|f rest fs _ Hf IH]; [done|]. rewrite <- IH. destruct fs; [inversion Hf|done]. Qed.
Lemma ngram_known m id v ws u : lookups_inverse m -> words_counted m -> (exists w, m_decoder m !! UNK = Some w /\ vv_text w = unk_text) ->
  m_decoder m !! id = Some v -> fields_of 32 (vv_text v) ws -> length ws <= 5 -> Forall (fun w => is_Some (m_encoder m !! w)) ws ->
  exists g, into_ngram m id u = Ok (Some g, u) /\ ngram_to_str m g = Ok (vv_text v).
Proof.
  intros I T U D F Hl K. destruct (proj1 (ngram_round m id v ws u I T U D F) Hl) as (g & H & E). exists g. split; [done|]. rewrite E.
  rewrite <- (spaced_fields _ _ F). do 2 f_equal. rewrite <- (map_id ws) at 2. apply map_ext_in. intros w Hw%elem_of_list_In.
  rewrite Forall_forall in K. by destruct (K w Hw) as [? ->].
Qed.

(** * [match_to_ngram] *)
Lemma internal_range_lt x : forall bs i b e b' e', internal_range x i bs b e = (b', e') ->
  (match b with Some k => k < i /\ (e = 0 \/ S (S k) <= e /\ e <= i) | None => e = 0 end) ->
  match b' with Some k => k < i + length bs /\ (e' = 0 \/ S (S k) <= e' /\ e' <= i + length bs) | None => e' = 0 end.
Proof.
  induction bs as [|y bs IH]; intros i b e b' e' H Hb; cbn in H.
  - injection H as <- <-. destruct b; [|done]. cbn. rewrite Nat.add_0_r. done.
  - replace (i + length (y :: bs)) with (S i + length bs) by (cbn; lia). destruct (_ && _).
    + destruct b as [k|]; eapply IH; [exact H| |exact H|]; cbn; lia.
    + eapply IH; [exact H|]. destruct b; [lia|done].
Qed.
Lemma internal_not_one x bs : length (internal_boundaries x bs) <> 1.
Proof.
  unfold internal_boundaries. destruct (internal_range x 0 bs None 0) as [b e] eqn:E. apply internal_range_lt in E; [|done].
  destruct b as [b|]; [|done]. destruct (Nat.leb_spec e b); [done|]. rewrite take_length, drop_length. cbn in E. lia.
Qed.
Lemma internal_few x bs : length (filter (inner x) bs) <= 1 -> internal_boundaries x bs = [].
Proof.
  assert (G : forall bs i b e, length (filter (inner x) bs) <= (match b with Some _ => 0 | None => 1 end) ->
    (internal_range x i bs b e).2 = e).
  { clear. induction bs as [|y bs IH]; intros i b e H; cbn [internal_range]; [done|]. rewrite filter_cons in H.
    destruct ((tm_begin x <? tm_begin y) && (tm_end y <? tm_end x)) eqn:E.
    - apply andb_prop in E as [E1 E2]. apply Nat.ltb_lt in E1, E2. rewrite decide_True in H by done. cbn in H. destruct b; [lia|]. apply IH. lia.
    - apply IH. destruct (decide _) as [[H1 H2]|]; [|done]. apply Nat.ltb_lt in H1, H2. by rewrite H1, H2 in E. }
  intros H. unfold internal_boundaries. specialize (G bs 0 None 0 H). destruct (internal_range x 0 bs None 0) as [[b|] e]; [|done]. cbn in G. subst. done.
Qed.

Lemma loop_bound text order e : forall ahead bs b i r ms, match_ngrams_loop text bs ahead order b e i = Ok (r, ms) -> length ms <= length ahead.
Proof.
  induction ahead as [|x ahead IH]; intros bs b i r ms H; cbn [match_ngrams_loop] in H; [by injection H as <- <-|].
  destruct (_ <? _); [injection H as <- <-; cbn; lia|]. apply rbind_ok in H as (s & _ & H). apply rbind_ok in H as (bi & _ & H).
  apply rbind_ok in H as ([r' rest] & E & H). injection H as <- <-. apply IH in E. destruct worth_matching; cbn; lia.
Qed.
Lemma ngrams_bound text bs ms : length bs <> 1 -> find_match_ngrams text bs 1 0 None = Ok ms -> length ms <= length bs.
Proof.
  intros Hn H. unfold find_match_ngrams in H. change (1 =? 0) with false in H. cbn iota in H. cbn [Nat.sub drop] in H.
  rewrite drop_0 in H. apply rbind_ok in H as ([b ms'] & E & H). apply loop_bound in E. destruct (_ <? _); [|by injection H as <-].
  apply rbind_ok in H as (s & _ & H).
  destruct (Nat.eqb_spec (length (internal_boundaries (set_n (new_empty s b (byte_len text)) 1) bs)) 1) as [E1|E1].
  - by apply internal_not_one in E1.
  - rewrite andb_false_r in H. by injection H as <-.
Qed.
Lemma push_length g id : length (ng_to_vec (ng_push g id).2) <= S (length (ng_to_vec g)).
Proof. destruct g; cbn; lia. Qed.
Lemma match_ngram_bound m x bs g : match_to_ngram m x bs = Ok (Some g) -> length (ng_to_vec g) <= length (internal_boundaries x bs).
Proof.
  unfold match_to_ngram. intros H. apply rbind_ok in H as (ms & E & H). apply ngrams_bound in E; [|apply internal_not_one]. injection H as H.
  etransitivity; [|exact E]. clear E. cut (length (ng_to_vec g) <= length ms + length (ng_to_vec NEmpty)); [cbn; lia|]. revert H. generalize NEmpty as g0.
  induction ms as [|y ms IH]; intros g0 H; cbn in H; [injection H as <-; cbn; lia|].
  destruct (m_encoder m !! tm_text y) as [id|].
  - apply IH in H. pose proof (push_length g0 id). cbn [length]. lia.
  - exfalso. clear -H. induction ms as [|z ms IH]; [done|]. cbn in H. by apply IH.
Qed.
Lemma match_ngram_few m x bs : length (filter (inner x) bs) <= 1 -> match_to_ngram m x bs = Ok (Some NEmpty).
Proof.
  intros H. unfold match_to_ngram. rewrite internal_few by done. unfold find_match_ngrams. cbn [Nat.eqb Nat.sub drop match_ngrams_loop rbind].
  destruct (_ <? _); [|done]. assert (slice (tm_text x) 0 (byte_len (tm_text x)) = Ok (tm_text x)) as ->.
  { pose proof (slice_at [] (tm_text x) []) as S. cbn in S. by rewrite app_nil_r in S. }
  cbn [rbind]. unfold internal_boundaries. cbn. by rewrite andb_false_r.
Qed.

Lemma internal_range_skip x : forall bs i b e, Forall (fun y => ~ inner x y) bs -> internal_range x i bs b e = (b, e).
Proof.
  induction bs as [|y bs IH]; intros i b e H; cbn; [done|]. apply Forall_cons in H as [Hy H].
  destruct (_ && _) eqn:E; [|by apply IH]. apply andb_prop in E as [E1 E2]. apply Nat.ltb_lt in E1, E2. by destruct Hy.
Qed.
Lemma internal_range_app x : forall bs bs' i b e, internal_range x i (bs ++ bs') b e =
  let '(b1, e1) := internal_range x i bs b e in internal_range x (i + length bs) bs' b1 e1.
Proof.
  induction bs as [|y bs IH]; intros bs' i b e; cbn; [by rewrite Nat.add_0_r|].
  replace (i + S (length bs)) with (S i + length bs) by lia. destruct (_ && _); [destruct b|]; apply IH.
Qed.
Lemma internal_range_in x : forall bs i b e, Forall (inner x) bs -> internal_range x i bs (Some b) e = (Some b, match bs with [] => e | _ => i + length bs end).
Proof.
  induction bs as [|y bs IH]; intros i b e H; cbn [internal_range]; [done|]. apply Forall_cons in H as [[H1 H2] H].
  apply Nat.ltb_lt in H1, H2. rewrite H1, H2. cbn [andb]. rewrite IH by done. f_equal. destruct bs; cbn; lia.
Qed.
Lemma internal_exact x pre ins post : Forall (fun y => ~ inner x y) pre -> Forall (inner x) ins -> Forall (fun y => ~ inner x y) post ->
  internal_boundaries x (pre ++ ins ++ post) = (if length ins <=? 1 then [] else ins).
Proof.
  intros H1 H2 H3. unfold internal_boundaries. rewrite internal_range_app, internal_range_skip by done.
  rewrite internal_range_app. destruct ins as [|y ins].
  - cbn [internal_range length Nat.leb]. by rewrite internal_range_skip.
  - apply Forall_cons in H2 as [[Ha Hb] H2]. apply Nat.ltb_lt in Ha, Hb. cbn [internal_range]. rewrite Ha, Hb. cbn [andb].
    rewrite internal_range_in by done. rewrite internal_range_skip by done. destruct ins as [|z ins]; [done|].
    replace (length (y :: z :: ins) <=? 1) with false by done. cbn [Nat.add]. destruct (Nat.leb_spec (S (length pre + length (z :: ins))) (length pre)); [lia|].
    rewrite drop_app_alt by done. apply (take_app_alt (y :: z :: ins)). cbn. lia.
Qed.
Lemma match_ngram_inner m x pre ins post g : Forall (fun y => ~ inner x y) pre -> Forall (inner x) ins -> Forall (fun y => ~ inner x y) post ->
  match_to_ngram m x (pre ++ ins ++ post) = Ok (Some g) -> length (ng_to_vec g) <= length ins /\ (length ins <= 1 -> g = NEmpty).
Proof.
  intros H1 H2 H3 H. split.
  - apply match_ngram_bound in H. rewrite internal_exact in H by done. destruct (_ <=? _); cbn in H; lia.
  - intros Hl. rewrite match_ngram_few in H; [by injection H|]. rewrite !filter_app, !app_length.
    assert (forall l, Forall (fun y => ~ inner x y) l -> filter (inner x) l = []) as N.
    { intros l. induction 1 as [|y l Hy _ IH]; [done|]. by rewrite filter_cons_False. }
    rewrite (N pre), (N post) by done. cbn [length]. assert (length (filter (inner x) ins) <= length ins) by apply filter_length. lia.
Qed.
