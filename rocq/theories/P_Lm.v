(** The counts of the language model after [build]. *)
From Coq Require Import Lia.
From Verif Require Import M_Base M_Anahash M_Iter M_Float M_Types M_Model S_Anahash S_Model M_Distance P_Base P_Anahash P_Model P_Vocab P_Index.
From stdpp Require Import options.

Definition word_ids (m : model) (t : str) : list vocab_id :=
  map (fun w => default UNK (m_encoder m !! w)) (split_on 32 t).
Lemma entry_words_fun m v ids : entry_words m v ids <-> ids = word_ids m (vv_text v).
Proof.
  unfold entry_words, word_ids. split.
  - intros (ws & H%fields_det & ->). by subst.
  - intros ->. eexists. split; [apply split_on_fields|done].
Qed.
Lemma ng_from_to g : ng_from_list (ng_to_vec g) = Some g.
Proof. by destruct g. Qed.
Lemma ng_from_list_inv l g : ng_from_list l = Some g <-> ng_to_vec g = l.
Proof.
  split.
  - do 6 (destruct l as [|? l]; [intros [= <-]; done|]). done.
  - intros <-. apply ng_from_to.
Qed.
Lemma ng_from_list_short l : length l <= 5 -> exists g, ng_from_list l = Some g.
Proof. intros H. do 6 (destruct l as [|? l]; [by eexists|]). cbn in H. lia. Qed.
Lemma ng_to_vec_length g : length (ng_to_vec g) <= 5.
Proof. destruct g; cbn; lia. Qed.

Lemma word_ids_length m t : length (word_ids m t) = S (count_spaces t).
Proof. unfold word_ids. rewrite map_length, split_on_length. done. Qed.

Lemma encode_tokens_all m parts u :
  encode_tokens m (length parts) parts u = Ok (map (fun w => default UNK (m_encoder m !! w)) parts, u).
Proof.
  induction parts as [|p parts IH]; cbn; [done|]. unfold encode_token.
  destruct (m_encoder m !! p); cbn; by rewrite IH.
Qed.

(** the n-gram an entry counts as *)
Definition vng (m : model) (v : vocab_value) : option ngram :=
  if N.testbit (vv_type v) 1 then ng_from_list (word_ids m (vv_text v)) else None.
Lemma vng_counts m v g : vng m v = Some g <-> counts_as m g v.
Proof.
  unfold vng, counts_as, flag, lm_bit. rewrite entry_words_fun.
  destruct (N.testbit _ _); [|naive_solver]. rewrite ng_from_list_inv. naive_solver.
Qed.
Lemma vng_order m v n : (exists g, vng m v = Some g /\ length (ng_to_vec g) = n) <-> counts_for_order m n v.
Proof.
  unfold counts_for_order. split.
  - intros (g & [Hf Hw]%vng_counts & Hn). split; [done|]. split; [rewrite <- Hn; apply ng_to_vec_length|]. eauto.
  - intros (Hf & Hn & ids & Hw & Hl). apply entry_words_fun in Hw as ->.
    destruct (ng_from_list_short (word_ids m (vv_text v))) as [g Hg]; [lia|].
    exists g. split; [unfold vng; unfold flag, lm_bit in Hf; by rewrite Hf|]. apply ng_from_list_inv in Hg. by rewrite Hg.
Qed.
Lemma into_ngram_vng m id v u :
  m_decoder m !! id = Some v -> vv_tokencount v = S (count_spaces (vv_text v)) ->
  into_ngram m id u = Ok (ng_from_list (word_ids m (vv_text v)), u).
Proof.
  intros D T. unfold into_ngram. rewrite D. cbn [rexpect rbind]. rewrite T.
  destruct (Nat.leb_spec (S (count_spaces (vv_text v))) 5) as [H|H].
  - change (count_spaces (vv_text v)) with (length (List.filter (fun c => (c =? 32)%N) (vv_text v))).
    rewrite <- (split_on_length 32), encode_tokens_all. done.
  - destruct (ng_from_list (word_ids m (vv_text v))) as [g|] eqn:E; [|done].
    apply ng_from_list_inv in E. pose proof (ng_to_vec_length g). rewrite E, word_ids_length in *. lia.
Qed.

Global Instance vng_dec m g v : Decision (vng m v = Some g).
Proof. apply _. Defined.
Definition is_order (m : model) (n : nat) (v : vocab_value) : bool :=
  match vng m v with Some g => (length (ng_to_vec g) =? n)%nat | None => false end.

Definition of_ngram m g l : list vocab_value := filter (fun v => vng m v = Some g) l.
Definition of_order m n l : list vocab_value := filter (fun v => is_order m n v = true) l.

Definition add_opt (o : option N) (l : list vocab_value) : option N :=
  match l with [] => o | _ => Some (default 0 o + sum_frequency l)%N end.
Lemma sum_app l l' : sum_frequency (l ++ l') = (sum_frequency l + sum_frequency l')%N.
Proof. unfold sum_frequency. induction l as [|v l IH]; cbn; [lia|]. rewrite IH. lia. Qed.
Lemma add_opt_app o l l' : add_opt o (l ++ l') = add_opt (add_opt o l) l'.
Proof.
  destruct l as [|x l]; [done|]. destruct l' as [|y l']; [by rewrite app_nil_r|]. cbn [add_opt app].
  change (x :: l ++ y :: l') with ((x :: l) ++ (y :: l')). rewrite sum_app. cbn. f_equal. lia.
Qed.

Lemma lm_step_spec m id v ng fs u st' :
  m_decoder m !! id = Some v -> vv_tokencount v = S (count_spaces (vv_text v)) -> 1 <= length fs ->
  lm_step m (ng, fs, u) id = Ok st' ->
  exists ng' fs', st' = (ng', fs', u) /\ 1 <= length fs' /\
    (forall g, ng' !! g = add_opt (ng !! g) (of_ngram m g [v])) /\
    (forall i, default 0%N (fs' !! i) = (default 0 (fs !! i) + sum_frequency (of_order m (S i) [v]))%N).
Proof.
  intros D T Lf. unfold lm_step. rewrite D. cbn [rexpect rbind]. rewrite vt_check_lm.
  assert (forall g, vng m v = Some g -> of_ngram m g [v] = [v]) as Ho.
  { intros g Hg. unfold of_ngram. rewrite filter_cons. by destruct (decide _). }
  assert (forall g, vng m v <> Some g -> of_ngram m g [v] = []) as Ho'.
  { intros g Hg. unfold of_ngram. rewrite filter_cons. by destruct (decide _). }
  assert (forall n, of_order m n [v] = if is_order m n v then [v] else []) as Hr.
  { intros n. unfold of_order. rewrite filter_cons. by destruct (is_order m n v). }
  destruct (N.testbit (vv_type v) 1) eqn:F.
  - rewrite (into_ngram_vng m id v u D T). cbn [rbind fst snd].
    assert (vng m v = ng_from_list (word_ids m (vv_text v))) as V by (unfold vng; by rewrite F).
    rewrite <- V. destruct (vng m v) as [g|] eqn:Eg.
    + intros H. apply rbind_ok in H as (fs' & Ef & H). apply rbind_ok in H as (ng' & En & H). injection H as <-.
      exists ng', fs'. split; [done|].
      assert (length (ng_to_vec g) = S (count_spaces (vv_text v))) as Lg.
      { symmetry in V. apply ng_from_list_inv in V. by rewrite V, word_ids_length. }
      assert (forall i, is_order m (S i) v = bool_decide (i = count_spaces (vv_text v))) as Io.
      { intros i. unfold is_order. rewrite Eg, Lg. destruct (Nat.eqb_spec (S (count_spaces (vv_text v))) (S i));
          [rewrite bool_decide_true by lia; done|rewrite bool_decide_false by lia; done]. }
      assert (1 <= length fs' /\ forall i, default 0%N (fs' !! i) =
        (default 0 (fs !! i) + if bool_decide (i = count_spaces (vv_text v)) then vv_frequency v else 0)%N) as [L1 Hfs].
      { unfold add_total in Ef. rewrite Lg in Ef. set (k := count_spaces (vv_text v)) in *.
        destruct (Nat.ltb_spec 1 (S k)) as [Hk|Hk].
        - apply rbind_ok in Ef as (old & Ei%rindex_inv & Ef). injection Ef as <-.
          replace (S k - 1) with k in * by lia. replace (k - 0) with k by lia.
          assert (forall i, default 0%N (grow_freq_sum fs (S k) !! i) = default 0%N (fs !! i)) as Hg.
          { intros i. unfold grow_freq_sum. destruct (decide (i < length fs)) as [Hi|Hi].
            - by rewrite lookup_app_l by done.
            - rewrite lookup_app_r by lia. rewrite (lookup_ge_None_2 fs) by lia.
              destruct (decide (i - length fs < S k - length fs)); [by rewrite lookup_replicate_2 by done|].
              by rewrite lookup_ge_None_2 by (rewrite replicate_length; lia). }
          split.
          + rewrite insert_length. unfold grow_freq_sum. rewrite app_length. lia.
          + intros i. case_bool_decide as Hi.
            * subst i. rewrite list_lookup_insert by (by eapply lookup_lt_Some). cbn. rewrite <- Hg, Ei. done.
            * rewrite list_lookup_insert_ne by done. rewrite Hg. lia.
        - apply rbind_ok in Ef as (old & Ei%rindex_inv & Ef). injection Ef as <-. split; [by rewrite insert_length|].
          assert (k = 0) as -> by lia. intros i. case_bool_decide as Hi.
          + subst i. rewrite list_lookup_insert by lia. by rewrite Ei.
          + rewrite list_lookup_insert_ne by done. lia. }
      split; [done|]. split.
      * intros g'. unfold add_ngram in En. destruct (decide (Some g = Some g')) as [[= <-]|Hne].
        -- rewrite Ho by done. destruct (ng !! g) as [c|].
           ++ apply rbind_ok in En as (c' & Ec & En). injection En as <-. rewrite lookup_insert.
              unfold u32_add in Ec. destruct (_ <? _)%N in Ec; [|done]. injection Ec as <-. cbn. f_equal. lia.
           ++ injection En as <-. rewrite lookup_insert. cbn. f_equal. lia.
        -- rewrite Ho' by done. cbn [add_opt]. assert (g <> g') by congruence.
           destruct (ng !! g) as [c|]; [apply rbind_ok in En as (c' & _ & En)|]; injection En as <-; by rewrite lookup_insert_ne.
      * intros i. rewrite Hr, Hfs, Io. case_bool_decide; cbn; lia.
    + intros [= <-]. exists ng, fs. split; [done|]. split; [done|]. split.
      * intros g. by rewrite Ho'.
      * intros i. rewrite Hr. unfold is_order. rewrite Eg. cbn. lia.
  - intros [= <-]. exists ng, fs. split; [done|]. split; [done|].
    assert (vng m v = None) as V by (unfold vng; by rewrite F). split.
    + intros g. rewrite Ho' by (by rewrite V). done.
    + intros i. rewrite Hr. unfold is_order. rewrite V. cbn. lia.
Qed.

Lemma lm_run m k : forall ng0 fs0 u st',
  words_counted m -> 1 <= length fs0 -> k <= length (m_decoder m) ->
  rfoldl (lm_step m) (ng0, fs0, u) (seq 0 k) = Ok st' ->
  exists ng' fs', st' = (ng', fs', u) /\ 1 <= length fs' /\
    (forall g, ng' !! g = add_opt (ng0 !! g) (of_ngram m g (take k (m_decoder m)))) /\
    (forall i, default 0%N (fs' !! i) =
       (default 0 (fs0 !! i) + sum_frequency (of_order m (S i) (take k (m_decoder m))))%N).
Proof.
  induction k as [|k IH]; intros ng0 fs0 u st' W L0 Hk.
  - cbn. intros [= <-]. exists ng0, fs0. split_and!; try done. intros i. symmetry. apply N.add_0_r.
  - rewrite seq_S, rfoldl_app. intros H. apply rbind_ok in H as (st & E & H).
    destruct (IH _ _ _ _ W L0 ltac:(lia) E) as (ng & fs & -> & L1 & Hn & Hf).
    cbn [rfoldl plus] in H. apply rbind_ok in H as (st2 & E2 & H). injection H as <-.
    destruct (lookup_lt_is_Some_2 (m_decoder m) k) as [v D]; [lia|].
    destruct (lm_step_spec m k v ng fs u st2 D (W _ _ D) L1 E2) as (ng' & fs' & -> & L2 & Hn' & Hf').
    exists ng', fs'. split; [done|]. split; [done|]. rewrite (take_S_r _ _ _ D). split.
    + intros g. unfold of_ngram in *. rewrite filter_app, add_opt_app, <- Hn. apply Hn'.
    + intros i. unfold of_order in *. rewrite filter_app, sum_app, Hf', Hf. lia.
Qed.

Lemma selects_filter {A} (P : A -> Prop) `{forall x, Decision (P x)} (Q : A -> Prop) l :
  (forall x, P x <-> Q x) -> selects Q l (filter P l).
Proof.
  intros HPQ. induction l as [|x l IH]; [constructor|]. rewrite filter_cons.
  destruct (decide (P x)); constructor; try done; by rewrite <- HPQ.
Qed.
Lemma selects_det {A} (P : A -> Prop) l l1 l2 : selects P l l1 -> selects P l l2 -> l1 = l2.
Proof.
  intros H. revert l2. induction H as [|x l l' Hx H IH|x l l' Hx H IH]; intros l2 H2; inversion H2; subst; try done;
    f_equal; by apply IH.
Qed.

Lemma is_order_counts m n v : is_order m n v = true <-> counts_for_order m n v.
Proof.
  rewrite <- vng_order. unfold is_order. destruct (vng m v) as [g|]; [|naive_solver].
  rewrite Nat.eqb_eq. naive_solver.
Qed.

Lemma entry_words_same m m' v ids : m_encoder m' = m_encoder m -> entry_words m' v ids <-> entry_words m v ids.
Proof. intros E. unfold entry_words. by rewrite E. Qed.

Lemma build_counts o o' m m' :
  some_order o' -> words_counted m -> 1 <= length (m_freq_sum m) -> build o o' m = Ok m' ->
  (forall g vs, selects (counts_as m g) (m_decoder m) vs ->
     m_ngrams m' !! g = add_opt (m_ngrams m !! g) vs) /\
  (forall n vs, selects (counts_for_order m (S n)) (m_decoder m) vs ->
     default 0%N (m_freq_sum m' !! n) = (default 0 (m_freq_sum m !! n) + sum_frequency vs)%N) /\
  m_have_lm m' = negb (bool_decide (m_ngrams m' = ∅)).
Proof.
  intros Ho W L B. destruct (build_split _ _ _ _ Ho B) as (m1 & ng & fs & E & R & ->).
  pose proof (build_index_vocab _ _ _ E) as (D1 & E1 & A1).
  assert (m_ngrams m1 = m_ngrams m /\ m_freq_sum m1 = m_freq_sum m) as [N1 F1].
  { unfold build_index in E. apply rbind_ok in E as (hs & _ & E). apply rbind_ok in E as (ix & _ & E). by injection E as <-. }
  rewrite N1, F1, D1 in R. assert (words_counted m1) as W1 by (intros id v; rewrite D1; apply W).
  destruct (lm_run m1 (length (m_decoder m)) _ _ _ _ W1 L ltac:(by rewrite D1) R) as (ng' & fs' & Heq & _ & Hn & Hf).
  injection Heq as <- <-. rewrite D1, take_ge in Hn, Hf by done. cbn. split; [|split; [|done]].
  - intros g vs Hs. rewrite Hn. f_equal. eapply selects_det; [|exact Hs]. apply selects_filter.
    intros v. rewrite vng_counts. unfold counts_as. by rewrite (entry_words_same m m1).
  - intros n vs Hs. rewrite Hf. do 2 f_equal. eapply selects_det; [|exact Hs]. apply selects_filter.
    intros v. rewrite is_order_counts. unfold counts_for_order. by setoid_rewrite (entry_words_same m m1).
Qed.

(** ** success of [build] *)
Lemma lm_step_total m id v ng fs u bound :
  m_decoder m !! id = Some v -> vv_tokencount v = S (count_spaces (vv_text v)) -> 1 <= length fs ->
  (forall g, (default 0 (ng !! g) <= bound)%N) -> (bound + vv_frequency v < 4294967296)%N ->
  exists st', lm_step m (ng, fs, u) id = Ok st'.
Proof.
  intros D T L Hb Hv. unfold lm_step. rewrite D. cbn [rexpect rbind]. destruct (vt_check _ _); [|by eexists].
  rewrite (into_ngram_vng m id v u D T). cbn [rbind fst snd]. destruct (ng_from_list _) as [g|] eqn:Eg; [|by eexists].
  assert (exists fs', add_total fs (length (ng_to_vec g)) (vv_frequency v) = Ok fs') as [fs' ->].
  { unfold add_total. destruct (Nat.ltb_spec 1 (length (ng_to_vec g))).
    - destruct (lookup_lt_is_Some_2 (grow_freq_sum fs (length (ng_to_vec g))) (length (ng_to_vec g) - 1)) as [x Hx].
      { unfold grow_freq_sum. rewrite app_length, replicate_length. lia. }
      rewrite (rindex_ok _ _ _ Hx). by eexists.
    - destruct (lookup_lt_is_Some_2 fs 0) as [x Hx]; [lia|]. rewrite (rindex_ok _ _ _ Hx). by eexists. }
  cbn [rbind]. unfold add_ngram. specialize (Hb g). destruct (ng !! g) as [c|]; [|by eexists].
  cbn in Hb. unfold u32_add. destruct (N.ltb_spec (c + vv_frequency v) 4294967296); [by eexists|lia].
Qed.
Lemma sum_filter_le (P : vocab_value -> Prop) `{forall v, Decision (P v)} l : (sum_frequency (filter P l) <= sum_frequency l)%N.
Proof.
  induction l as [|v l IH]; [done|]. rewrite filter_cons. destruct (decide (P v)); cbn; unfold sum_frequency in *; lia.
Qed.
Lemma add_opt_le l : (default 0 (add_opt None l) <= sum_frequency l)%N.
Proof. destruct l; [done|]. cbn [add_opt]. unfold default, from_option, id. lia. Qed.
Lemma lm_run_total m k : forall u,
  words_counted m -> k <= length (m_decoder m) -> (sum_frequency (m_decoder m) < 4294967296)%N ->
  exists st', rfoldl (lm_step m) (∅, [0%N], u) (seq 0 k) = Ok st'.
Proof.
  induction k as [|k IH]; intros u W Hk Hs; [by eexists|].
  destruct (IH u W ltac:(lia) Hs) as [st E]. rewrite seq_S, rfoldl_app, E. cbn [rbind rfoldl plus].
  destruct (lm_run m k _ _ _ _ W (le_n 1 : 1 <= length [0%N]) ltac:(lia) E) as (ng & fs & -> & L1 & Hn & _).
  destruct (lookup_lt_is_Some_2 (m_decoder m) k) as [v D]; [lia|].
  destruct (lm_step_total m k v ng fs u (sum_frequency (take k (m_decoder m))) D (W _ _ D) L1) as [st' ->]; [| |by eexists].
  - intros g. rewrite Hn, lookup_empty. unfold of_ngram.
    etransitivity; [apply add_opt_le|]. apply sum_filter_le.
  - assert (sum_frequency (take (S k) (m_decoder m)) <= sum_frequency (m_decoder m))%N as H.
    { rewrite <- (take_drop (S k) (m_decoder m)) at 2. rewrite sum_app. lia. }
    rewrite (take_S_r _ _ _ D), sum_app in H. cbn in H. lia.
Qed.

Lemma build_succeeds o o' m :
  alphabet_ok (m_alphabet m) -> some_order o' -> words_counted m -> m_ngrams m = ∅ -> m_freq_sum m = [0%N] ->
  (sum_frequency (m_decoder m) < 4294967296)%N -> exists m', build o o' m = Ok m'.
Proof.
  intros HA Ho W Hn Hf Hs. unfold build. destruct (build_index_ok o m HA) as [m1 E]. rewrite E. cbn [rbind].
  pose proof (build_index_vocab _ _ _ E) as (D1 & E1 & A1).
  assert (m_ngrams m1 = m_ngrams m /\ m_freq_sum m1 = m_freq_sum m) as [N1 F1].
  { unfold build_index in E. apply rbind_ok in E as (hs & _ & E). apply rbind_ok in E as (ix & _ & E). by injection E as <-. }
  rewrite N1, F1, Hn, Hf. destruct (lm_run_total m1 (length (m_decoder m1)) (Some ∅)) as [st Es].
  { intros id v. rewrite D1. apply W. }
  { done. }
  { by rewrite D1. }
  rewrite Es. cbn [rbind]. assert (st.2 = Some ∅) as U.
  { refine (rfoldl_inv (fun st => st.2 = Some ∅) _ _ _ _ _ _ Es); [|done].
    intros b a b' Hb Hst. apply lm_step_unseen in Hst. congruence. }
  destruct st as [[ng fs] u]. cbn in U. subst u. rewrite map_to_list_empty.
  assert (o' [] = []) as -> by (apply Permutation_nil_r, Ho). by eexists.
Qed.

(** additions of texts with fewer than 255 spaces keep the word counts right *)
Lemma u8_succ_small n k : n < 255 -> u8_succ (as_u8 n) = Ok k -> k = S n.
Proof.
  intros H. unfold u8_succ, as_u8. rewrite Nat.mod_small by lia. destruct (Nat.ltb_spec n 255); [|lia]. congruence.
Qed.
Lemma run_adds_words A w l m :
  run_adds (new_with_alphabet A w) l = Ok m -> Forall (fun a => count_spaces a.1.1 < 255) l -> words_counted m.
Proof.
  intros H Hl id v D. pose proof (history_run _ _ _ _ H) as Hh.
  assert (m_encoder m !! vv_text v = Some id) as E by (apply (hi_inv _ _ Hh); eauto).
  destruct (hi_entry _ _ Hh (vv_text v) v) as [_ _ S N _ _ _ _ _]; [by exists id|].
  destruct (special_dec (vv_text v)) as [Hs|Hs].
  - destruct (S Hs) as [_ ->]. by destruct Hs as [->|[->| ->]].
  - destruct (N Hs) as [_ Hc]. apply u8_succ_small in Hc; [done|].
    destruct (proj1 (hi_texts _ _ Hh (vv_text v)) ltac:(eauto)) as [?|Ht]; [done|].
    apply elem_of_list_fmap in Ht as (a & Ha & Hin). rewrite Ha. eapply Forall_forall in Hl; [|exact Hin]. done.
Qed.
Lemma run_adds_fields A w l m :
  run_adds (new_with_alphabet A w) l = Ok m -> m_ngrams m = ∅ /\ m_freq_sum m = [0%N] /\ m_alphabet m = A.
Proof.
  intros H. split; [|split; [|by apply grows_alphabet_run in H]].
  - refine (rfoldl_inv (fun m => m_ngrams m = ∅) _ _ _ _ _ _ H); [|done].
    intros b a b' Hb E. apply rbind_ok in E as ([m1 i] & E & [= <-]).
    by apply add_cases in E as [(? & ? & _ & _ & _ & ->)|(? & _ & _ & _ & ->)].
  - refine (rfoldl_inv (fun m => m_freq_sum m = [0%N]) _ _ _ _ _ _ H); [|done].
    intros b a b' Hb E. apply rbind_ok in E as ([m1 i] & E & [= <-]).
    by apply add_cases in E as [(? & ? & _ & _ & _ & ->)|(? & _ & _ & _ & ->)].
Qed.

Lemma counts_after_build A w l m m' o o' :
  run_adds (new_with_alphabet A w) l = Ok m -> Forall (fun a => count_spaces a.1.1 < 255) l ->
  some_order o' -> build o o' m = Ok m' ->
  (forall g vs, selects (counts_as m g) (m_decoder m) vs ->
     m_ngrams m' !! g = match vs with [] => None | _ => Some (sum_frequency vs) end) /\
  (forall n vs, selects (counts_for_order m (S n)) (m_decoder m) vs ->
     default 0%N (m_freq_sum m' !! n) = sum_frequency vs).
Proof.
  intros H Hl Ho B. destruct (run_adds_fields _ _ _ _ H) as (Hn & Hf & _).
  destruct (build_counts o o' m m' Ho (run_adds_words _ _ _ _ H Hl)) as (G & F & _); [by rewrite Hf|done|].
  split.
  - intros g vs Hs. rewrite (G g vs Hs), Hn, lookup_empty. destruct vs; [done|]. cbn [add_opt]. f_equal.
  - intros n vs Hs. rewrite (F n vs Hs), Hf. destruct n as [|n]; [|destruct n]; reflexivity.
Qed.
