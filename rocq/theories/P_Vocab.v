(** What an entry looks like after any sequence of additions. *)
From Coq Require Import Lia Sorted.
From Verif Require Import M_Base M_Anahash M_Iter M_Float M_Types M_Model S_Anahash S_Model M_Distance P_Base P_Anahash P_Model.
From stdpp Require Import options.

Lemma land_pow2 x k : N.land x (2 ^ k) = if N.testbit x k then (2 ^ k)%N else 0%N.
Proof.
  apply N.bits_inj. intros i. rewrite N.land_spec, N.pow2_bits_eqb.
  destruct (N.eqb_spec k i) as [->|Hne].
  - destruct (N.testbit x i) eqn:E; [by rewrite N.pow2_bits_true|by rewrite N.bits_0].
  - rewrite andb_false_r. destruct (N.testbit x k); [|by rewrite N.bits_0].
    rewrite N.pow2_bits_eqb. symmetry. by apply N.eqb_neq.
Qed.
Lemma check_pow2 x k : (N.land x (2 ^ k) =? 2 ^ k)%N = N.testbit x k.
Proof.
  rewrite land_pow2. destruct (N.testbit x k); [apply N.eqb_refl|].
  apply N.eqb_neq. pose proof (N.pow_nonzero 2 k ltac:(done)). lia.
Qed.
Lemma vt_check_indexed x : vt_check x VT_INDEXED = N.testbit x 0.
Proof. apply (check_pow2 x 0). Qed.
Lemma vt_check_lm x : vt_check x VT_LM = N.testbit x 1.
Proof. apply (check_pow2 x 1). Qed.
Lemma vt_check_transparent x : vt_check x VT_TRANSPARENT = N.testbit x 2.
Proof. apply (check_pow2 x 2). Qed.

Lemma update_type_bits id old g i :
  3 <= id ->
  N.testbit (update_type id old g) i =
  (if (i =? 2)%N then N.testbit old 2 && N.testbit g 2 else N.testbit old i).
Proof.
  intros Hid. unfold update_type, BOS, EOS, UNK.
  destruct (Nat.eqb_spec id 0); [lia|]. destruct (Nat.eqb_spec id 1); [lia|]. destruct (Nat.eqb_spec id 2); [lia|].
  cbn [orb]. rewrite !vt_check_transparent.
  destruct (N.testbit old 2) eqn:E1, (N.testbit g 2) eqn:E2; cbn [andb negb];
    try (destruct (N.eqb_spec i 2) as [->|]; done).
  change VT_TRANSPARENT with (2 ^ 2)%N.
  rewrite N.lxor_spec, N.pow2_bits_eqb. destruct (N.eqb_spec i 2) as [->|Hne].
  - by rewrite E1.
  - destruct (N.eqb_spec 2 i); [congruence|]. by rewrite xorb_false_r.
Qed.
Lemma update_type_special id old g : id < 3 -> update_type id old g = VT_LM.
Proof. intros H. destruct id as [|[|[|id]]]; try done. lia. Qed.

Lemma shl1_ok i b : shl1 i = Ok b <-> (i < 32)%N /\ b = (2 ^ i)%N.
Proof.
  unfold shl1. destruct (N.ltb_spec i 32) as [H|H].
  - rewrite N.shiftl_1_l. split; [intros [= <-]; done|]. intros [_ ->]. done.
  - split; [done|]. intros [? _]. lia.
Qed.

Lemma update_frequency_policy h old new r : update_frequency h old new = Ok r -> r = policy h old new.
Proof.
  destruct h; cbn.
  - unfold u32_add. destruct (_ <? _)%N; intros [= <-]; done.
  - intros [= <-]. destruct (N.ltb_spec old new); lia.
  - intros [= <-]. destruct (N.ltb_spec new old); lia.
  - intros [= <-]. done.
Qed.

Definition texts (l : list addition) : list str := map (fun a => a.1.1) l.

(** what an entry for the text [t] looks like after the additions [h] to it *)
Record entry_spec (A : alphabet) (t : str) (h : list addition) (v : vocab_value) : Prop := {
  es_text : vv_text v = t;
  es_variants : vv_variants v = None;
  es_norm_special : special_text t -> vv_norm v = [] /\ vv_tokencount v = 1;
  es_norm : ~ special_text t -> normalize_to_alphabet A t = Ok (vv_norm v) /\
    u8_succ (as_u8 (count_spaces t)) = Ok (vv_tokencount v);
  es_freq_special : special_text t -> vv_frequency v = fold_policy 0 h;
  es_freq : ~ special_text t -> exists a h', h = a :: h' /\ vv_frequency v = fold_policy (given a) h';
  es_lex : forall i, N.testbit (vv_lexindex v) i = true <-> exists a, a ∈ h /\ vp_index a.2 = i;
  es_type_special : special_text t -> vv_type v = match h with [] => VT_NONE | _ => VT_LM end;
  es_type : ~ special_text t -> exists a h', h = a :: h' /\
    forall i, flag (vv_type v) i =
      if (i =? transparent_bit)%N then forallb (fun b => flag (declared_type b) transparent_bit) h
      else flag (declared_type a) i;
}.
Record history (l : list addition) (m : model) : Prop := {
  hi_inv : lookups_inverse m;
  hi_texts : forall t, (exists id, m_encoder m !! t = Some id) <-> special_text t \/ t ∈ texts l;
  hi_special : forall t id, m_encoder m !! t = Some id -> (id < 3 <-> special_text t);
  hi_entry : forall t v, entry m t v -> entry_spec (m_alphabet m) t (about t l) v;
}.

Lemma about_app t l l' : about t (l ++ l') = about t l ++ about t l'.
Proof. apply filter_app. Qed.
Lemma about_one t a : about t [a] = if decide (a.1.1 = t) then [a] else [].
Proof. unfold about. rewrite filter_cons. by destruct (decide _). Qed.
Lemma fold_policy_app x l a : fold_policy x (l ++ [a]) = policy (vp_freq_handling a.2) (fold_policy x l) (given a).
Proof. unfold fold_policy. by rewrite foldl_app. Qed.

Lemma special_dec t : {special_text t} + {~ special_text t}.
Proof.
  unfold special_text. destruct (decide (t = bos_text)); [left; auto|].
  destruct (decide (t = eos_text)); [left; auto|]. destruct (decide (t = unk_text)); [left; auto|right; naive_solver].
Qed.

Lemma history_new A w : history [] (new_with_alphabet A w).
Proof.
  assert (forall t id, init_encoder !! t = Some id ->
    (id = 0 /\ t = bos_text) \/ (id = 1 /\ t = eos_text) \/ (id = 2 /\ t = unk_text)) as He.
  { intros t id H. unfold init_encoder in H.
    apply lookup_insert_Some in H as [[<- <-]|[_ H]]; [auto|].
    apply lookup_insert_Some in H as [[<- <-]|[_ H]]; [auto|].
    apply lookup_insert_Some in H as [[<- <-]|[_ H]]; [auto|]. by rewrite lookup_empty in H. }
  split.
  - apply new_inverse.
  - intros t. cbn. split.
    + intros (id & H%He). left. unfold special_text. naive_solver.
    + intros [[ -> | [ -> | -> ] ] | H]; [exists 0|exists 1|exists 2|by apply elem_of_nil in H]; by vm_compute.
  - intros t id H%He. unfold special_text. split; [naive_solver|]. destruct H as [[-> ?]|[[-> ?]|[-> ?]]]; lia.
  - intros t v (id & H & D). cbn in *.
    assert (special_text t) as Hs. { apply He in H. unfold special_text. naive_solver. }
    assert (v = special t) as ->.
    { apply He in H as [[-> ->]|[[-> ->]|[-> ->]]]; cbn in D; congruence. }
    unfold about. cbn. split; try done.
    intros i. cbn [special vv_lexindex]. rewrite N.bits_0. split; [done|]. intros (a & H1%elem_of_nil & _). done.
Qed.

Lemma history_step l m a m' :
  history l m -> rmap fst (add_to_vocabulary m a.1.1 a.1.2 a.2) = Ok m' -> history (l ++ [a]) m'.
Proof.
  destruct a as [[t f] p]. cbn [fst snd]. intros [W T S En] H. apply rbind_ok in H as ([m1 id] & H & E).
  injection E as <-. destruct (add_wf _ _ _ _ _ _ W H) as (W' & G & _).
  apply add_cases in H as [(item & item' & E & D & U & ->)|(item & E & -> & U & ->)].
  - apply update_item_fields in U as (Tx & Un & Uc & Uv & F & (bit & B & Lx) & Ty).
    apply shl1_ok in B as [Hi ->]. apply update_frequency_policy in F.
    assert (id < length (m_decoder m)) as L by (by eapply lookup_lt_Some).
    destruct (En t item) as [Et Ev Ens En' Fs Fn Le Ts Tn]; [by exists id|].
    split; [done| | |].
    + intros t'. cbn. rewrite (T t'). unfold texts. rewrite map_app, elem_of_app. cbn.
      rewrite elem_of_list_singleton. split; [tauto|]. intros [?|[?| ->]]; [auto..|].
      apply T. eauto.
    + done.
    + intros t' v (id' & E' & D'). cbn in E', D'. rewrite about_app, about_one. cbn [fst].
      destruct (decide (t = t')) as [<-|Hne].
      * assert (id' = id) as -> by congruence. rewrite list_lookup_insert in D' by done. injection D' as <-.
        split.
        -- congruence.
        -- congruence.
        -- rewrite Un, Uc. exact Ens.
        -- rewrite Un, Uc. exact En'.
        -- intros Hs. rewrite F, fold_policy_app. cbn. by rewrite Fs.
        -- intros Hs. destruct (Fn Hs) as (a & h' & -> & Fa). exists a, (h' ++ [(t, f, p)]). split; [done|].
           rewrite F, fold_policy_app. cbn. by rewrite Fa.
        -- intros i. rewrite Lx, N.lor_spec, N.pow2_bits_eqb, orb_true_iff, Le, N.eqb_eq. split.
           ++ intros [(b & Hb & Hbi)|<-]; [exists b; split; [set_solver|done]|].
              exists (t, f, p). split; [set_solver|done].
           ++ intros (b & Hb & Hbi). apply elem_of_app in Hb as [Hb|Hb]; [eauto|].
              apply elem_of_list_singleton in Hb as ->. auto.
        -- intros Hs. rewrite Ty, update_type_special; [|by apply (S t id)].
           by destruct (about t l).
        -- intros Hs. assert (3 <= id) as Hid. { apply not_lt. intros Hlt. by apply Hs, (S t id E). }
           destruct (Tn Hs) as (a & h' & Eh & Ha). exists a, (h' ++ [(t, f, p)]).
           split; [by rewrite Eh|]. intros i. unfold flag in *. rewrite Ty, update_type_bits by done.
           unfold transparent_bit in *. destruct (N.eqb_spec i 2) as [->|Hi2].
           ++ rewrite forallb_app. cbn. rewrite andb_true_r. rewrite (Ha 2%N). done.
           ++ rewrite (Ha i). destruct (N.eqb_spec i 2); [done|done].
      * rewrite app_nil_r. apply En. exists id'. split; [done|].
        rewrite list_lookup_insert_ne in D'; [done|].
        intros ->. apply W in E as (v1 & ? & T1). apply W in E' as (v2 & ? & T2). congruence.
  - apply new_item_fields in U as (Tx & Un & Uc & Uv & F & B & Ty). apply shl1_ok in B as [Hi B].
    assert (~ special_text t /\ t ∉ texts l) as [Hns Hnt].
    { assert (~ (special_text t \/ t ∈ texts l)) as Hn; [|tauto].
      rewrite <- (T t). intros (id & ?). congruence. }
    assert (about t l = []) as Hab.
    { destruct (about t l) as [|a h] eqn:Ea; [done|]. destruct Hnt.
      assert (a ∈ about t l) as Ha by (rewrite Ea; set_solver).
      apply elem_of_list_filter in Ha as [<- Ha]. apply elem_of_list_fmap. eauto. }
    assert (3 <= length (m_decoder m)) as L3.
    { destruct (proj2 (T bos_text) ltac:(left; left; done)) as [i0 H0].
      destruct (proj2 (T eos_text) ltac:(left; right; left; done)) as [i1 H1].
      destruct (proj2 (T unk_text) ltac:(left; right; right; done)) as [i2 H2].
      pose proof H0 as (? & D0%lookup_lt_Some & ?)%W. pose proof H1 as (? & D1%lookup_lt_Some & ?)%W.
      pose proof H2 as (? & D2%lookup_lt_Some & ?)%W.
      assert (i0 <> i1). { intros ->. apply W in H0 as (? & ? & ?), H1 as (? & ? & ?). assert (bos_text = eos_text) by congruence. done. }
      assert (i0 <> i2). { intros ->. apply W in H0 as (? & ? & ?), H2 as (? & ? & ?). assert (bos_text = unk_text) by congruence. done. }
      assert (i1 <> i2). { intros ->. apply W in H1 as (? & ? & ?), H2 as (? & ? & ?). assert (eos_text = unk_text) by congruence. done. }
      lia. }
    split; [done| | |].
    + intros t'. cbn. unfold texts. rewrite map_app, elem_of_app. cbn. rewrite elem_of_list_singleton.
      destruct (decide (t' = t)) as [->|Hne].
      * rewrite lookup_insert. naive_solver.
      * rewrite lookup_insert_ne by congruence. rewrite (T t'). unfold texts. naive_solver.
    + intros t' id. cbn. destruct (decide (t' = t)) as [->|Hne].
      * rewrite lookup_insert. intros [= <-]. split; [lia|done].
      * rewrite lookup_insert_ne by congruence. apply S.
    + intros t' v (id' & E' & D'). cbn in E', D'. rewrite about_app, about_one. cbn [fst].
      destruct (decide (t = t')) as [<-|Hne].
      * rewrite lookup_insert in E'. injection E' as <-. rewrite list_lookup_middle in D' by done. injection D' as <-.
        rewrite Hab. cbn [app]. split; [done|done|done|done|done| | |done|].
        -- intros _. exists (t, f, p), []. done.
        -- intros i. rewrite B, N.pow2_bits_eqb, N.eqb_eq. split.
           ++ intros <-. exists (t, f, p). split; [set_solver|done].
           ++ intros (b & ->%elem_of_list_singleton & <-). done.
        -- intros _. exists (t, f, p), []. split; [done|]. intros i. rewrite Ty. cbn. rewrite andb_true_r.
           unfold transparent_bit. destruct (N.eqb_spec i 2) as [->|]; done.
      * rewrite app_nil_r. apply En. rewrite lookup_insert_ne in E' by done. exists id'. split; [done|].
        rewrite lookup_app_l in D'; [done|]. apply W in E' as (v1 & D1%lookup_lt_Some & _). done.
Qed.

Lemma run_adds_app m l l' : run_adds m (l ++ l') = (let* m := run_adds m l in run_adds m l').
Proof. apply rfoldl_app. Qed.

Lemma history_run A w l : forall m, run_adds (new_with_alphabet A w) l = Ok m -> history l m.
Proof.
  induction l as [|a l IH] using rev_ind; intros m.
  - cbn. intros [= <-]. apply history_new.
  - rewrite run_adds_app. intros H. apply rbind_ok in H as (m1 & E & H). cbn in H.
    apply rbind_ok in H as (m2 & E2 & H). injection H as <-. eapply history_step; [by apply IH|exact E2].
Qed.

(** ** Additions succeed *)
Lemma total_given_app l l' : total_given (l ++ l') = (total_given l + total_given l')%N.
Proof. unfold total_given. induction l as [|a l IH]; cbn; [lia|]. rewrite IH. lia. Qed.
Lemma total_given_about t l : (total_given (about t l) <= total_given l)%N.
Proof.
  unfold about. induction l as [|a l IH]; [done|]. rewrite filter_cons. cbn.
  destruct (decide _); cbn; unfold total_given in *; lia.
Qed.
Lemma fold_policy_le l : forall x, (fold_policy x l <= x + total_given l)%N.
Proof.
  induction l as [|a l IH]; intros x; cbn; [lia|]. etransitivity; [apply IH|].
  unfold policy. destruct (vp_freq_handling a.2); unfold total_given; lia.
Qed.
Lemma entry_freq_le A t h v : entry_spec A t h v -> (vv_frequency v <= total_given h)%N.
Proof.
  intros S. destruct (special_dec t) as [H|H].
  - rewrite (es_freq_special _ _ _ _ S H). pose proof (fold_policy_le h 0). lia.
  - destruct (es_freq _ _ _ _ S H) as (a & h' & -> & ->). pose proof (fold_policy_le h' (given a)).
    unfold total_given in *. cbn. lia.
Qed.

Lemma tokencount_ok n : Nat.modulo n 256 <> 255 -> exists k, u8_succ (as_u8 n) = Ok k.
Proof.
  intros H. unfold u8_succ, as_u8. pose proof (Nat.mod_upper_bound n 256 ltac:(lia)).
  destruct (Nat.ltb_spec (n mod 256) 255); [eauto|lia].
Qed.

Lemma grows_alphabet_run l : forall m m', run_adds m l = Ok m' -> m_alphabet m' = m_alphabet m.
Proof.
  unfold run_adds. induction l as [|a l IH]; intros m m'; cbn; [intros [= <-]; done|].
  intros H. apply rbind_ok in H as (m1 & E & H). apply IH in H. rewrite H.
  apply rbind_ok in E as ([m2 id] & E & [= <-]).
  by apply add_cases in E as [(? & ? & _ & _ & _ & ->)|(? & _ & _ & _ & ->)].
Qed.

Lemma adds_succeed A w l :
  alphabet_ok A -> Forall add_ok l -> (total_given l < 4294967296)%N ->
  exists m, run_adds (new_with_alphabet A w) l = Ok m.
Proof.
  intros HA Hl. induction l as [|a l IH] using rev_ind; intros Ht.
  { by eexists. }
  apply Forall_app in Hl as [Hl Ha]. apply Forall_singleton in Ha as [Hi Hs].
  rewrite total_given_app in Ht. destruct IH as [m E]; [done|lia|].
  rewrite run_adds_app, E. cbn [rbind]. pose proof (history_run _ _ _ _ E) as Hh.
  pose proof (grows_alphabet_run _ _ _ E) as Hal. cbn in Hal.
  unfold run_adds. cbn [rfoldl]. destruct a as [[t f] p]. cbn [fst snd] in *.
  assert (shl1 (vp_index p) = Ok (2 ^ vp_index p)%N) as Hb by (by apply shl1_ok).
  unfold add_to_vocabulary. destruct (m_encoder m !! t) as [id|] eqn:En.
  - destruct (proj1 (hi_inv _ _ Hh t id) En) as (v & D & Tv). rewrite D. cbn [rexpect rbind].
    unfold update_item. rewrite Hb.
    assert (exists f', update_frequency (vp_freq_handling p) (vv_frequency v) (default 1%N f) = Ok f') as [f' ->].
    { destruct (vp_freq_handling p); cbn; try by eexists. unfold u32_add.
      assert (vv_frequency v <= total_given l)%N as Hf.
      { etransitivity; [|apply (total_given_about t l)]. eapply entry_freq_le, hi_entry; [done|]. by exists id. }
      assert (total_given [(t, f, p)] = default 1%N f) as Hg by (unfold total_given, given; cbn; lia).
      destruct (N.ltb_spec (vv_frequency v + default 1%N f) 4294967296); [by eexists|lia]. }
    cbn. by eexists.
  - unfold new_item. rewrite Hal. destruct (hash_total A t HA) as [_ [n ->]]. cbn [rbind].
    destruct (tokencount_ok _ Hs) as [k ->]. cbn [rbind]. rewrite Hb. cbn. by eexists.
Qed.

(** ** Lexicon membership *)
Lemma in_lexicon_spec v i : (i < 32)%N -> in_lexicon v i = Ok (N.testbit (vv_lexindex v) i).
Proof.
  intros Hi. unfold in_lexicon, shl1. destruct (N.ltb_spec i 32); [|lia]. cbn [rbind].
  by rewrite N.shiftl_1_l, check_pow2.
Qed.
Lemma lexindex_as_vec_spec v :
  lexindex_as_vec v = Ok (filter (fun i => N.testbit (vv_lexindex v) i = true) (map N.of_nat (seq 0 31))).
Proof.
  unfold lexindex_as_vec. set (f := fun _ _ => _).
  assert (forall n, n <= 31 -> rfoldl f [] (seq 0 n) =
    Ok (filter (fun i => N.testbit (vv_lexindex v) i = true) (map N.of_nat (seq 0 n)))) as H; [|by apply H].
  induction n as [|n IH]; intros Hn; [done|]. rewrite seq_S, rfoldl_app, IH by lia. cbn [rbind rfoldl plus].
  unfold f at 1. rewrite in_lexicon_spec by lia. cbn [rbind]. rewrite map_app, filter_app. cbn [map].
  rewrite filter_cons. destruct (N.testbit _ _); cbn; by rewrite ?app_nil_r.
Qed.

Lemma lexicon_query A w l m t v i :
  run_adds (new_with_alphabet A w) l = Ok m -> entry m t v -> (i < 32)%N ->
  exists b, in_lexicon v i = Ok b /\ (b = true <-> exists a, a ∈ l /\ a.1.1 = t /\ vp_index a.2 = i).
Proof.
  intros H E Hi. rewrite in_lexicon_spec by done. eexists. split; [done|].
  rewrite (es_lex _ _ _ _ (hi_entry _ _ (history_run _ _ _ _ H) _ _ E) i).
  unfold about. setoid_rewrite elem_of_list_filter. naive_solver.
Qed.
Lemma seq_sorted a n : StronglySorted N.lt (map N.of_nat (seq a n)).
Proof.
  revert a. induction n as [|n IH]; intros a; cbn; [constructor|]. constructor; [apply IH|].
  apply Forall_forall. intros x Hx. apply elem_of_list_fmap in Hx as (y & -> & Hy). apply elem_of_seq in Hy. lia.
Qed.
Lemma filter_sorted {A} (R : A -> A -> Prop) (P : A -> Prop) `{forall x, Decision (P x)} l :
  StronglySorted R l -> StronglySorted R (filter P l).
Proof.
  induction 1 as [|x l Hs IH Hf]; [constructor|]. rewrite filter_cons. destruct (decide (P x)); [|done].
  constructor; [done|]. apply Forall_forall. intros y Hy. apply elem_of_list_filter in Hy as [_ Hy].
  rewrite Forall_forall in Hf. auto.
Qed.
Lemma lexicon_list A w l m t v :
  run_adds (new_with_alphabet A w) l = Ok m -> entry m t v ->
  exists ls, lexindex_as_vec v = Ok ls /\ StronglySorted N.lt ls /\
    forall i, i ∈ ls <-> (i < 31)%N /\ exists a, a ∈ l /\ a.1.1 = t /\ vp_index a.2 = i.
Proof.
  intros H E. eexists. split; [apply lexindex_as_vec_spec|]. split; [apply filter_sorted, seq_sorted|].
  intros i. rewrite elem_of_list_filter.
  rewrite (es_lex _ _ _ _ (hi_entry _ _ (history_run _ _ _ _ H) _ _ E) i).
  unfold about. setoid_rewrite elem_of_list_filter. rewrite elem_of_list_fmap. split.
  - intros [(a & [Ha Hl] & Hi) (y & -> & Hy)]. apply elem_of_seq in Hy. split; [lia|]. eauto.
  - intros [Hi (a & Ha & Ht & Hx)]. split; [eauto|]. exists (N.to_nat i). split; [lia|]. apply elem_of_seq. lia.
Qed.

(** ** Vocabulary files *)
Lemma split_on_fields sep line : fields_of sep line (split_on sep line).
Proof.
  induction line as [|c line IH]; cbn; [by constructor; apply not_elem_of_nil|].
  destruct (N.eqb_spec c sep) as [->|Hc].
  - apply (fields_next _ [] line); [apply not_elem_of_nil|done].
  - inversion IH as [f Hf E1 E2|f rest fs Hf Hr E1 E2]; subst.
    + constructor. rewrite not_elem_of_cons. split; [congruence|done].
    + apply (fields_next _ (c :: f) rest fs); [|done]. rewrite not_elem_of_cons. split; [congruence|done].
Qed.
Lemma fields_det sep line fs : fields_of sep line fs -> fs = split_on sep line.
Proof.
  induction 1 as [f Hf|f rest fs Hf Hr IH].
  - induction f as [|c f IH]; [done|]. rewrite not_elem_of_cons in Hf. destruct Hf as [Hc Hf]. cbn.
    destruct (N.eqb_spec c sep); [congruence|]. by rewrite <- IH.
  - rewrite IH. clear -Hf. induction f as [|c f IH]; cbn; [by rewrite N.eqb_refl|]. rewrite not_elem_of_cons in Hf.
    destruct Hf as [Hc Hf]. destruct (N.eqb_spec c sep); [congruence|]. by rewrite <- IH.
Qed.
Lemma split_on_length sep line : length (split_on sep line) = S (length (List.filter (fun c => (c =? sep)%N) line)).
Proof.
  induction line as [|c line IH]; cbn; [done|]. destruct (c =? sep)%N; cbn; [by rewrite IH|].
  destruct (split_on sep line); cbn in *; lia.
Qed.

Lemma parse_digits_spec ds : forall acc n,
  parse_digits ds acc = Some n <-> Forall digit ds /\ n = (acc * 10 ^ N.of_nat (length ds) + decimal_value ds)%N.
Proof.
  induction ds as [|c ds IH]; intros acc n; cbn [parse_digits decimal_value length].
  - change (N.of_nat 0) with 0%N. rewrite N.pow_0_r. split.
    + intros [= ->]. split; [constructor|lia].
    + intros [_ ->]. f_equal. lia.
  - rewrite Nat2N.inj_succ, N.pow_succ_r'. destruct ((48 <=? c)%N && (c <=? 57)%N) eqn:E.
    + apply andb_true_iff in E as [E1%N.leb_le E2%N.leb_le]. rewrite IH. split.
      * intros [Hd ->]. split; [by constructor|]. nia.
      * intros [Hd%Forall_cons ->]. split; [by apply Hd|]. nia.
    + split; [done|]. intros [[Hd _]%Forall_cons _]. apply andb_false_iff in E as [E%N.leb_gt|E%N.leb_gt]; destruct Hd; lia.
Qed.
Lemma parse_uint_spec max s n : parse_uint max s = Some n <-> decimal max s n.
Proof.
  assert (forall ds, ds <> [] -> match parse_digits ds 0 with
    | Some n => if (n <=? max)%N then Some n else None | None => None end = Some n <->
    Forall digit ds /\ n = decimal_value ds /\ (n <= max)%N) as Hd.
  { intros ds _. destruct (parse_digits ds 0) as [k|] eqn:E.
    - apply parse_digits_spec in E as [Hf ->]. rewrite N.mul_0_l, N.add_0_l.
      destruct (N.leb_spec (decimal_value ds) max); naive_solver lia.
    - split; [done|]. intros (Hf & Hn & _).
      assert (parse_digits ds 0 = Some n) by (apply parse_digits_spec; split; [done|lia]). congruence. }
  unfold parse_uint, decimal. split.
  - intros H. set (ds := match s with 43%N :: s' => s' | _ => s end) in *.
    assert (s = ds \/ s = 43%N :: ds) as Hs.
    { unfold ds. destruct s as [|c s]; [auto|]. destruct (decide (c = 43%N)) as [->|Hc]; [auto|]. left.
      destruct c as [|p]; [done|]. repeat (destruct p as [p|p|]; try done). }
    clearbody ds. destruct ds as [|c ds]; [done|]. exists (c :: ds). split; [done|]. split; [done|].
    apply Hd; [done|]. exact H.
  - intros (ds & Hs & Hne & H). assert (match s with 43%N :: s' => s' | _ => s end = ds) as ->.
    { destruct Hs as [->| ->]; [|done]. destruct ds as [|c ds]; [done|].
      destruct H as [[Hx _]%Forall_cons _].
      destruct (decide (c = 43%N)) as [->|Hc]; [destruct Hx; lia|].
      destruct c as [|p]; [done|]. repeat (destruct p as [p|p|]; try done). }
    destruct ds as [|c ds]; [done|]. by apply Hd.
Qed.

Lemma same_vocab_refl m : same_vocab m m.
Proof. done. Qed.
Lemma same_vocab_trans m1 m2 m3 : same_vocab m1 m2 -> same_vocab m2 m3 -> same_vocab m1 m3.
Proof. intros (?&?&?) (?&?&?). split_and!; congruence. Qed.
Lemma add_same_vocab m1 m2 t f p r1 :
  same_vocab m1 m2 -> add_to_vocabulary m2 t f p = Ok r1 ->
  exists r2, add_to_vocabulary m1 t f p = Ok r2 /\ same_vocab r2.1 r1.1 /\ r2.2 = r1.2.
Proof.
  intros (D & E & A). unfold add_to_vocabulary. rewrite D, E, A. destruct (m_encoder m1 !! t) as [id|].
  - intros H. apply rbind_ok in H as (x & -> & H). apply rbind_ok in H as (y & Hy & H). injection H as <-.
    cbn. rewrite Hy. cbn. eexists. split; [done|]. split; [done|done].
  - intros H. apply rbind_ok in H as (y & -> & H). injection H as <-.
    cbn. eexists. split; [done|]. split; [done|done].
Qed.

Lemma read_line_adds p m line m' m0 :
  same_vocab m0 m -> line <> [] -> read_vocabulary_line p m line = Ok m' ->
  exists a r, line_adds p line a /\ add_to_vocabulary m0 a.1.1 a.1.2 a.2 = Ok r /\ same_vocab r.1 m' /\
    m_lexicons m' = m_lexicons m.
Proof.
  intros Hm Hne. unfold read_vocabulary_line. destruct line as [|c line]; [done|].
  set (L := c :: line). intros H. apply rbind_ok in H as (t & Ht%rexpect_ok & H).
  apply rbind_ok in H as ([m1 f] & E & H). apply rbind_ok in H as (r & E2 & H). injection H as <-. cbn in E2.
  assert (same_vocab m m1 /\ m_lexicons m1 = m_lexicons m /\
    line_adds p L (t, Some f, p)) as (S1 & Lx & La).
  { unfold line_adds. destruct (vp_freq_column p) as [col|] eqn:Ec.
    - apply rbind_ok in E as (f' & F%rexpect_ok & E). injection E as <- <-. split; [by destruct vt_check|].
      split; [by destruct vt_check|]. exists (split_on 9 L), t. split; [apply split_on_fields|]. split; [done|].
      exists f'. split; [done|]. destruct (split_on 9 L !! col); [by apply parse_uint_spec|].
      vm_compute in F. congruence.
    - injection E as <- <-. split; [done|]. split; [done|]. exists (split_on 9 L), t. split; [apply split_on_fields|].
      split; [done|]. by exists 1%N. }
  destruct (add_same_vocab m0 m1 t (Some f) p r) as (r2 & E3 & S2 & _); [by eapply same_vocab_trans|done|].
  exists (t, Some f, p), r2. split; [done|]. split; [done|]. split; [done|].
  rewrite <- Lx. destruct r as [m2 id]. cbn.
  by apply add_cases in E2 as [(? & ? & _ & _ & _ & ->)|(? & _ & _ & _ & ->)].
Qed.

Lemma read_vocabulary_adds m name lines p m' :
  read_vocabulary m name lines p = Ok m' ->
  exists adds r, Forall2 (line_adds (with_params_index p (N.of_nat (as_u8 (length (m_lexicons m))))))
      (filter (fun l => l <> []) lines) adds /\
    run_adds m adds = Ok r /\ m_decoder m' = m_decoder r /\ m_encoder m' = m_encoder r /\
    m_lexicons m' = m_lexicons m ++ [name].
Proof.
  unfold read_vocabulary. generalize (with_params_index p (N.of_nat (as_u8 (length (m_lexicons m))))) as p'. intros p' H. apply rbind_ok in H as (m1 & E & H).
  injection H as <-. cbn.
  assert (forall lines m m0 m1, same_vocab m0 m -> rfoldl (read_vocabulary_line p') m lines = Ok m1 ->
    exists adds r, Forall2 (line_adds p') (filter (fun l => l <> []) lines) adds /\
      run_adds m0 adds = Ok r /\ same_vocab r m1 /\ m_lexicons m1 = m_lexicons m) as G.
  { clear m m1 lines E. induction lines as [|line lines IH]; intros m m0 m1 S; cbn [rfoldl].
    - intros [= <-]. exists [], m0. split; [constructor|]. done.
    - intros H. apply rbind_ok in H as (m2 & E & H). rewrite filter_cons. destruct (decide (line <> [])) as [Hl|Hl].
      + destruct (read_line_adds _ _ _ _ m0 S Hl E) as (a & r & La & Ea & Sr & Lx).
        destruct (IH _ _ _ Sr H) as (adds & r' & Fa & Er & Sr' & Lx'). exists (a :: adds), r'.
        split; [by constructor|]. split; [|split; [done|congruence]].
        unfold run_adds. cbn. rewrite Ea. cbn. exact Er.
      + apply dec_stable in Hl. subst. cbn in E. injection E as <-. by apply IH. }
  destruct (G lines m m m1 (same_vocab_refl m) E) as (adds & r & Fa & Er & (D & En & _) & Lx).
  exists adds, r. split_and!; [done..|congruence].
Qed.

(** ** Order of additions *)
Section perm.
  Context (op : N -> N -> N) (op_comm : forall a b, op a b = op b a) (op_assoc : forall a b c, op a (op b c) = op (op a b) c).
  #[local] Set Default Proof Using "All".
  Lemma foldl_perm l l' : l ≡ₚ l' -> forall x, foldl op x l = foldl op x l'.
  Proof.
    induction 1 as [|y l l' _ IH|y z l|? ? ? _ IH1 _ IH2]; intros x; cbn; [done|apply IH| |by rewrite IH1].
    f_equal. by rewrite <- !op_assoc, (op_comm y z).
  Qed.
  Lemma foldl1_perm l l' : l ≡ₚ l' ->
    match l, l' with
    | a :: h, b :: h' => foldl op a h = foldl op b h'
    | [], [] => True
    | _, _ => False
    end.
  Proof.
    induction 1 as [|y l l' H _|y z l|l1 l2 l3 _ IH1 _ IH2]; cbn; [done|by apply foldl_perm|by rewrite op_comm|].
    destruct l1, l2, l3; try done. congruence.
  Qed.
End perm.

Lemma fold_policy_one h l : one_policy h l -> forall x, fold_policy x l = foldl (policy h) x (map given l).
Proof. unfold fold_policy. induction 1 as [|a l Ha _ IH]; intros x; cbn; [done|]. rewrite IH. by rewrite Ha. Qed.
Lemma policy_comm_assoc h : h <> FReplace ->
  (forall a b, policy h a b = policy h b a) /\ (forall a b c, policy h a (policy h b c) = policy h (policy h a b) c).
Proof. intros Hh. destruct h; try done; cbn; split; intros; lia. Qed.

Lemma about_perm t l l' : l ≡ₚ l' -> about t l ≡ₚ about t l'.
Proof. intros H. unfold about. by rewrite H. Qed.

Lemma testbit_ext a b : (forall i, N.testbit a i = true <-> N.testbit b i = true) -> a = b.
Proof.
  intros H. apply N.bits_inj. intros i. specialize (H i). destruct (N.testbit a i), (N.testbit b i); naive_solver.
Qed.

Lemma order_independent A w l l' m m' h :
  run_adds (new_with_alphabet A w) l = Ok m -> run_adds (new_with_alphabet A w) l' = Ok m' ->
  l ≡ₚ l' -> one_policy h l -> h <> FReplace ->
  forall t v, entry m t v -> exists v', entry m' t v' /\
    vv_text v' = vv_text v /\ vv_norm v' = vv_norm v /\ vv_tokencount v' = vv_tokencount v /\
    vv_frequency v' = vv_frequency v /\ vv_lexindex v' = vv_lexindex v /\
    flag (vv_type v') transparent_bit = flag (vv_type v) transparent_bit /\
    ((forall a b, a ∈ l -> b ∈ l -> a.1.1 = t -> b.1.1 = t -> declared_type a = declared_type b) ->
     vv_type v' = vv_type v).
Proof.
  intros H H' P Ho Hh t v E. pose proof (history_run _ _ _ _ H) as Hi. pose proof (history_run _ _ _ _ H') as Hi'.
  pose proof (grows_alphabet_run _ _ _ H) as HA. pose proof (grows_alphabet_run _ _ _ H') as HA'. cbn in HA, HA'.
  assert (exists v', entry m' t v') as [v' E'].
  { destruct E as (id & En & D). destruct (proj2 (hi_texts _ _ Hi' t)) as [id' En'].
    - destruct (proj1 (hi_texts _ _ Hi t) ltac:(eauto)) as [?|Ht]; [auto|]. right.
      unfold texts in *. apply elem_of_list_fmap in Ht as (a & -> & Ha). apply elem_of_list_fmap. exists a. split; [done|].
      by rewrite <- P.
    - destruct (proj1 (hi_inv _ _ Hi' t id') En') as (v' & D' & _). exists v', id'. done. }
  exists v'. split; [done|].
  destruct (hi_entry _ _ Hi _ _ E) as [S1 S2 S3 S4 S5 S6 S7 S8 S9].
  destruct (hi_entry _ _ Hi' _ _ E') as [T1 T2 T3 T4 T5 T6 T7 T8 T9].
  rewrite HA in *. rewrite HA' in *.
  pose proof (about_perm t _ _ P) as Pa.
  assert (one_policy h (about t l)) as Oa.
  { unfold about. apply Forall_forall. intros a Ha%elem_of_list_filter. eapply Forall_forall in Ho; [exact Ho|]. apply Ha. }
  assert (one_policy h (about t l')) as Oa' by (unfold one_policy; by rewrite <- Pa).
  destruct (policy_comm_assoc h Hh) as [Oc Os].
  assert (vv_lexindex v' = vv_lexindex v) as HL.
  { apply testbit_ext. intros i. rewrite T7, S7. by setoid_rewrite Pa. }
  destruct (special_dec t) as [Hs|Hs].
  - destruct (S3 Hs), (T3 Hs).
    assert (vv_type v' = vv_type v) as HT.
    { rewrite (S8 Hs), (T8 Hs). apply Permutation_length in Pa. by destruct (about t l), (about t l'). }
    split_and!; try congruence.
    rewrite (S5 Hs), (T5 Hs), !(fold_policy_one h) by done. symmetry. apply foldl_perm; [done..|]. by rewrite Pa.
  - destruct (S4 Hs), (T4 Hs). destruct (S6 Hs) as (a & ha & Ea & Fa), (T6 Hs) as (b & hb & Eb & Fb).
    destruct (S9 Hs) as (a2 & ha2 & Ea2 & Ga), (T9 Hs) as (b2 & hb2 & Eb2 & Gb).
    assert (a2 = a) as -> by congruence. assert (b2 = b) as -> by congruence. clear Ea2 Eb2.
    assert (flag (vv_type v') transparent_bit = flag (vv_type v) transparent_bit) as HF.
    { rewrite Ga, Gb, N.eqb_refl. apply eq_true_iff_eq. rewrite !forallb_forall.
      split; intros Hx x Hin; apply Hx; apply elem_of_list_In; apply elem_of_list_In in Hin; by rewrite ?Pa, <- ?Pa in *. }
    split_and!; try congruence.
    + rewrite Fa, Fb. rewrite Ea in Oa. rewrite Eb in Oa'. apply Forall_cons in Oa as [_ Oa], Oa' as [_ Oa'].
      rewrite !(fold_policy_one h) by done. symmetry.
      assert (map given (a :: ha) ≡ₚ map given (b :: hb)) as Pm by (rewrite <- Ea, <- Eb; by rewrite Pa).
      apply (foldl1_perm _ Oc Os _ _ Pm).
    + intros Hd. apply N.bits_inj. intros i. unfold flag in *. rewrite Ga, Gb.
      unfold transparent_bit in *. destruct (N.eqb_spec i 2) as [->|Hi2].
      * rewrite (Ga 2%N), (Gb 2%N), N.eqb_refl in HF. done.
      * f_equal. apply Hd.
        -- rewrite P. assert (b ∈ about t l') as Hb by (rewrite Eb; left). by apply elem_of_list_filter in Hb as [? ?].
        -- assert (a ∈ about t l) as Hb by (rewrite Ea; left). by apply elem_of_list_filter in Hb as [? ?].
        -- assert (b ∈ about t l') as Hb by (rewrite Eb; left). by apply elem_of_list_filter in Hb as [? ?].
        -- assert (a ∈ about t l) as Hb by (rewrite Ea; left). by apply elem_of_list_filter in Hb as [? ?].
Qed.

(** ** Statements as used for the properties *)
Lemma known_texts A w l m t :
  run_adds (new_with_alphabet A w) l = Ok m ->
  (exists id, m_encoder m !! t = Some id) <-> special_text t \/ exists a, a ∈ l /\ a.1.1 = t.
Proof.
  intros H. rewrite (hi_texts _ _ (history_run _ _ _ _ H) t). unfold texts. rewrite elem_of_list_fmap. naive_solver.
Qed.
Lemma frequency_policy A w l m t v :
  run_adds (new_with_alphabet A w) l = Ok m -> entry m t v ->
  (special_text t -> vv_frequency v = fold_policy 0 (about t l)) /\
  (~ special_text t -> exists a rest, about t l = a :: rest /\ vv_frequency v = fold_policy (given a) rest).
Proof.
  intros H E. destruct (hi_entry _ _ (history_run _ _ _ _ H) _ _ E) as [_ _ _ _ S5 S6 _ _ _]. done.
Qed.
Lemma flags_spec A w l m t v :
  run_adds (new_with_alphabet A w) l = Ok m -> entry m t v -> ~ special_text t ->
  exists a rest, about t l = a :: rest /\
    flag (vv_type v) searchable_bit = flag (declared_type a) searchable_bit /\
    flag (vv_type v) lm_bit = flag (declared_type a) lm_bit /\
    (flag (vv_type v) transparent_bit = true <-> Forall (fun b => flag (declared_type b) transparent_bit = true) (about t l)).
Proof.
  intros H E Hs. destruct (hi_entry _ _ (history_run _ _ _ _ H) _ _ E) as [_ _ _ _ _ _ _ _ S9].
  destruct (S9 Hs) as (a & rest & Ea & Ha). exists a, rest. split; [done|].
  split; [apply (Ha 0%N)|]. split; [apply (Ha 1%N)|]. rewrite Ha, N.eqb_refl, forallb_forall, Forall_forall.
  by setoid_rewrite elem_of_list_In.
Qed.
Lemma lexicon_overflow m t f p :
  (32 <= vp_index p)%N -> exists e, add_to_vocabulary m t f p = Panic e.
Proof.
  intros Hi. destruct (add_to_vocabulary m t f p) as [[m' id]|e] eqn:E; [|by eexists]. exfalso.
  apply add_cases in E as [(item & item' & _ & _ & U & _)|(item & _ & _ & U & _)].
  - apply update_item_fields in U as (_ & _ & _ & _ & _ & (b & B & _) & _). apply shl1_ok in B. lia.
  - apply new_item_fields in U as (_ & _ & _ & _ & _ & B & _). apply shl1_ok in B. lia.
Qed.
