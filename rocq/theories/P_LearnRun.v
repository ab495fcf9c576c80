(** Proofs about the command line tool in learning mode. *)
From Coq Require String Ascii.
From Coq Require Import Lia.
From Verif Require Import M_Base M_Utf8 M_Anahash M_Iter M_Distance M_Float M_Types M_Model M_Confusable M_ConfList M_Rules M_Search M_Text M_Values.
From Verif Require Import M_Matches M_Learn M_Cli M_Main M_Options M_Program.
From Verif Require Import S_Anahash S_Text S_Model S_Search S_Lookup S_Rules S_Learn S_Cli S_Options S_SearchAll S_Main S_RuleFile S_Program S_SearchRun S_LearnRun.
From Verif Require Import P_Base P_Model P_Options P_Start P_Query P_SearchRun P_Learn.
From Verif Require S_Matches P_Anahash P_Lm P_Vocab P_Files P_Links P_Matches P_CliOut P_Cli P_LookupAll P_Main P_Index P_Text.
Import String.StringSyntax Ascii.AsciiSyntax.
From stdpp Require Import options.

(** ** Learning succeeds *)
(** how often the input changes *)
Fixpoint changes (prev : option str) (l : list str) : nat :=
  match l with [] => 0 | s :: l' => (if decide (prev = Some s) then 0 else 1) + changes (Some s) l' end.
Lemma changes_length prev l : changes prev l <= length l.
Proof. revert prev. induction l as [|s l IH]; intros prev; cbn; [lia|]. specialize (IH (Some s)). destruct (decide _); lia. Qed.
Lemma changes_same prev s n : changes prev (replicate n s) <= 1.
Proof.
  assert (changes (Some s) (replicate n s) = 0) as H by (induction n as [|n IH]; cbn; [done|]; by rewrite decide_True).
  destruct n as [|n]; cbn in *; [lia|]. rewrite decide_True in H by done. destruct (decide _); lia.
Qed.
Lemma changes_app l l' : forall prev, changes prev (l ++ l') <= changes prev l + changes (match last l with Some s => Some s | None => prev end) l'.
Proof.
  induction l as [|s l IH]; intros prev; cbn [app changes]; [done|]. specialize (IH (Some s)). rewrite last_cons.
  destruct (last l); destruct (decide _); lia.
Qed.

Lemma sum_cons v l : sum_frequency (v :: l) = (vv_frequency v + sum_frequency l)%N.
Proof. done. Qed.
Lemma sum_insert (dec : list vocab_value) i v v' : dec !! i = Some v ->
  (sum_frequency (<[i := v']> dec) + vv_frequency v = sum_frequency dec + vv_frequency v')%N.
Proof.
  revert i. induction dec as [|w dec IH]; intros [|i]; [done..| |].
  - intros [= ->]. change (<[0:=v']> (v :: dec)) with (v' :: dec). rewrite !sum_cons. lia.
  - intros H. change (<[S i:=v']> (w :: dec)) with (w :: <[i:=v']> dec). rewrite !sum_cons. apply IH in H. lia.
Qed.
Lemma sum_elem (dec : list vocab_value) i v : dec !! i = Some v -> (vv_frequency v <= sum_frequency dec)%N.
Proof.
  revert i. induction dec as [|w dec IH]; intros [|i]; [done..| |]; rewrite sum_cons.
  - intros [= ->]. lia.
  - intros H. apply IH in H. lia.
Qed.

(** links change nothing else *)
Lemma update_map {A} (f : vocab_value -> A) dec id g : (forall v, f (g v) = f v) -> map f (update_decoder dec id g) = map f dec.
Proof.
  intros H. unfold update_decoder. destruct (dec !! id) as [v|] eqn:E; [|done].
  change (f <$> <[id := g v]> dec = f <$> dec). rewrite list_fmap_insert, H. apply list_insert_id. by rewrite list_lookup_fmap, E.
Qed.
Lemma link_map {A} (f : vocab_value -> A) m r y s : (forall v l, f (with_variants v l) = f v) -> map f (m_decoder (add_variant_by_id m r y s).1) = map f (m_decoder m).
Proof. intros H. unfold add_variant_by_id. destruct (negb _); [|done]. cbn [fst m_decoder with_vocab]. rewrite !update_map; [done|intros v; apply H..]. Qed.
Lemma sum_map l : sum_frequency l = foldr N.add 0%N (map vv_frequency l).
Proof. unfold sum_frequency. induction l as [|v l IH]; cbn; [done|]. by rewrite IH. Qed.

Lemma words_map m m' : map (fun v => (vv_text v, vv_tokencount v)) (m_decoder m') = map (fun v => (vv_text v, vv_tokencount v)) (m_decoder m) ->
  words_counted m -> words_counted m'.
Proof.
  intros E W id v D. assert (((fun v => (vv_text v, vv_tokencount v)) <$> m_decoder m') !! id = Some (vv_text v, vv_tokencount v)) as H by (by rewrite list_lookup_fmap, D).
  change (map ?f ?l) with (f <$> l) in E. rewrite E, list_lookup_fmap in H. destruct (m_decoder m !! id) as [w|] eqn:Dw; [|done]. injection H as <- <-. by eapply W.
Qed.
Lemma new_item_ok A s k : alphabet_ok A -> count_spaces s < 255 -> exists v, new_item A s k learn_params = Ok v /\ vv_text v = s /\ vv_frequency v = k /\
  vv_tokencount v = S (count_spaces s).
Proof.
  intros HA Hs. unfold new_item. destruct (P_Anahash.reads_total_unique A s HA) as (ks & R & _). rewrite (P_Anahash.normalize_reads A s ks HA R). cbn [rbind].
  unfold as_u8. rewrite Nat.mod_small by lia. unfold u8_succ. rewrite (proj2 (Nat.ltb_lt _ _) Hs). cbn [rbind].
  eexists. split; [reflexivity|]. done.
Qed.

Lemma elem_texts m s : lookups_inverse m -> s ∈ map vv_text (m_decoder m) <-> is_Some (m_encoder m !! s).
Proof.
  intros W. rewrite elem_of_list_fmap. split.
  - intros (v & -> & Hv). apply elem_of_list_lookup in Hv as (i & Hi). exists i. by apply (inverse_text m i v W).
  - intros (i & E). apply W in E as (v & D & <-). exists v. split; [done|]. by eapply elem_of_list_lookup_2.
Qed.
Lemma first_seen_app l l' : forall seen, first_seen seen (l ++ l') = first_seen seen l ++ first_seen (seen ++ first_seen seen l) l'.
Proof.
  assert (forall l seen seen', (forall s, s ∈ seen <-> s ∈ seen') -> first_seen seen l = first_seen seen' l) as G.
  { clear. induction l as [|s l IH]; intros seen seen' H; cbn; [done|]. destruct (decide (s ∈ seen)) as [Hs|Hs].
    - rewrite decide_True by (by apply H). by apply IH.
    - rewrite decide_False by (by rewrite <- H). f_equal. apply IH. intros t. rewrite !elem_of_cons, H. done. }
  induction l as [|s l IH]; intros seen; cbn [app first_seen]; [by rewrite app_nil_r|].
  destruct (decide (s ∈ seen)); [apply IH|]. rewrite IH. cbn [app]. do 2 f_equal. apply G. set_solver.
Qed.

Record step_ok (m m1 : model) (prev : option str) (s : str) : Prop := {
  so_sum : sum_frequency (m_decoder m1) = (sum_frequency (m_decoder m) + if decide (prev = Some s) then 0 else 1)%N;
  so_texts : map vv_text (m_decoder m1) = map vv_text (m_decoder m) ++ first_seen (map vv_text (m_decoder m)) [s];
  so_words : words_counted m -> words_counted m1;
}.
Lemma learn_one_ok m c prev s r : lookups_inverse m -> alphabet_ok (m_alphabet m) -> count_spaces s < 255 ->
  (forall p, prev = Some p -> is_Some (m_encoder m !! p)) -> (sum_frequency (m_decoder m) + (if decide (prev = Some s) then 0 else 1) < 4294967296)%N ->
  exists m1 c1, learn_one (m, c, prev) (s, r) = Ok (m1, c1, Some s) /\ step_ok m m1 prev s.
Proof.
  intros W HA Hs Hp Hsum. unfold learn_one.
  assert (exists mA id, match m_encoder m !! s with
      | Some id =>
          let* item := rexpect (m_decoder m !! id) in
          let* f := if bool_decide (prev = Some s) then Ok (vv_frequency item) else u32_add (vv_frequency item) 1%N in
          Ok (with_vocab m (<[id := VocabValue (vv_text item) (vv_norm item) f (vv_tokencount item) (vv_lexindex item) (vv_variants item) (vv_type item)]>
                (m_decoder m)) (m_encoder m), id)
      | None => add_to_vocabulary m s (Some 1%N) learn_params
      end = Ok (mA, id) /\ step_ok m mA prev s) as (mA & id & -> & SA).
  { destruct (m_encoder m !! s) as [i|] eqn:E.
    - pose proof E as E'. apply W in E as (item & D & Ti). rewrite D. cbn [rexpect rbind].
      assert (exists f, (if bool_decide (prev = Some s) then Ok (vv_frequency item) else u32_add (vv_frequency item) 1%N) = Ok f /\
        f = (vv_frequency item + if decide (prev = Some s) then 0 else 1)%N) as (f & -> & Hf).
      { destruct (decide (prev = Some s)) as [Ep|Ep].
        - rewrite bool_decide_true by done. eexists. split; [done|lia].
        - rewrite bool_decide_false by done. unfold u32_add. pose proof (sum_elem _ _ _ D). eexists. rewrite (proj2 (N.ltb_lt _ _)) by lia. done. }
      cbn [rbind]. eexists _, _. split; [reflexivity|]. split; cbn [m_decoder with_vocab].
      + pose proof (sum_insert _ i item (VocabValue (vv_text item) (vv_norm item) f (vv_tokencount item) (vv_lexindex item) (vv_variants item) (vv_type item)) D) as G.
        cbn [vv_frequency] in G. lia.
      + cbn [first_seen]. rewrite decide_True, app_nil_r by (apply elem_texts; [done|by eexists]). change (map ?f ?l) with (f <$> l). rewrite list_fmap_insert. cbn.
        apply list_insert_id. by rewrite list_lookup_fmap, D.
      + apply words_map. cbn [m_decoder with_vocab]. change (map ?f ?l) with (f <$> l). rewrite list_fmap_insert. apply list_insert_id. by rewrite list_lookup_fmap, D.
    - unfold add_to_vocabulary. rewrite E. cbn [default]. destruct (new_item_ok (m_alphabet m) s 1 HA Hs) as (v & Hv & V1 & V2 & V3).
      change (Datatypes.id 1%N) with 1%N. rewrite Hv. cbn [rbind]. eexists _, _. split; [reflexivity|].
      assert (prev <> Some s) as Hn by (intros Ep; destruct (Hp _ Ep); congruence).
      split; cbn [m_decoder with_vocab].
      + rewrite decide_False by done. rewrite P_Lm.sum_app. cbn. lia.
      + rewrite map_app. cbn [first_seen map]. rewrite decide_False, V1; [done|]. rewrite elem_texts by done. rewrite E. by intros [? ?].
      + intros Wc j w. cbn [m_decoder with_vocab]. intros D. apply lookup_app_Some in D as [D|[_ D]]; [by eapply Wc|]. apply list_lookup_singleton_Some in D as [_ <-]. by rewrite V3, V1. }
  cbn [rbind]. destruct (vr_id r =? id); [by eexists _, _|].
  assert (step_ok m (add_variant_by_id mA (vr_id r) id (vr_dist r)).1 prev s) as SB.
  { destruct SA as [A1 A2 A3]. split.
    - rewrite <- A1, !sum_map, link_map; done.
    - rewrite <- A2, link_map; done.
    - intros Wc. eapply words_map; [|by apply A3]. by rewrite link_map. }
  destruct (add_variant_by_id _ _ _ _) as [mB added]. by eexists _, _.
Qed.

Record run_ok (m m1 : model) (prev : option str) (l : list str) : Prop := {
  ro_sum : sum_frequency (m_decoder m1) = (sum_frequency (m_decoder m) + N.of_nat (changes prev l))%N;
  ro_texts : map vv_text (m_decoder m1) = map vv_text (m_decoder m) ++ first_seen (map vv_text (m_decoder m)) l;
  ro_words : words_counted m -> words_counted m1;
}.
Lemma learn_run_ok l : forall m c prev, lookups_inverse m -> no_self_links m -> alphabet_ok (m_alphabet m) ->
  Forall (fun x => vr_id x.2 < length (m_decoder m) /\ count_spaces x.1 < 255) l -> (forall p, prev = Some p -> is_Some (m_encoder m !! p)) ->
  (sum_frequency (m_decoder m) + N.of_nat (changes prev (map fst l)) < 4294967296)%N ->
  exists m' c' prev', rfoldl learn_one (m, c, prev) l = Ok (m', c', prev') /\ run_ok m m' prev (map fst l).
Proof.
  induction l as [|[s r] l IH]; intros m c prev W Ns HA Hf Hp Hsum; cbn [rfoldl map fst].
  { eexists _, _, _. split; [reflexivity|]. split; cbn; [lia|by rewrite app_nil_r|done]. }
  inversion Hf as [|? ? [Hr Hs] Hf']; subst. cbn [fst snd] in *. cbn [map changes] in Hsum.
  destruct (learn_one_ok m c prev s r W HA Hs Hp) as (m1 & c1 & E1 & [S1 S2 S3]); [destruct (decide _); cbn [fst] in *; lia|]. rewrite E1. cbn [rbind].
  destruct (learn_step m c prev s r m1 c1 (Some s) W Ns Hr Hp E1) as (L1 & _ & _).
  assert (length (m_decoder m) <= length (m_decoder m1)) as Hlen.
  { apply (f_equal length) in S2. rewrite app_length, !map_length in S2. lia. }
  destruct (IH m1 c1 (Some s)) as (m2 & c2 & p2 & E2 & [T1 T2 T3]).
  - exact (le_inverse _ _ _ _ L1).
  - by eapply learned_no_self.
  - rewrite (le_rest _ _ _ _ L1). exact HA.
  - eapply Forall_impl; [exact Hf'|]. cbn. intros x [? ?]. split; [lia|done].
  - intros p [= <-]. apply (le_inputs _ _ _ _ L1). by left.
  - rewrite S1. destruct (decide _); cbn [fst] in *; lia.
  - exists m2, c2, p2. split; [exact E2|]. split.
    + rewrite T1, S1. cbn [changes]. destruct (decide _); lia.
    + rewrite T2, S2, <- app_assoc. f_equal. symmetry. apply (first_seen_app [s]).
    + intros Wc. by apply T3, S3.
Qed.

(** ** Building once more *)
Lemma add_opt_bounded o l : (default 0 (P_Lm.add_opt o l) <= default 0 o + sum_frequency l)%N.
Proof. destruct l as [|x l]; cbn [P_Lm.add_opt]; [apply N.le_add_r|]. apply N.le_refl. Qed.
Lemma lm_run_bounded m B k : forall ng0 fs0 u,
  words_counted m -> 1 <= length fs0 -> (forall g, (default 0 (ng0 !! g) <= B)%N) -> k <= length (m_decoder m) -> (B + sum_frequency (m_decoder m) < 4294967296)%N ->
  exists st', rfoldl (lm_step m) (ng0, fs0, u) (seq 0 k) = Ok st'.
Proof.
  induction k as [|k IH]; intros ng0 fs0 u W Lf Hb Hk Hs; [by eexists|].
  destruct (IH ng0 fs0 u W Lf Hb ltac:(lia) Hs) as [st E]. rewrite seq_S, rfoldl_app, E. cbn [rbind rfoldl plus].
  destruct (P_Lm.lm_run m k _ _ _ _ W Lf ltac:(lia) E) as (ng & fs & -> & L1 & Hn & _).
  destruct (lookup_lt_is_Some_2 (m_decoder m) k) as [v D]; [lia|].
  destruct (P_Lm.lm_step_total m k v ng fs u (B + sum_frequency (take k (m_decoder m)))%N D (W _ _ D) L1) as [st' ->]; [| |by eexists].
  - intros g. rewrite Hn. etransitivity; [apply add_opt_bounded|]. apply N.add_le_mono; [apply Hb|]. apply P_Lm.sum_filter_le.
  - assert (sum_frequency (take (S k) (m_decoder m)) <= sum_frequency (m_decoder m))%N as H.
    { rewrite <- (take_drop (S k) (m_decoder m)) at 2. rewrite P_Lm.sum_app. lia. }
    rewrite (take_S_r _ _ _ D), P_Lm.sum_app in H. cbn in H. lia.
Qed.
Lemma rebuild_succeeds o o' m B :
  alphabet_ok (m_alphabet m) -> some_order o' -> words_counted m -> 1 <= length (m_freq_sum m) -> (forall g, (default 0 (m_ngrams m !! g) <= B)%N) ->
  (B + sum_frequency (m_decoder m) < 4294967296)%N -> exists m', build o o' m = Ok m'.
Proof.
  intros HA Ho W Hf Hn Hs. unfold build. destruct (P_Index.build_index_ok o m HA) as [m1 E]. rewrite E. cbn [rbind].
  pose proof (build_index_vocab _ _ _ E) as (D1 & E1 & A1).
  assert (m_ngrams m1 = m_ngrams m /\ m_freq_sum m1 = m_freq_sum m) as [N1 F1].
  { unfold build_index in E. apply rbind_ok in E as (hs & _ & E). apply rbind_ok in E as (ix & _ & E). by injection E as <-. }
  destruct (lm_run_bounded m1 B (length (m_decoder m1)) (m_ngrams m1) (m_freq_sum m1) (Some ∅)) as [st Es].
  { intros id v. rewrite D1. apply W. }
  { by rewrite F1. }
  { by rewrite N1. }
  { done. }
  { by rewrite D1. }
  rewrite Es. cbn [rbind]. assert (st.2 = Some ∅) as U.
  { refine (rfoldl_inv (fun st => st.2 = Some ∅) _ _ _ _ _ _ Es); [|done].
    intros b a b' Hb Hst. apply P_Model.lm_step_unseen in Hst. congruence. }
  destruct st as [[ng fs] u]. cbn in U. subst u. rewrite map_to_list_empty.
  assert (o' [] = []) as -> by (apply Permutation_nil_r, Ho).
  by eexists.
Qed.
Lemma build_totals o o' m m' : some_order o' -> words_counted m -> 1 <= length (m_freq_sum m) -> build o o' m = Ok m' -> 1 <= length (m_freq_sum m').
Proof.
  intros Ho W L B. destruct (build_split _ _ _ _ Ho B) as (m1 & ng & fs & E & R & ->).
  pose proof (build_index_vocab _ _ _ E) as (D1 & E1 & A1).
  assert (m_freq_sum m1 = m_freq_sum m) as F1.
  { unfold build_index in E. apply rbind_ok in E as (hs & _ & E). apply rbind_ok in E as (ix & _ & E). by injection E as <-. }
  rewrite F1 in R. destruct (P_Lm.lm_run m1 (length (m_decoder m1)) _ _ _ _ ltac:(intros id v; rewrite D1; apply W) L ltac:(done) R) as (ng' & fs' & Heq & L' & _).
  injection Heq as <- <-. exact L'.
Qed.
Lemma counts_bounded m g : counts_say m -> (default 0 (m_ngrams m !! g) <= sum_frequency (m_decoder m))%N.
Proof.
  intros K. pose proof (P_Lm.selects_filter (fun v => P_Lm.vng m v = Some g) (counts_as m g) (m_decoder m) (fun v => P_Lm.vng_counts m v g)) as S.
  rewrite (cn_counts _ K g _ S). pose proof (P_Lm.sum_filter_le (fun v => P_Lm.vng m v = Some g) (m_decoder m)) as H.
  destruct (filter _ _) as [|x l]; [cbn; lia|]. exact H.
Qed.

(** ** The loaded model *)
Lemma contents_inverse ws pf pf32 ps fs c ts m : contents_say ws pf pf32 ps fs c ts m -> lookups_inverse m /\ no_self_links m.
Proof.
  intros C. destruct (cs_entries _ _ _ _ _ _ _ _ C) as (ss & a & l & r & L & _ & _ & Hr & _ & He & Hd & _).
  pose proof (P_Vocab.history_run _ _ _ _ Hr) as Hh. pose proof (P_Vocab.hi_inv _ _ Hh) as W.
  assert (forall id v, m_decoder r !! id = Some v -> vv_variants v = None) as H0.
  { intros id v D. apply (P_Vocab.es_variants _ _ _ _ (P_Vocab.hi_entry _ _ Hh (vv_text v) v ltac:(exists id; split; [by apply (inverse_text r id v W)|done]))). }
  pose proof (P_Links.links_run r L H0) as LR. split.
  - intros t id. rewrite He, Hd, (W t id). split.
    + intros (v & D & T). destruct (LR id v D) as (v' & D' & _ & _ & Ev). exists v'. split; [exact D'|]. by rewrite Ev.
    + intros (v' & D' & T). assert (id < length (m_decoder r)) as Hi by (rewrite <- (P_Files.run_links_len r L); by eapply lookup_lt_Some).
      apply lookup_lt_is_Some in Hi as (v & D). destruct (LR id v D) as (v2 & D2 & _ & _ & E). rewrite D' in D2. injection D2 as <-.
      exists v. split; [done|]. by rewrite E in T.
  - intros id v' D'. rewrite Hd in D'. assert (id < length (m_decoder r)) as Hi by (rewrite <- (P_Files.run_links_len r L); by eapply lookup_lt_Some).
    apply lookup_lt_is_Some in Hi as (v & D). destruct (LR id v D) as (v2 & D2 & _ & SR & _). rewrite D' in D2. injection D2 as <-. unfold no_self_links. rewrite SR. apply P_Links.declared_references_self.
Qed.

(** ** Pairs *)
Lemma selected_omap ms l : selected_results ms l <-> l = omap learn_match ms.
Proof.
  split.
  - induction 1 as [|x xs vs i r l Ev Es Ei _ IH|x xs l Hn _ IH]; [done|..]; cbn [omap list_omap].
    + unfold learn_match at 1. by rewrite Ev, Es, Ei, IH.
    + unfold learn_match at 1. destruct (tm_variants x) as [vs|] eqn:Ev; [|done]. destruct (tm_selected x) as [i|] eqn:Es; [|done].
      destruct (vs !! i) as [r|] eqn:Er; [|done]. by destruct (Hn vs i r).
  - intros ->. induction ms as [|x xs IH]; [constructor|]. cbn [omap list_omap]. unfold learn_match at 1.
    destruct (tm_variants x) as [vs|] eqn:Ev; [|by apply sr_nothing; [congruence|]]. destruct (tm_selected x) as [i|] eqn:Es; [|apply sr_nothing; [congruence|done]].
    destruct (vs !! i) as [r|] eqn:Er; [by eapply sr_result|]. apply sr_nothing; [|done]. intros vs' i' r' H1 H2 H3. congruence.
Qed.
Lemma omap_length {A B} (f : A -> option B) l : length (omap f l) <= length l.
Proof. induction l as [|x l IH]; cbn; [lia|]. destruct (f x); cbn; lia. Qed.
Lemma spaces_within (a b c : str) : count_spaces b <= count_spaces (a ++ b ++ c).
Proof. unfold count_spaces. rewrite !List.filter_app, !app_length. lia. Qed.
Lemma matches_few t ms : S_Matches.in_place t ms -> S_Matches.one_after_other ms -> length ms <= byte_len t.
Proof.
  intros Hp Ho. assert (forall n x, ms !! n = Some x -> n < tm_end x /\ tm_end x <= byte_len t) as H.
  { induction n as [n IH] using lt_wf_ind. intros x Hx. destruct (Hp x) as [(pre & post & -> & E1 & E2) Hn]; [by eapply elem_of_list_lookup_2|].
    assert (0 < byte_len (tm_text x)) as H0. { destruct (decide (byte_len (tm_text x) = 0)) as [?%P_Text.byte_len_0|]; [done|lia]. }
    rewrite !P_Text.byte_len_app. split; [|lia]. destruct n as [|n]; [lia|].
    destruct (lookup_lt_is_Some_2 ms n) as (y & Hy). { apply lookup_lt_Some in Hx. lia. }
    destruct (IH n ltac:(lia) y Hy) as [? _]. pose proof (Ho n (S n) y x ltac:(lia) Hy Hx). lia. }
  destruct (decide (length ms = 0)) as [->|Hl]; [lia|]. destruct (lookup_lt_is_Some_2 ms (length ms - 1)) as (x & Hx); [lia|].
  destruct (H _ _ Hx). lia.
Qed.
Lemma byte_len_length t : length t <= byte_len t.
Proof. induction t as [|c t IH]; [done|]. rewrite P_Text.byte_len_cons. cbn. unfold utf8_len. repeat case_match; lia. Qed.

Section pairs.
  Context (lc : N -> bool) (ses : str -> str -> list edit_instruction).
  Context (ln32 : f32 -> f32) (ln : f64 -> f64) (ws alpha : N -> bool) (solve : fst_graph -> nat -> list (list nat * f32)).
  Context (m m' : model) (p : search_parameters).
  Record line_pairs (strict : bool) (s : str) (l : list (str * variant_result)) : Prop := {
    lp_spec : pairs_of lc ses ln32 ln ws alpha solve m p strict s l;
    lp_unique : forall l', pairs_of lc ses ln32 ln ws alpha solve m p strict s l' -> l' = l;
    lp_finds : exists F, forall fuel o'', F <= fuel -> some_order o'' ->
      find_variants_for_learning (lookup_in lc ses o'' fuel m' (in_bytes p)) (search_in ws lc alpha ln32 ln ses solve o'' fuel m' (in_bytes p)) strict s = Ok l;
    lp_inside : Forall (fun x => vr_id x.2 < length (m_decoder m) /\ count_spaces x.1 < 255) l;
    lp_size : forall prev, changes prev (map fst l) <= byte_len s;
  }.
  Lemma strict_pairs s l : lookup_line s -> count_spaces s < 255 -> answers lc ses m m' p s l -> line_pairs true s (map (pair s) l).
  Proof.
    intros Hl Hs [(ks & R & Lk) U (F & HF) _ I _]. split.
    - exists ks, l. done.
    - intros l' (ks' & rs & R' & Lk' & ->). by rewrite (U ks' rs R' Lk').
    - exists F. intros fuel o'' Hf Ho. unfold find_variants_for_learning, lookup_in.
      assert (find_variants lc ses fuel o'' m' s (in_bytes p) = Ok l) as ->; [|done]. rewrite <- (HF fuel o'' Hf Ho). by destruct p.
    - apply Forall_forall. intros x (r & -> & Hr)%elem_of_list_fmap. cbn [fst snd]. split; [|done].
      rewrite Forall_forall in I. destruct (I r Hr) as [Hi _]. by apply lookup_lt_is_Some.
    - intros prev. assert (map fst (map (pair s) l) = replicate (length l) s) as ->.
      { clear. induction l as [|r l IH]; cbn; [done|]. by rewrite IH. }
      pose proof (changes_same prev s (length l)). destruct Hl as [Hl _]. pose proof (byte_len_length s). lia.
  Qed.
  Lemma search_pairs s ms : alpha 32%N = false -> S_Matches.solver_sound solve -> count_spaces s < 255 ->
    text_found ws alpha lc ses ln32 ln solve m m' (in_bytes p) s ms -> line_pairs false s (omap learn_match ms).
  Proof.
    intros Ha Hso Hs [Sp U (F & HF) Sh].
    assert (forall fuel o'', F <= fuel -> some_order o'' -> search_in ws lc alpha ln32 ln ses solve o'' fuel m' (in_bytes p) s = Ok ms) as Hf.
    { intros fuel o'' Hf Ho. unfold search_in. apply HF. intros q. by exists fuel, o''. }
    pose proof (Hf F (fun l => l) (le_n F) (fun l => reflexivity l)) as E. apply P_Matches.matches_in_place in E as [Ip Oo]; [|done..|by destruct p].
    split.
    - exists ms. split; [done|]. by apply selected_omap.
    - intros l' (ms' & S' & ->%selected_omap). by rewrite (U ms' S').
    - exists F. intros fuel o'' Hfu Ho. unfold find_variants_for_learning. by rewrite (Hf fuel o'' Hfu Ho).
    - apply Forall_forall. intros x (y & Hy & Hx)%elem_of_list_omap. unfold learn_match in Hx.
      destruct (tm_variants y) as [vs|] eqn:Ev; [|done]. destruct (tm_selected y) as [i|] eqn:Es; [|done]. destruct (vs !! i) as [r|] eqn:Er; [|done].
      injection Hx as <-. cbn [fst snd]. split.
      + rewrite Forall_forall in Sh. destruct (Sh y Hy) as [_ _ I _]. rewrite Ev in I. cbn [default from_option] in I. eapply Forall_lookup_1 in I; [|exact Er].
        destruct I as [I _]. by apply lookup_lt_is_Some.
      + destruct (Ip y Hy) as [(pre & post & -> & _) _]. pose proof (spaces_within pre (tm_text y) post). lia.
    - intros prev. etransitivity; [apply changes_length|]. rewrite map_length. etransitivity; [apply omap_length|]. by apply matches_few.
  Qed.
End pairs.

(** ** The vocabulary afterwards *)
Definition variants_inside (m : model) : Prop := forall id v y s, m_decoder m !! id = Some v -> (y, s) ∈ stored_variants v -> y < length (m_decoder m).
Lemma mentions_elem seen l y s : (y, s) ∈ first_mentions seen l -> (y, s) ∈ l.
Proof.
  revert seen. induction l as [|[v t] l IH]; intros seen; cbn; [by intros ?%elem_of_nil|]. destruct (decide _); [intros H; right; by eapply IH|].
  intros [[= -> ->]|H]%elem_of_cons; [left|right; by eapply IH].
Qed.
Lemma contents_inside ws pf pf32 ps fs c ts m : contents_say ws pf pf32 ps fs c ts m -> variants_inside m.
Proof.
  intros C. destruct (cs_entries _ _ _ _ _ _ _ _ C) as (ss & a & l & r & L & _ & _ & Hr & Hl & He & Hd & _).
  pose proof (P_Vocab.history_run _ _ _ _ Hr) as Hh. pose proof (P_Vocab.hi_inv _ _ Hh) as W.
  assert (forall id v, m_decoder r !! id = Some v -> vv_variants v = None) as H0.
  { intros id v D. apply (P_Vocab.es_variants _ _ _ _ (P_Vocab.hi_entry _ _ Hh (vv_text v) v ltac:(exists id; split; [by apply (inverse_text r id v W)|done]))). }
  pose proof (P_Links.links_run r L H0) as LR.
  intros id v' y s D' Hy. rewrite Hd in *. rewrite P_Files.run_links_len. assert (id < length (m_decoder r)) as Hi by (rewrite <- (P_Files.run_links_len r L); by eapply lookup_lt_Some).
  apply lookup_lt_is_Some in Hi as (v & D). destruct (LR id v D) as (v2 & D2 & SV & _ & _). rewrite D' in D2. injection D2 as <-. rewrite SV in Hy. apply mentions_elem in Hy.
  unfold declared_variants in Hy. apply elem_of_list_fmap in Hy as (x & [= -> ->] & Hx). apply elem_of_list_filter in Hx as [_ Hx]. apply elem_of_list_lookup in Hx as (j & Hj).
  destruct (Forall2_lookup_r _ _ _ _ _ Hl Hj) as (z & _ & _ & E & _). apply W in E as (w & Dw & _). by eapply lookup_lt_Some.
Qed.
Lemma learned_inside prev l m m1 : variants_inside m -> learned prev l m m1 -> length (m_decoder m) <= length (m_decoder m1) -> variants_inside m1.
Proof.
  intros I L Hlen. assert (forall id y s, (y, s) ∈ declared_variants id (links_for m1 l) -> y < length (m_decoder m1)) as G.
  { intros id y s Hy. unfold declared_variants in Hy. apply elem_of_list_fmap in Hy as (x & [= -> ->] & Hx). apply elem_of_list_filter in Hx as [_ Hx].
    unfold links_for in Hx. apply elem_of_list_fmap in Hx as (z & -> & Hz). cbn [fst snd]. destruct (le_inputs _ _ _ _ L z.1) as (i & Ei); [apply elem_of_list_fmap; by exists z|].
    rewrite Ei. cbn. apply (le_inverse _ _ _ _ L) in Ei as (w & Dw & _). by eapply lookup_lt_Some. }
  intros id v' y s D' Hy. destruct (m_decoder m !! id) as [v|] eqn:D.
  - destruct (le_old _ _ _ _ L id v D) as (v2 & D2 & K). rewrite D' in D2. injection D2 as <-. rewrite (el_variants _ _ _ _ _ K) in Hy.
    apply elem_of_app in Hy as [Hy|Hy%mentions_elem]; [|by eapply G]. eapply Nat.lt_le_trans; [|exact Hlen]. by eapply I.
  - destruct (le_new _ _ _ _ L id v' D' D) as (_ & _ & v & Nw & K). rewrite (el_variants _ _ _ _ _ K) in Hy. apply new_item_empty in Nw.
    unfold stored_variants in Hy at 1. rewrite Nw in Hy. apply elem_of_app in Hy as [Hy|Hy%mentions_elem]; [by apply elem_of_nil in Hy|by eapply G].
Qed.

(** ** What is printed *)
Lemma stored_linked v : stored_variants v = linked (default [] (vv_variants v)).
Proof. unfold stored_variants. induction (default [] (vv_variants v)) as [|[i s|i s] l IH]; cbn; [done| |done]. by rewrite IH. Qed.
Lemma learned_tsv_same fmt m m' : m_decoder m' = m_decoder m -> learned_tsv fmt m' = learned_tsv fmt m.
Proof. intros E. unfold learned_tsv, learned_tsv_entry. by rewrite E. Qed.
Lemma learned_tsv_ok fmt m : variants_inside m -> exists lines, learned_lines fmt m lines /\ learned_tsv fmt m = Printed (concat (map (fun l => l ++ [10%N]) lines)) None.
Proof.
  intros I. assert (p_stop (learned_tsv fmt m) = None) as Hst.
  { unfold learned_tsv. assert (Forall (fun v => forall y s, (y, s) ∈ stored_variants v -> y < length (m_decoder m)) (m_decoder m)) as Hf.
    { apply Forall_forall. intros v Hv y s Hy. apply elem_of_list_lookup in Hv as (id & D). by eapply I. }
    revert Hf. generalize (m_decoder m) at 2 3. intros d. induction d as [|v d IH]; intros Hf; [done|]. inversion Hf as [|? ? Hv Hf']; subst. cbn [map pall]. apply pthen_stop; [|by apply IH].
    unfold learned_tsv_entry. rewrite P_CliOut.references_linked, <- stored_linked. destruct (stored_variants v) as [|r rs] eqn:E; [done|].
    apply pthen_stop; [done|]. apply pthen_stop; [|done]. revert Hv. generalize (r :: rs). clear. intros rs Hv.
    induction rs as [|[y s] rs IH]; [done|]. cbn [map pall]. apply pthen_stop; [|apply IH; intros y' s' H; by eapply (Hv y' s'), elem_of_list_further].
    destruct (lookup_lt_is_Some_2 (m_decoder m) y) as (w & Dw); [eapply Hv; left|]. cbn [fst]. rewrite Dw. done. }
  destruct (P_CliOut.learned_tsv_lines fmt m Hst) as (lines & Eo & F). exists lines. split.
  - eexists. split; [|exact F]. clear. induction (m_decoder m) as [|v d IH]; [constructor|]. cbn [List.filter]. destruct (linked _) as [|x l] eqn:E.
    + constructor; [|done]. intros H. apply P_CliOut.linked_has in H. by rewrite E in H.
    + constructor; [|done]. apply P_CliOut.linked_has. by rewrite E.
  - destruct (learned_tsv fmt m). cbn in *. by subst.
Qed.

(** what is printed depends on texts and variants only *)
Definition same_entry (v v' : vocab_value) : Prop := vv_text v' = vv_text v /\ stored_variants v' = stored_variants v.
Lemma learned_line_det fmt m v a b : learned_line fmt m v a -> learned_line fmt m v b -> b = a.
Proof.
  intros (c1 & -> & F1) (c2 & -> & F2). do 3 f_equal. eapply Forall2_det; [|exact F1|exact F2]. intros x y z _ (w1 & D1 & ->) (w2 & D2 & ->). congruence.
Qed.
Lemma learned_lines_same fmt m m' a b : Forall2 same_entry (m_decoder m) (m_decoder m') -> learned_lines fmt m a -> learned_lines fmt m' b -> b = a.
Proof.
  intros Hs (vs & S1 & F1) (vs' & S2 & F2).
  assert (Forall2 same_entry vs vs') as Hv.
  { clear F1 F2 a b. revert S1 S2. generalize dependent vs'. generalize dependent vs. induction Hs as [|v v' d d' Hv _ IH]; intros vs vs' S1 S2; inversion S1; inversion S2; subst; try constructor; try by apply IH.
    - done.
    - exfalso. destruct Hv as [_ Hv]. match goal with H : ~ has_reference _ |- _ => apply H end. apply P_CliOut.linked_has. rewrite <- stored_linked, Hv, stored_linked. by apply P_CliOut.linked_has.
    - exfalso. destruct Hv as [_ Hv]. match goal with H : ~ has_reference _ |- _ => apply H end. apply P_CliOut.linked_has. rewrite <- stored_linked, <- Hv, stored_linked. by apply P_CliOut.linked_has. }
  assert (Forall2 (learned_line fmt m') vs' a) as F3.
  { clear S1 S2 F2. revert vs' Hv. induction F1 as [|v l vs a (cells & -> & Fc) _ IH]; intros vs' Hv; inversion Hv as [|? v' ? ? [Et Ev] Hv']; subst; constructor; [|by apply IH].
    exists cells. split; [by rewrite Et|]. rewrite <- stored_linked, Ev, stored_linked. eapply Forall2_impl; [exact Fc|]. intros x cs (w & D & ->).
    destruct (Forall2_lookup_l _ _ _ _ _ Hs D) as (w' & D' & [T _]). exists w'. by rewrite T. }
  eapply Forall2_det; [|exact F3|exact F2]. intros v y z _. apply learned_line_det.
Qed.
Lemma learned_same l m m1 m2 : learned None l m m1 -> in_order l m m1 -> learned None l m m2 -> in_order l m m2 -> Forall2 same_entry (m_decoder m1) (m_decoder m2).
Proof.
  intros L1 O1 L2 O2. unfold in_order in *. assert (map vv_text (m_decoder m1) = map vv_text (m_decoder m2)) as E by congruence.
  assert (m_encoder m1 = m_encoder m2) as Ee.
  { apply map_eq. intros t. apply option_eq. intros id. rewrite (le_inverse _ _ _ _ L1 t id), (le_inverse _ _ _ _ L2 t id).
    assert (forall d : list vocab_value, (exists v, d !! id = Some v /\ vv_text v = t) <-> map vv_text d !! id = Some t) as G.
    { intros d. change (map vv_text d) with (vv_text <$> d). rewrite list_lookup_fmap, fmap_Some. naive_solver. }
    by rewrite !G, E. }
  assert (links_for m1 l = links_for m2 l) as El by (unfold links_for; by rewrite Ee).
  apply Forall2_same_length_lookup. split; [pose proof (f_equal length E) as H; by rewrite !map_length in H|].
  intros id v1 v2 D1 D2. assert (vv_text v2 = vv_text v1) as Et.
  { assert (vv_text <$> m_decoder m1 !! id = vv_text <$> m_decoder m2 !! id) as H by (rewrite <- !list_lookup_fmap; exact (f_equal (lookup id) E)).
    rewrite D1, D2 in H. by injection H as ->. }
  split; [done|]. destruct (m_decoder m !! id) as [v|] eqn:D.
  - destruct (le_old _ _ _ _ L1 id v D) as (w1 & E1 & K1). destruct (le_old _ _ _ _ L2 id v D) as (w2 & E2 & K2). rewrite D1 in E1. rewrite D2 in E2. injection E1 as <-. injection E2 as <-.
    by rewrite (el_variants _ _ _ _ _ K1), (el_variants _ _ _ _ _ K2), El.
  - destruct (le_new _ _ _ _ L1 id v1 D1 D) as (_ & _ & w1 & N1 & K1). destruct (le_new _ _ _ _ L2 id v2 D2 D) as (_ & _ & w2 & N2 & K2).
    apply new_item_empty in N1, N2. rewrite (el_variants _ _ _ _ _ K1), (el_variants _ _ _ _ _ K2), El. unfold stored_variants. by rewrite N1, N2.
Qed.

(** ** The run *)
Lemma readable_spec ls lines : lines_read ls lines -> readable ls = lines.
Proof.
  intros (rest & -> & H). induction lines as [|l lines IH]; cbn; [|by rewrite IH].
  destruct H as [->|H]; [done|]. destruct rest as [|[x|] rest]; [done..|]. done.
Qed.
Lemma changes_prev {B} (all : list (list (str * B))) (lines : list str) :
  Forall2 (fun s l => forall prev, changes prev (map fst l) <= byte_len s) lines all -> forall prev, changes prev (map fst (concat all)) <= sum_list (map byte_len lines).
Proof.
  induction 1 as [|s l lines all H _ IH]; intros prev; [done|]. cbn [concat map sum_list]. rewrite map_app. etransitivity; [apply changes_app|].
  apply Nat.add_le_mono; [apply H|apply IH].
Qed.
Lemma learned_transfer l m m' m1 : same_contents m m' -> learned None l m' m1 -> learned None l m (with_vocab m (m_decoder m1) (m_encoder m1)).
Proof.
  intros SC [R I O N Is]. rewrite (sc_decoder _ _ SC) in *. rewrite (sc_encoder _ _ SC) in *. rewrite (sc_alphabet _ _ SC) in *. by split.
Qed.

Section learn.
  Context (pf : str -> option f64) (pf32 : str -> option f32) (fmt : f64 -> str) (ws lc alpha : N -> bool) (ln32 : f32 -> f32) (ln : f64 -> f64).
  Context (ps : str -> option (list edit_instruction)) (ses : str -> str -> list edit_instruction) (solve : fst_graph -> nat -> list (list nat * f32)).
  Context (o : list (N * node) -> list (N * node)) (o' : list (str * vocab_id) -> list (str * vocab_id)) (o'' : list (nat * list N) -> list (nat * list N)).
  Context (fs : str -> option (list (option str))).
  Context (ts : list typed).
  Context (W : well_typed Learn ts) (debug : option str) (P : tool_parameters) (stdin : list (option str)) (strict : bool) (lines : list str).
  Context (A : learn_asked pf pf32 alpha fs stdin debug ts P strict lines) (m : model) (C : contents_say ws pf pf32 ps fs Learn ts m) (L : within_limits m).
  Context (Rm : room m lines).
  Context (Se : strict = false -> counts_say m /\ Forall rule_ok (m_context_rules m) /\ S_Matches.solver_sound solve /\ S_Matches.solver_complete solve /\ alpha 32%N = false).
  Context (Ho : some_order o) (Ho' : some_order o') (Ho'' : some_order o'').
  Context (Hj : ~ flag_typed ts "json") (Hm : ~ flag_typed ts "multi-output").
  #[local] Notation prog fuel := (program pf pf32 fmt ws lc alpha ln32 ln ps ses solve o o' o'' fs stdin fuel (Invocation debug (Some Learn) ts)).
  #[local] Notation p := (tp_search P).
  #[local] Notation pairs m' := (line_pairs lc ses ln32 ln ws alpha solve m m' p).

  (** the model that is loaded, and the pairs for the lines *)
  Lemma learn_loaded : exists m', loaded_model pf pf32 ws ps o o' fs Learn ts = Ok m' /\ same_contents m m' /\ counts_say m' /\ words_counted m' /\
    1 <= length (m_freq_sum m') /\ alphabet_ok (m_alphabet m') /\ forall s, s ∈ lines -> exists l, pairs m' strict s l.
  Proof using W A C L Se Ho Ho'.
    destruct (loaded_built pf pf32 ws ps o o' fs Learn ts W m Ho Ho' C L) as (m' & m0 & E & SC & K' & Wc & Bt & S0 & I0 & HT).
    exists m'. split; [done|]. split; [done|]. split; [done|]. split; [done|].
    assert (forall ss, sources_typed fs ts ss -> length ss <= 256) as Hl.
    { intros ss Hss. destruct (cs_entries _ _ _ _ _ _ _ _ C) as (ss' & a & l & r & L' & Hs & _ & _ & _ & _ & _ & Hx).
      rewrite (sources_typed_det _ _ _ _ Hss Hs), <- (map_length source_name), <- Hx. pose proof (wl_files _ L). lia. }
    destruct (load_contents pf pf32 ws ps o o' fs Learn ts W m' Ho' Hl E) as (C' & m2 & B & _ & _ & _ & SC2 & Hng & Hfs).
    split.
    { eapply (build_totals o o' m2 m'); [done| |by rewrite Hfs|exact B]. intros id v. rewrite <- (sc_decoder _ _ SC2). apply Wc. }
    pose proof (bt_alphabet _ _ Bt) as AO. split; [by rewrite (sc_alphabet _ _ SC), (sc_alphabet _ _ S0)|].
    intros s Hin. destruct A as [_ _ Hw _ _ _ _ Hsp Hln]. rewrite Forall_forall in Hsp. specialize (Hsp s Hin). destruct strict.
    - rewrite Forall_forall in Hln. destruct (built_answers lc ses m m0 m' s p Bt S0 I0 (HT p Hw) (Hln s Hin)) as (l & An). eexists. apply strict_pairs; [by apply Hln|done|exact An].
    - destruct Hln as [Hq Hln]. rewrite Forall_forall in Hln. destruct (Hln s Hin) as [H1 H2]. destruct (Se eq_refl) as (K & Ru & So & Sc & Ha).
      destruct (cs_rules _ _ _ _ _ _ _ _ C) as (rfs & _ & Hrs). apply tags_inside in Hrs as [_ Hrs].
      assert (exists ms, text_found ws alpha lc ses ln32 ln solve m m' (in_bytes p) s ms) as (ms & Hms).
      { refine (proj2 (built_searches ws alpha lc ses ln32 ln solve m m0 m' (in_bytes p) s Bt S0 I0 _ SC K K' Wc _ Hrs Ru So Sc Ha Hq H1 H2)).
        - by apply HT.
        - intros w id. by eapply encoder_inside. }
      eexists. by eapply search_pairs.
  Qed.

  Lemma learn_run_tsv : exists all m1 outs, Forall2 (pairs_of lc ses ln32 ln ws alpha solve m p strict) lines all /\
    learned None (concat all) m m1 /\ in_order (concat all) m m1 /\ learned_lines fmt m1 outs /\
    (forall all' m1' outs', Forall2 (pairs_of lc ses ln32 ln ws alpha solve m p strict) lines all' ->
      learned None (concat all') m m1' -> in_order (concat all') m m1' -> learned_lines fmt m1' outs' -> all' = all /\ outs' = outs) /\
    exists F, forall fuel, F <= fuel -> prog fuel = Outcome (concat (map (fun l => l ++ [10%N]) outs)) Ended.
  Proof using W A C L Rm Se Ho Ho' Ho'' Hj Hm.
    destruct learn_loaded as (m' & E & SC & K' & Wc & Lf & AO & Pr).
    assert (exists all, Forall2 (pairs m' strict) lines all) as (all & Fa).
    { clear -Pr. induction lines as [|s l IH]; [exists []; constructor|]. destruct IH as (all & IH); [intros s' Hs'; apply Pr; by right|]. destruct (Pr s) as (x & Hx); [by left|].
      exists (x :: all). by constructor. }
    assert (exists F, forall fuel, F <= fuel -> rmapM (find_variants_for_learning (lookup_in lc ses o'' fuel m' (in_bytes p)) (search_in ws lc alpha ln32 ln ses solve o'' fuel m' (in_bytes p)) strict) lines = Ok all) as (F & HF).
    { clear -Fa Ho''. induction Fa as [|s l lines all [_ _ (F1 & H1) _ _] _ (F2 & H2)]; [by exists 0|]. exists (F1 `max` F2). intros fuel Hf. cbn [rmapM].
      rewrite H1 by (done || lia). cbn [rbind]. rewrite H2 by lia. done. }
    destruct (contents_inverse _ _ _ _ _ _ _ _ C) as [Wi Ns]. pose proof (contents_inside _ _ _ _ _ _ _ _ C) as Vi.
    assert (Forall (fun x => vr_id x.2 < length (m_decoder m') /\ count_spaces x.1 < 255) (concat all)) as Hin.
    { rewrite (sc_decoder _ _ SC). apply Forall_concat. clear -Fa. induction Fa as [|s l ? ? [_ _ _ H _] _ IH]; constructor; done. }
    assert (changes None (map fst (concat all)) <= sum_list (map byte_len lines)) as Hch.
    { apply changes_prev. eapply Forall2_impl; [exact Fa|]. intros s l H. apply H. }
    unfold room in Rm. destruct (learn_run_ok (concat all) m' 0 None) as (m1 & c1 & prev1 & E1 & [T1 T2 T3]).
    { intros t id. rewrite (sc_encoder _ _ SC), (sc_decoder _ _ SC). apply Wi. }
    { intros id v. rewrite (sc_decoder _ _ SC). apply Ns. }
    { done. }
    { done. }
    { done. }
    { rewrite (sc_decoder _ _ SC). lia. }
    destruct (learn_run (concat all) m' 0 None m1 c1 prev1) as [Le _].
    { intros t id. rewrite (sc_encoder _ _ SC), (sc_decoder _ _ SC). apply Wi. }
    { intros id v. rewrite (sc_decoder _ _ SC). apply Ns. }
    { eapply Forall_impl; [exact Hin|]. by intros x [? _]. }
    { done. }
    { exact E1. }
    destruct (rebuild_succeeds o o' m1 (sum_frequency (m_decoder m'))) as (m2 & B2).
    { rewrite (le_rest _ _ _ _ Le). exact AO. }
    { done. }
    { by apply T3. }
    { rewrite (le_rest _ _ _ _ Le). exact Lf. }
    { intros g. rewrite (le_rest _ _ _ _ Le). exact (counts_bounded m' g K'). }
    { rewrite T1, (sc_decoder _ _ SC). lia. }
    assert (m_decoder m2 = m_decoder m1) as D2.
    { destruct (build_split _ _ _ _ Ho' B2) as (m3 & ng & fsum & E3 & _ & ->). by destruct (build_index_vocab _ _ _ E3) as (? & _ & _). }
    set (mx := with_vocab m (m_decoder m1) (m_encoder m1)).
    assert (learned None (concat all) m mx) as Lx by (by eapply learned_transfer).
    assert (in_order (concat all) m mx) as Ox.
    { unfold in_order. cbn [mx m_decoder with_vocab]. by rewrite T2, (sc_decoder _ _ SC). }
    assert (variants_inside mx) as Vx.
    { eapply learned_inside; [exact Vi|exact Lx|]. apply (f_equal length) in Ox. rewrite app_length, !map_length in Ox. lia. }
    destruct (learned_tsv_ok fmt mx Vx) as (outs & Ol & Eo).
    exists all, mx, outs. split; [eapply Forall2_impl; [exact Fa|]; intros s l H; apply H|]. split; [done|]. split; [done|]. split; [done|]. split.
    { intros all' m1' outs' Fa' L' O' Ol'. assert (all' = all) as ->.
      { clear -Fa Fa'. revert all' Fa'. induction Fa as [|s l ? ? [_ U _ _ _] _ IH]; intros all' Fa'; inversion Fa'; subst; [done|]. f_equal; [by apply U|by apply IH]. }
      split; [done|]. eapply learned_lines_same; [|exact Ol|exact Ol']. by eapply learned_same. }
    exists F. intros fuel Hfu. destruct A as [Hd HP Hw Hcut Hit Hst (n & ls & Hns & Hi & Hrd) _ _].
    unfold program. cbn [iv_command iv_typed iv_debug]. rewrite (proj2 (accepted_spec _ _) W). unfold run.
    assert (exists k, parse_u8 (default (lit "0") debug) = Some k) as (k & ->).
    { destruct debug as [s|]; [|by eexists]. destruct (Hd s eq_refl) as (k & Hk). exists k. by apply P_Vocab.parse_uint_spec. }
    cbn [rexpect rbind]. rewrite E. cbn [ores].
    assert (tool_params pf pf32 Learn ts = Ok (byte_offsets P)) as ->.
    { apply params_spec; [by apply accepted_spec|]. split; [|done]. clear -HP. destruct HP. by split. }
    cbn [ores]. assert (cutoff_refused (tp_search (byte_offsets P)) = false) as ->.
    { unfold cutoff_refused. change (p_cutoff_threshold (tp_search (byte_offsets P))) with (p_cutoff_threshold p).
      destruct (flt _ _); [by rewrite Hcut|done]. }
    rewrite (names_input _ _ Hns).
    assert (forall l, flag_defined Learn l = true -> is_present Learn ts l = true <-> TFlag l ∈ ts) as Fl by (intros l H; apply flag_spec; [by apply accepted_spec|done]).
    assert (is_present Learn ts (lit "json") = false) as Ej by (apply not_true_iff_false; intros H; by apply Hj, (Fl (lit "json") eq_refl)).
    assert (is_present Learn ts (lit "multi-output") = false) as Em by (apply not_true_iff_false; intros H; by apply Hm, (Fl (lit "multi-output") eq_refl)).
    assert (is_present Learn ts (lit "strict") = strict) as Es.
    { eapply bool_iff; [exact Hst|]. exact (Fl (lit "strict") eq_refl). }
    assert (parsed parse_small (value_of Learn ts (lit "iterations")) = Ok 1) as Ek.
    { apply (parsed_spec Learn ts (proj2 (accepted_spec _ _) W) parse_small (counts_to 255)); [apply small_spec|by vm_compute|exact Hit]. }
    assert (learn_iterations ws lc alpha ln32 ln ses solve o o' o'' fuel 1 (tp_search (byte_offsets P)) strict lines m' = Ok m2) as Ei.
    { cbn [learn_iterations]. unfold learn_variants. change (tp_search (byte_offsets P)) with (in_bytes p). rewrite (HF fuel Hfu). cbn [rbind]. rewrite E1. cbn [rbind]. rewrite B2. cbn [rbind].
      by destruct (c1 =? 0). }
    rewrite Ej. assert (over_files fmt ws lc alpha ln32 ln ses solve o o' o'' fs fuel Learn ts (byte_offsets P) m' stdin [n] = learned_tsv fmt m2) as ->.
    { assert ((if is_stdin n then Ok stdin else open fs n) = Ok ls) as Eopen.
      { inversion Hi as [|? ? ? ls' lls' Hn Ef Hi'|? ? ? lls' Hn Hi']; subst.
        - unfold is_stdin. rewrite bool_decide_false by exact Hn. unfold open. by rewrite Ef.
        - unfold is_stdin. by rewrite bool_decide_true by exact Hn. }
      cbn [over_files]. rewrite Eopen. cbn [pres]. rewrite Ek. cbn [rbind]. rewrite Es, (readable_spec _ _ Hrd), Ei. cbn [pres]. rewrite Em, Ej.
      rewrite (learned_tsv_same fmt mx m2) by exact D2. rewrite Eo. unfold pthen, put. cbn [p_stop p_out]. by rewrite app_nil_r. }
    rewrite (learned_tsv_same fmt mx m2) by exact D2. rewrite Eo. unfold pthen, put, of_printed. cbn [p_stop p_out app]. by rewrite app_nil_r.
  Qed.
End learn.
