(** Context rules. *)
From Coq Require Import Lia ZifyNat ZifyN.
From Verif Require Import M_Base M_Anahash M_Float M_Types M_Model M_Confusable M_Rules S_Rules P_Base P_Anahash P_Utf8 P_Text.
From stdpp Require Import options.

(** * Patterns *)
Lemma pattern_ind' (P : pattern_match -> Prop) :
  (forall id, P (PVocab id)) -> P PAny -> P PNoLexicon -> (forall i, P (PFromLexicon i)) ->
  (forall p, P p -> P (PNot p)) -> (forall ps, Forall P ps -> P (PDisjunction ps)) -> forall p, P p.
Proof.
  intros H1 H2 H3 H4 H5 H6. fix IH 1. intros [id| | |i|p|ps].
  - apply H1.
  - apply H2.
  - apply H3.
  - apply H4.
  - apply H5, IH.
  - apply H6. induction ps as [|p ps IHps]; constructor; [apply IH|apply IHps].
Qed.
Lemma holds_disj ps tok : holds (PDisjunction ps) tok <-> Exists (fun p => holds p tok) ps.
Proof.
  cbn [holds]. induction ps as [|p ps IH]; [split; [done|intros H; inversion H]|]. rewrite Exists_cons, IH. done.
Qed.
Lemma lex_bounded_disj ps : lex_bounded (PDisjunction ps) <-> Forall lex_bounded ps.
Proof.
  cbn [lex_bounded]. induction ps as [|p ps IH]; [split; [constructor|done]|]. rewrite Forall_cons, IH. done.
Qed.
Lemma shl1_land i m x : shl1 i = Ok m -> (N.land x m =? m)%N = N.testbit x i.
Proof.
  unfold shl1. destruct (N.ltb_spec i 32); [|done].
  intros Em. assert (m = N.shiftl 1 i) as -> by congruence. clear Em.
  rewrite N.shiftl_1_l. destruct (N.testbit x i) eqn:E.
  - apply N.eqb_eq. apply N.bits_inj. intros j. rewrite N.land_spec, N.pow2_bits_eqb.
    destruct (N.eqb_spec i j) as [->|]; [by rewrite E|]. by rewrite andb_false_r.
  - apply N.eqb_neq. intros H'. apply (f_equal (fun n => N.testbit n i)) in H'.
    rewrite N.land_spec, N.pow2_bits_true, E in H'. done.
Qed.
Lemma bits_zero (x : N) : (x =? 0)%N = true <-> forall i, N.testbit x i = false.
Proof.
  rewrite N.eqb_eq. split; [intros ->; apply N.bits_0|]. intros H. apply N.bits_inj. intros i. by rewrite N.bits_0, H.
Qed.
Lemma pm_matches_spec p : lex_bounded p -> forall sequence i tok, sequence !! i = Some tok ->
  exists b, pm_matches p sequence i = Ok b /\ (b = true <-> holds p tok).
Proof.
  induction p as [id| | |x|p IH|ps IH] using pattern_ind'; intros Hb sequence i [id0 lex] E; cbn [pm_matches].
  - rewrite nth_error_lookup_eq, E. eexists. split; [done|]. cbn [holds fst snd]. rewrite Nat.eqb_eq. done.
  - by exists true.
  - rewrite nth_error_lookup_eq, E. eexists. split; [done|]. cbn [holds fst snd]. rewrite orb_true_iff, bits_zero, Nat.eqb_eq. tauto.
  - rewrite nth_error_lookup_eq, E. cbn in Hb. assert (exists m, shl1 x = Ok m) as [m Em].
    { unfold shl1. destruct (N.ltb_spec x 32); [by eexists|lia]. }
    rewrite Em. cbn [rbind]. eexists. split; [done|]. by rewrite (shl1_land x m lex Em).
  - destruct (IH Hb sequence i (id0, lex) E) as (b & -> & Hh). cbn [rbind]. exists (negb b). split; [done|].
    cbn [holds]. rewrite <- Hh. destruct b; cbn; split; congruence || (intros H; by destruct H).
  - rewrite lex_bounded_disj in Hb. setoid_rewrite holds_disj.
    induction ps as [|p ps IHps].
    + exists false. split; [done|]. split; [done|]. intros H. inversion H.
    + inversion IH as [|? ? IHp IH']; inversion Hb as [|? ? Hp Hb']; subst.
      destruct (IHp Hp sequence i (id0, lex) E) as (b & -> & Hh). cbn [rbind]. destruct b.
      * exists true. split; [done|]. split; [|done]. intros _. left. by apply Hh.
      * destruct (IHps IH' Hb') as (b & Eb & Hh'). exists b. split; [exact Eb|]. rewrite Exists_cons, Hh'.
        split; [by right|]. intros [H|H]; [by apply Hh in H|done].
Qed.

(** * A rule at a position *)
Lemma rule_found_spec pat : Forall lex_bounded pat -> forall sequence results at_,
  length results = length sequence -> at_ + length pat <= length sequence ->
  exists b, rule_found pat sequence results at_ = Ok b /\
    (b = true <-> (forall k, k < length pat -> results !! (at_ + k) = Some []) /\
                  forall k p, pat !! k = Some p -> exists tok, sequence !! (at_ + k) = Some tok /\ holds p tok).
Proof.
  intros Hb sequence results. induction Hb as [|p pat Hp Hb IH]; intros at_ Hlen Hfit; cbn [rule_found].
  - exists true. split; [done|]. split; [|done]. intros _. split; [cbn; lia|done].
  - cbn in Hfit. destruct (lookup_lt_is_Some_2 results at_) as [r Er]; [lia|].
    destruct (lookup_lt_is_Some_2 sequence at_) as [tok Et]; [lia|].
    unfold rindex. rewrite nth_error_lookup_eq, Er. cbn [rbind]. destruct r as [|x r].
    + destruct (pm_matches_spec p Hp sequence at_ tok Et) as (b & -> & Hh). cbn [rbind]. destruct b.
      * destruct (IH (S at_) Hlen ltac:(lia)) as (b & -> & Hr). exists b. split; [done|]. rewrite Hr. split.
        -- intros [He Ht]. split.
           ++ intros [|k] L; [by rewrite Nat.add_0_r|]. rewrite Nat.add_succ_r. apply He. cbn in L. lia.
           ++ intros [|k] q Eq; [injection Eq as <-; rewrite Nat.add_0_r; exists tok; split; [done|by apply Hh]|].
              rewrite Nat.add_succ_r. by apply Ht.
        -- intros [He Ht]. split.
           ++ intros k L. rewrite Nat.add_succ_l, <- Nat.add_succ_r. apply He. cbn. lia.
           ++ intros k q Eq. rewrite Nat.add_succ_l, <- Nat.add_succ_r. by apply Ht.
      * exists false. split; [done|]. split; [done|]. intros [_ Ht]. destruct (Ht 0 p eq_refl) as (tok' & Et' & H).
        rewrite Nat.add_0_r, Et in Et'. injection Et' as <-. by apply Hh in H.
    + exists false. split; [done|]. split; [done|]. intros [He _]. specialize (He 0). cbn in He.
      rewrite Nat.add_0_r, Er in He. assert (Some (x :: r) = Some []) by (apply He; lia). done.
Qed.
Lemma as_u8_small n : n < 256 -> as_u8 n = n.
Proof. apply Nat.mod_small. Qed.
Lemma tag_results_spec score k tags : k < 256 -> Forall (fun t => t.2.1 <= k -> t.2.1 + t.2.2 < 256) tags ->
  tag_results score k tags = Ok (omap (fun '(tag, (o, l)) =>
    if decide (o <= k < o + l) then Some (PatternResult score (Some tag) (k - o)) else None) tags).
Proof.
  intros Hk. induction tags as [|[tag [o l]] tags IH]; intros H; [done|]. inversion H as [|? ? Hol H']; subst. cbn in Hol.
  cbn [tag_results]. rewrite (as_u8_small k Hk), (IH H'). unfold u8_add.
  destruct (Nat.leb_spec o k) as [L|L].
  - destruct (Nat.ltb_spec (o + l) 256); [|lia]. cbn [rbind].
    destruct (Nat.ltb_spec k (o + l)); cbn; destruct (decide (o <= k < o + l)); try lia; done.
  - cbn. destruct (decide (o <= k < o + l)); [lia|done].
Qed.
Lemma combine_offsets (P : nat * nat -> Prop) (tags : list N) (offs : list (nat * nat)) : Forall P offs ->
  Forall (fun t => P t.2) (combine tags offs).
Proof.
  intros H. revert tags. induction H as [|x offs Hx H IH]; intros [|t tags]; cbn; constructor; [done|apply IH].
Qed.
Lemma rule_results_spec r k : rule_ok r -> k < length (cr_pattern r) -> rule_results r k = Ok (says r k).
Proof.
  intros (_ & Ho & Hl) Hk. unfold rule_results, says. destruct (cr_tag r) as [|t ts] eqn:E.
  - by rewrite as_u8_small by lia.
  - apply tag_results_spec; [lia|].
    apply (combine_offsets (fun ol => ol.1 <= k -> ol.1 + ol.2 < 256)). eapply Forall_impl; [exact Ho|].
    cbn. intros [o l] H H'. apply H. cbn in *. lia.
Qed.
Lemma fill_spec r begin : rule_ok r -> forall n results, n <= length (cr_pattern r) -> begin + n <= length results ->
  exists rs, rfoldl (fun rs cursor => let* x := rule_results r cursor in Ok (<[begin + cursor := x]> rs)) results (seq 0 n) = Ok rs /\
    length rs = length results /\
    forall i, rs !! i = if decide (begin <= i < begin + n) then Some (says r (i - begin)) else results !! i.
Proof.
  intros Hr. induction n as [|n IH]; intros results Hn Hlen.
  - exists results. split; [done|]. split; [done|]. intros i. destruct (decide (begin <= i < begin + 0)); [lia|done].
  - destruct (IH results ltac:(lia) ltac:(lia)) as (rs & E & L & H).
    rewrite seq_S. cbn [Nat.add].
    assert (forall {A B} (f : B -> A -> res B) l1 l2 acc, rfoldl f acc (l1 ++ l2) = (let* a := rfoldl f acc l1 in rfoldl f a l2)) as Happ.
    { intros A B f l1. induction l1 as [|a l1 IHl]; intros l2 acc; [done|]. cbn. destruct (f acc a); [apply IHl|done]. }
    rewrite Happ, E. cbn [rbind rfoldl]. rewrite (rule_results_spec r n Hr) by lia. cbn [rbind].
    eexists. split; [done|]. rewrite insert_length. split; [done|]. intros i.
    destruct (decide (i = begin + n)) as [->|Hi].
    + rewrite list_lookup_insert by lia. destruct (decide (begin <= begin + n < begin + S n)); [|lia].
      do 2 f_equal. lia.
    + rewrite list_lookup_insert_ne by done. rewrite H.
      destruct (decide (begin <= i < begin + n)), (decide (begin <= i < begin + S n)); try lia; done.
Qed.
Lemma cr_matches_spec r sequence begin results : rule_ok r -> length results = length sequence ->
  exists b rs, cr_matches r sequence begin results = Ok (b, rs) /\ length rs = length sequence /\
    (b = true <-> fits_at r sequence begin /\ forall k, k < length (cr_pattern r) -> results !! (begin + k) = Some []) /\
    (b = false -> rs = results) /\
    (b = true -> forall i, rs !! i = if decide (begin <= i < begin + length (cr_pattern r)) then Some (says r (i - begin)) else results !! i).
Proof.
  intros Hr Hlen. unfold cr_matches. rewrite Hlen, Nat.eqb_refl. cbn [negb].
  destruct (Nat.ltb_spec (length sequence) (begin + length (cr_pattern r))) as [L|L].
  - exists false, results. split; [done|]. split; [done|]. split; [|done]. split; [done|]. intros [[H _] _]. lia.
  - pose proof Hr as (Hb & _ & _).
    destruct (rule_found_spec (cr_pattern r) Hb sequence results begin Hlen L) as (b & -> & Hf). cbn [rbind]. destruct b.
    + destruct (fill_spec r begin Hr (length (cr_pattern r)) results) as (rs & -> & Lr & H); [lia|lia|]. cbn [rbind].
      exists true, rs. split; [done|]. split; [lia|]. split; [|done]. unfold fits_at. tauto.
    + exists false, results. split; [done|]. split; [done|]. split; [|done]. unfold fits_at. tauto.
Qed.

(** * All rules *)
Section run.
  Context (sequence : list (vocab_id * N)).
  #[local] Set Default Proof Using "Type".
  (** what the applications up to now say about token [i] *)
  Definition backed (apps : list (nat * context_rule)) (results : list (list pattern_result)) : Prop :=
    length results = length sequence /\
    (forall i x, results !! i = Some x -> x = [] \/ exists a, a ∈ apps /\ uses a i /\ x = says a.2 (i - a.1)) /\
    (forall a i, a ∈ apps -> uses a i -> says a.2 (i - a.1) <> [] -> results !! i = Some (says a.2 (i - a.1))) /\
    (forall a, a ∈ apps -> fits_at a.2 sequence a.1).
  Lemma backed_start : backed [] (replicate (length sequence) []).
  Proof.
    split; [apply replicate_length|]. split.
    - intros i x H. apply lookup_replicate in H as [-> _]. by left.
    - split; intros a; [intros i|]; intros H; inversion H.
  Qed.
  Lemma backed_step apps results b r rs : backed apps results -> rule_ok r ->
    cr_matches r sequence b results = Ok (true, rs) ->
    backed (apps ++ [(b, r)]) rs /\ (forall a, a ∈ apps -> forall i, uses a i -> uses (b, r) i -> says a.2 (i - a.1) = []).
  Proof.
    intros (Hlen & Hx & Ha & Hf) Hr E.
    destruct (cr_matches_spec r sequence b results Hr Hlen) as (b' & rs' & E' & L & Hb & _ & Ht).
    rewrite E in E'. injection E' as <- <-. destruct (proj1 Hb eq_refl) as [Hfit Hempty]. specialize (Ht eq_refl).
    assert (forall i, b <= i < b + length (cr_pattern r) -> results !! i = Some []) as Hempty'.
    { intros i Hi. replace i with (b + (i - b)) by lia. apply Hempty. lia. }
    split; [split; [done|split; [|split]]|].
    - intros i x. rewrite Ht. destruct (decide (b <= i < b + length (cr_pattern r))) as [Hi|Hi].
      + intros [= <-]. right. exists (b, r). split; [apply elem_of_app; right; left|]. done.
      + intros H. destruct (Hx i x H) as [->|(a & Hin & Hu & ->)]; [by left|]. right. exists a.
        split; [apply elem_of_app; by left|]. done.
    - intros a i Hin Hu Hne. rewrite Ht. apply elem_of_app in Hin as [Hin|Hin].
      + specialize (Ha a i Hin Hu Hne). destruct (decide (b <= i < b + length (cr_pattern r))) as [Hi|Hi]; [|done].
        rewrite (Hempty' i Hi) in Ha. injection Ha as Ha. by rewrite <- Ha in Hne.
      + apply elem_of_list_singleton in Hin as ->. unfold uses in Hu. cbn in Hu.
        destruct (decide (b <= i < b + length (cr_pattern r))); [done|lia].
    - intros a Hin. apply elem_of_app in Hin as [Hin|Hin]; [by apply Hf|]. by apply elem_of_list_singleton in Hin as ->.
    - intros a Hin i Hu Hu'. destruct (decide (says a.2 (i - a.1) = [])) as [|Hne]; [done|].
      specialize (Ha a i Hin Hu Hne). rewrite (Hempty' i Hu') in Ha. by injection Ha.
  Qed.
  Lemma backed_free apps results b r : backed apps results -> b + length (cr_pattern r) <= length sequence ->
    free apps b r <-> forall k, k < length (cr_pattern r) -> results !! (b + k) = Some [].
  Proof.
    intros (Hlen & Hx & Ha & _) Hfit. split.
    - intros Hfree k Hk. destruct (lookup_lt_is_Some_2 results (b + k)) as [x E]; [lia|]. rewrite E. f_equal.
      destruct (Hx _ _ E) as [->|(a & Hin & Hu & ->)]; [done|]. apply (Hfree a (b + k) Hin Hu). unfold uses. cbn. lia.
    - intros H a i Hin Hu Hu'. destruct (decide (says a.2 (i - a.1) = [])) as [|Hne]; [done|].
      specialize (Ha a i Hin Hu Hne). unfold uses in Hu'. cbn in Hu'. specialize (H (i - b) ltac:(lia)).
      replace (b + (i - b)) with i in H by lia. rewrite H in Ha. by injection Ha.
  Qed.
  Lemma run_spec l : Forall (fun br => rule_ok br.2) l -> forall apps found results, backed apps results ->
    exists rs new, rfoldl (test_at sequence) (found, results) l = Ok (found || negb (bool_decide (new = [])), rs) /\
      backed (apps ++ new) rs /\ greedy sequence apps l (apps ++ new).
  Proof.
    intros Hl. induction Hl as [|[b r] l Hr Hl IH]; intros apps found results Hb; cbn [rfoldl].
    - exists results, []. rewrite app_nil_r. cbn. rewrite orb_false_r. split; [done|]. split; [done|]. constructor.
    - cbn in Hr. pose proof Hb as (Hlen & _).
      destruct (cr_matches_spec r sequence b results Hr Hlen) as (ok & rs & E & L & Hok & Hfalse & _).
      assert (test_at sequence (found, results) (b, r) = Ok (found || ok, rs)) as ->.
      { unfold test_at. cbn [fst snd]. by rewrite E. }
      cbn [rbind]. destruct ok.
      + destruct (backed_step apps results b r rs Hb Hr E) as [Hb' _].
        destruct (IH (apps ++ [(b, r)]) (found || true) rs Hb') as (rs' & new & E' & Hb2 & Hg).
        exists rs', ((b, r) :: new). rewrite <- app_assoc in Hb2, Hg. cbn [app] in Hb2, Hg. split.
        { rewrite E'. rewrite (bool_decide_eq_false_2 ((b, r) :: _ = [])) by done. by destruct found. }
        split; [done|]. destruct (proj1 Hok eq_refl) as [Hfit Hempty].
        apply greedy_apply; [done| |done]. apply (backed_free apps results b r Hb); [apply Hfit|done].
      + rewrite (Hfalse eq_refl). rewrite orb_false_r. destruct (IH apps found results Hb) as (rs' & new & E' & Hb' & Hg).
        exists rs', new. split; [done|]. split; [done|]. apply greedy_skip; [|done]. intros [Hfit Hfree].
        rewrite (backed_free apps results b r Hb (proj1 Hfit)) in Hfree. pose proof (proj2 Hok (conj Hfit Hfree)) as X. discriminate X.
  Qed.
  (** who comes first, leaves the others nothing but what they do not use *)
  Lemma greedy_pairs apps l out : greedy sequence apps l out ->
    (forall i j a a', i < j -> apps !! i = Some a -> apps !! j = Some a' -> forall k, uses a k -> uses a' k -> says a.2 (k - a.1) = []) ->
    forall i j a a', i < j -> out !! i = Some a -> out !! j = Some a' -> forall k, uses a k -> uses a' k -> says a.2 (k - a.1) = [].
  Proof.
    induction 1 as [apps|apps b r l out Hfit Hfree Hg IH|apps b r l out Hn Hg IH]; intros H; [done| |by apply IH].
    apply IH. intros i j a a' Hij Ea Ea' k.
    pose proof (lookup_lt_Some _ _ _ Ea') as Lj. rewrite app_length in Lj. cbn in Lj.
    rewrite lookup_app_l in Ea by lia. destruct (decide (j < length apps)) as [Hj|Hj].
    - rewrite lookup_app_l in Ea' by lia. by eapply (H i j).
    - replace j with (length apps) in Ea' by lia. rewrite lookup_app_r, Nat.sub_diag in Ea' by lia. injection Ea' as <-.
      apply Hfree. by eapply elem_of_list_lookup_2.
  Qed.
  Lemma greedy_unique apps l out out' : greedy sequence apps l out -> greedy sequence apps l out' -> out = out'.
  Proof.
    intros H. revert out'. induction H as [apps|apps b r l out Hfit Hfree Hg IH|apps b r l out Hn Hg IH]; intros out' H'; inversion H'; subst.
    - done.
    - by apply IH.
    - naive_solver.
    - naive_solver.
    - by apply IH.
  Qed.
  Lemma greedy_from apps l out : greedy sequence apps l out -> forall a, a ∈ out -> a ∈ apps \/ a ∈ l.
  Proof.
    induction 1 as [apps|apps b r l out Hfit Hfree Hg IH|apps b r l out Hn Hg IH]; intros a Ha; [by left| |].
    - apply IH in Ha as [Ha|Ha]; [|by do 2 right]. apply elem_of_app in Ha as [Ha|Ha]; [by left|].
      apply elem_of_list_singleton in Ha as ->. right. left.
    - apply IH in Ha as [Ha|Ha]; [by left|by do 2 right].
  Qed.
End run.
Lemma positions_ok n rules : Forall rule_ok rules -> Forall (fun br => rule_ok br.2) (positions n rules).
Proof.
  intros H. unfold positions. rewrite Forall_forall. intros [b r] Hin. apply elem_of_list_In, in_concat in Hin as (l & Hl & Hin).
  apply in_map_iff in Hl as (x & <- & _). apply in_map_iff in Hin as (r' & [= <- <-] & Hr').
  cbn. rewrite Forall_forall in H. apply H. by apply elem_of_list_In.
Qed.
Lemma attempts_eq n rules : attempts n rules = positions n rules.
Proof. unfold attempts, positions. induction (seq 0 n) as [|b l IH]; [done|]. cbn. by rewrite <- IH. Qed.
Lemma elem_of_attempts n rules b r : (b, r) ∈ attempts n rules <-> b < n /\ r ∈ rules.
Proof.
  unfold attempts. rewrite elem_of_list_bind. split.
  - intros (x & Hin & Hx). apply elem_of_list_fmap in Hin as (r' & [= <- <-] & Hr). apply elem_of_seq in Hx. split; [lia|done].
  - intros [Hb Hr]. exists b. split; [apply elem_of_list_fmap; by exists r|]. apply elem_of_seq. lia.
Qed.
Lemma test_rules_spec rules sequence : Forall rule_ok rules ->
  exists rs apps, test_rules rules sequence = Ok (negb (bool_decide (apps = [])), rs) /\
    applied rules sequence apps /\ backed sequence apps rs.
Proof.
  intros H. destruct (run_spec sequence _ (positions_ok (length sequence) rules H) [] false _ (backed_start sequence))
    as (rs & new & E & Hb & Hg). exists rs, new. split; [exact E|]. split; [|exact Hb].
  unfold applied. rewrite attempts_eq. exact Hg.
Qed.
Lemma applied_pairs rules sequence apps : applied rules sequence apps ->
  forall i j a a', i < j -> apps !! i = Some a -> apps !! j = Some a' -> forall k, uses a k -> uses a' k -> says a.2 (k - a.1) = [].
Proof. intros H. eapply (greedy_pairs sequence); [exact H|]. intros i j a a' _ E. done. Qed.
Lemma applied_rules rules sequence apps a : applied rules sequence apps -> a ∈ apps -> a.1 < length sequence /\ a.2 ∈ rules.
Proof.
  intros H Ha. destruct (greedy_from sequence _ _ _ H a Ha) as [Ha'|Ha']; [inversion Ha'|].
  destruct a as [b r]. by apply elem_of_attempts in Ha'.
Qed.
(** each result of a rule carries its score *)
Lemma says_score r k x : x ∈ says r k -> pr_score x = cr_score r.
Proof.
  unfold says. destruct (cr_tag r) as [|t ts].
  - intros H. by apply elem_of_list_singleton in H as ->.
  - intros H. apply elem_of_list_omap in H as ([tag [o l]] & _ & E). destruct (decide _); [|done]. by injection E as <-.
Qed.
Lemma covering_pairs rules sequence apps : Forall covering rules -> applied rules sequence apps ->
  forall i j a a' k, apps !! i = Some a -> apps !! j = Some a' -> uses a k -> uses a' k -> i = j.
Proof.
  intros Hc H i j a a' k Ea Ea' Hu Hu'. rewrite Forall_forall in Hc.
  assert (forall a k, a ∈ apps -> uses a k -> says a.2 (k - a.1) <> []) as Hs.
  { intros x y Hx Hy. apply Hc; [by apply (applied_rules rules sequence apps x H)|]. unfold uses in Hy. lia. }
  destruct (decide (i < j)) as [L|L].
  { exfalso. apply (Hs a k); [by eapply elem_of_list_lookup_2|done|]. by eapply (applied_pairs rules sequence apps H i j a a'). }
  destruct (decide (j < i)) as [L'|L']; [|lia].
  exfalso. apply (Hs a' k); [by eapply elem_of_list_lookup_2|done|]. by eapply (applied_pairs rules sequence apps H j i a' a).
Qed.
Lemma foldl_map_score (xs : list (list pattern_result)) : forall acc,
  foldl (fun a x => f32add a (element_score x)) acc xs = foldl f32add acc (map element_score xs).
Proof. induction xs as [|x xs IH]; intros acc; [done|]. cbn. apply IH. Qed.
Lemma rules_score rules sequence apps rs : Forall covering rules -> applied rules sequence apps -> backed sequence apps rs ->
  exists scores, length scores = length sequence /\ (forall i s, scores !! i = Some s -> token_score apps i s) /\
    context_score (negb (bool_decide (apps = []))) rs = if decide (apps = []) then f1 else average scores.
Proof.
  intros Hc H (Hlen & Hx & Ha & Hf). rewrite Forall_forall in Hc. exists (map element_score rs).
  split; [by rewrite map_length|]. split.
  - intros i s E. change (map element_score rs) with (element_score <$> rs) in E. rewrite list_lookup_fmap in E. destruct (rs !! i) as [x|] eqn:Ex; [|done]. injection E as <-.
    assert ((exists a, a ∈ apps /\ uses a i) \/ forall a, a ∈ apps -> ~ uses a i) as [(a & Hin & Hu)|Hno].
    { clear. induction apps as [|a apps [(x & Hx & Hu)|IH]].
      - right. intros a Ha. inversion Ha.
      - left. exists x. split; [by right|done].
      - destruct (decide (a.1 <= i < a.1 + length (cr_pattern a.2))) as [D|D].
        + left. exists a. split; [left|done].
        + right. intros x Hx. apply elem_of_cons in Hx as [->|Hx]; [done|by apply IH]. }
    + left. exists a. split; [done|]. split; [done|].
      assert (says a.2 (i - a.1) <> []) as Hne.
      { apply Hc; [by apply (applied_rules rules sequence apps a H)|]. unfold uses in Hu. lia. }
      pose proof (Ha a i Hin Hu Hne) as E. rewrite Ex in E. injection E as ->.
      destruct (says a.2 (i - a.1)) as [|r0 l0] eqn:Es; [done|]. cbn [element_score].
      apply (says_score a.2 (i - a.1)). rewrite Es. left.
    + right. split; [done|]. destruct (Hx i x Ex) as [->|(a & Hin & Hu & _)]; [done|]. by destruct (Hno a Hin).
  - unfold context_score. destruct (decide (apps = [])) as [D|D]; [by rewrite bool_decide_eq_true_2|].
    rewrite bool_decide_eq_false_2 by done. cbn [negb]. unfold average. rewrite map_length. f_equal. f_equal. apply foldl_map_score.
Qed.
(** tags *)
Lemma says_tag r k t n : t ∈ omap (fun x => match pr_tag x with Some t => Some (t, pr_seqnr x) | None => None end) (says r k) -> t.2 = n ->
  exists j o l, cr_tag r !! j = Some t.1 /\ cr_tagoffset r !! j = Some (o, l) /\ k = o + n /\ n < l.
Proof.
  intros H <-. apply elem_of_list_omap in H as (x & Hx & E). unfold says in Hx. destruct (cr_tag r) as [|t0 ts] eqn:Et.
  - apply elem_of_list_singleton in Hx as ->. done.
  - apply elem_of_list_omap in Hx as ([tag [o l]] & Hin & Ex). destruct (decide (o <= k < o + l)) as [D|D]; [|done].
    injection Ex as <-. cbn in E. injection E as <-. apply elem_of_list_lookup in Hin as [j Hj]. exists j, o, l.
    rewrite <- nth_error_lookup_eq in Hj.
    assert (forall (A B : Type) (xs : list A) (ys : list B) j a b, nth_error (combine xs ys) j = Some (a, b) -> xs !! j = Some a /\ ys !! j = Some b) as Hcomb.
    { clear. intros A B. induction xs as [|x xs IH]; intros [|y ys] [|j] a b; cbn; try done; [by intros [= -> ->]|apply IH]. }
    apply Hcomb in Hj as [H1 H2]. split; [done|]. split; [done|]. cbn. lia.
Qed.
Lemma tag_said r k j t o l : cr_tag r !! j = Some t -> cr_tagoffset r !! j = Some (o, l) -> o <= k < o + l ->
  PatternResult (cr_score r) (Some t) (k - o) ∈ says r k.
Proof.
  intros Et Eo Hk. unfold says. destruct (cr_tag r) as [|t0 ts]; [done|].
  apply elem_of_list_omap. exists (t, (o, l)). split.
  - revert j Et Eo. generalize (t0 :: ts) as xs. generalize (cr_tagoffset r) as ys. clear. intros ys xs. revert ys.
    induction xs as [|x xs IH]; intros [|y ys] [|j] E1 E2; cbn in *; try done.
    + injection E1 as ->. injection E2 as ->. left.
    + right. by eapply IH.
  - by destruct (decide (o <= k < o + l)).
Qed.
Lemma lex_sequence_length dec ids : length (lex_sequence dec ids) = length ids.
Proof. apply map_length. Qed.
Lemma claimed_once m ids : Forall rule_ok (m_context_rules m) -> Forall covering (m_context_rules m) ->
  exists score rs apps scores, test_context_rules m ids = Ok (score, rs) /\
    applied (m_context_rules m) (lex_sequence (m_decoder m) ids) apps /\
    (forall i j a a' k, apps !! i = Some a -> apps !! j = Some a' -> uses a k -> uses a' k -> i = j) /\
    length scores = length ids /\ (forall i s, scores !! i = Some s -> token_score apps i s) /\
    score = if decide (apps = []) then f1 else average scores.
Proof.
  intros Hok Hc. destruct (test_rules_spec _ (lex_sequence (m_decoder m) ids) Hok) as (rs & apps & E & Ha & Hb).
  destruct (rules_score _ _ _ _ Hc Ha Hb) as (scores & L & Hs & Es).
  eexists _, rs, apps, scores. unfold test_context_rules. rewrite E. split; [done|]. split; [done|].
  split; [by eapply covering_pairs|]. rewrite lex_sequence_length in L. done.
Qed.
Lemma shared_tokens m ids : Forall rule_ok (m_context_rules m) ->
  exists score rs apps, test_context_rules m ids = Ok (score, rs) /\
    applied (m_context_rules m) (lex_sequence (m_decoder m) ids) apps /\
    forall i j a a' k, i < j -> apps !! i = Some a -> apps !! j = Some a' -> uses a k -> uses a' k -> says a.2 (k - a.1) = [].
Proof.
  intros Hok. destruct (test_rules_spec _ (lex_sequence (m_decoder m) ids) Hok) as (rs & apps & E & Ha & Hb).
  eexists _, rs, apps. unfold test_context_rules. rewrite E. split; [done|]. split; [done|].
  intros i j a a' k L Ea Ea'. by eapply (applied_pairs _ _ _ Ha i j).
Qed.
Lemma covering_simple r :
  cr_tag r = [] \/ (exists i t o l, cr_tag r !! i = Some t /\ cr_tagoffset r !! i = Some (o, l) /\ o = 0 /\ length (cr_pattern r) <= l) ->
  covering r.
Proof.
  intros [E|(i & t & o & l & Et & Eo & -> & Hl)] k Hk.
  - unfold says. by rewrite E.
  - pose proof (tag_said r k i t 0 l Et Eo ltac:(lia)) as H. intros E. rewrite E in H. inversion H.
Qed.
Lemma numbered m ids : Forall rule_ok (m_context_rules m) ->
  exists score rs apps, test_context_rules m ids = Ok (score, rs) /\
    applied (m_context_rules m) (lex_sequence (m_decoder m) ids) apps /\
    length (tags_of rs) = length ids /\
    (forall i ts t n, tags_of rs !! i = Some ts -> (t, n) ∈ ts ->
       exists a j o l, a ∈ apps /\ uses a i /\ cr_tag a.2 !! j = Some t /\ cr_tagoffset a.2 !! j = Some (o, l) /\
         i = a.1 + o + n /\ n < l) /\
    (forall a j t o l n, a ∈ apps -> cr_tag a.2 !! j = Some t -> cr_tagoffset a.2 !! j = Some (o, l) ->
       n < l -> o + n < length (cr_pattern a.2) -> exists ts, tags_of rs !! (a.1 + o + n) = Some ts /\ (t, n) ∈ ts).
Proof.
  intros Hok. destruct (test_rules_spec _ (lex_sequence (m_decoder m) ids) Hok) as (rs & apps & E & Ha & Hlen & Hx & Hs & Hf).
  eexists _, rs, apps. unfold test_context_rules. rewrite E. split; [done|]. split; [done|].
  rewrite lex_sequence_length in Hlen. unfold tags_of. split; [by rewrite map_length|].
  match goal with |- context [map ?f rs] => set (g := f); change (map g rs) with (g <$> rs) end. split.
  - intros i ts t n Et Hin. rewrite list_lookup_fmap in Et. destruct (rs !! i) as [x|] eqn:Ex; [|done]. injection Et as <-.
    destruct (Hx i x Ex) as [->|(a & Hia & Hu & ->)]; [inversion Hin|].
    destruct (says_tag a.2 (i - a.1) (t, n) n Hin eq_refl) as (j & o & l & E1 & E2 & E3 & E4).
    exists a, j, o, l. unfold uses in *. repeat match goal with |- _ /\ _ => split end; try done; lia.
  - intros a j t o l n Hia Et Eo Hn Hk.
    pose proof (tag_said a.2 (o + n) j t o l Et Eo ltac:(lia)) as Hin. replace (o + n - o) with n in Hin by lia.
    assert (uses a (a.1 + (o + n))) as Hu by (unfold uses; lia).
    assert (a.1 + (o + n) - a.1 = o + n) as Ek by lia.
    pose proof (Hs a (a.1 + (o + n)) Hia Hu) as Er. rewrite Ek in Er.
    exists (g (says a.2 (o + n))). split.
    + rewrite <- Nat.add_assoc, list_lookup_fmap, Er; [done|]. intros E0. rewrite E0 in Hin. inversion Hin.
    + unfold g. apply elem_of_list_omap. eexists. split; [exact Hin|]. done.
Qed.
