(** Proofs about language model scores, sequences and the search in text. *)
From Verif Require Import M_Base M_Utf8 M_Float M_Types M_Model M_Values M_Search M_Text M_Rules M_Matches.
From Verif Require Import S_Text S_Model S_Rules S_Matches P_Base P_Text P_Model P_Lm P_Rules P_Parse.
From stdpp Require Import options.

(** * Language model *)
Lemma transition_score_value ln counts t1 t2 :
  transition_score ln counts t1 t2 = Ok (transition_value ln counts (t1, t2)).
Proof.
  unfold transition_score, transition_value. destruct t1 as [a|]; [|done]. destruct t2 as [b|]; [|done].
  cbn [ng_from_option_list rexpect rbind]. destruct (counts !! NBi a b) as [joint|]; [|done].
  unfold count_f32. destruct (N.ltb_spec (default 1%N (counts !! NUni a)) joint) as [L|L].
  - by rewrite bool_decide_eq_true_2.
  - rewrite bool_decide_eq_false_2 by lia. done.
Qed.
Lemma transitions_value ln counts ts : forall t logprob n,
  transitions ln counts t ts logprob n =
  Ok (foldl f32add logprob (map (transition_value ln counts) (pairs (t :: ts))), n + length ts).
Proof.
  induction ts as [|t' ts IH]; intros t logprob n; cbn [transitions].
  - cbn. by rewrite Nat.add_0_r.
  - rewrite transition_score_value. cbn [rbind]. rewrite IH. cbn [length]. do 2 f_equal. lia.
Qed.
Lemma lm_score_tokens_spec ln m tokens : tokens <> [] ->
  lm_score_tokens ln m tokens =
  Ok (sequence_logprob ln (m_ngrams m) tokens, perplexity_of (length tokens - 1) (sequence_logprob ln (m_ngrams m) tokens)).
Proof.
  destruct tokens as [|t ts]; [done|]. intros _. unfold lm_score_tokens. rewrite transitions_value. cbn [rbind].
  unfold perplexity_of, sequence_logprob. cbn [length Nat.add]. by rewrite Nat.sub_succ, Nat.sub_0_r.
Qed.

(** * Outcomes *)
(** [Q] of the result; [E] if it is a panic *)
Definition wp {A} (x : res A) (E : Prop) (Q : A -> Prop) : Prop := match x with Ok a => Q a | Panic _ => E end.
Lemma wp_bind {A B} (x : res A) (f : A -> res B) E Q : wp x E (fun a => wp (f a) E Q) -> wp (rbind x f) E Q.
Proof. by destruct x. Qed.
Lemma wp_mono {A} (x : res A) (E : Prop) (Q Q' : A -> Prop) : wp x E Q -> (forall a, x = Ok a -> Q a -> Q' a) -> wp x E Q'.
Proof. destruct x; cbn; auto. Qed.
Lemma wp_rmapM {A B} (f : A -> res B) (E : Prop) (Q : A -> B -> Prop) l :
  (forall a, a ∈ l -> wp (f a) E (Q a)) -> wp (rmapM f l) E (fun r => Forall2 Q l r).
Proof.
  induction l as [|a l IH]; intros H; cbn [rmapM]; [constructor|]. apply wp_bind.
  eapply wp_mono; [apply H; left|]. cbn. intros b _ Hb. apply wp_bind. eapply wp_mono; [apply IH; intros x Hx; apply H; by right|].
  intros r _ Hr. cbn. by constructor.
Qed.
Lemma wp_rexpect {A} (o : option A) (E : Prop) (Q : A -> Prop) x : o = Some x -> Q x -> wp (rexpect o) E Q.
Proof. by intros -> H. Qed.

(** * Places of candidates *)
Section places.
  Context (alpha : N -> bool) (first : bool) (pos : nat) (ps : pieces).
  Hypothesis (Hcut : well_cut alpha first ps).
  Notation bs := (boundaries_at pos ps).
  #[local] Set Default Proof Using "Type*".

  Lemma start_strict i j : i < j -> 0 < i \/ j = 1 /\ 1 < length ps \/ 1 < j -> j <= length ps -> start_of pos ps i < start_of pos ps j.
  Proof.
    intros L H Lj. rewrite well_cut_lookup in Hcut.
    assert (forall k, k < length ps -> 0 < k \/ 1 < length ps -> start_of pos ps k < start_of pos ps (S k)) as Hk.
    { intros k Lk H'. destruct (lookup_lt_is_Some_2 ps k Lk) as [[w b] E]. destruct (Hcut k w b E) as (_ & _ & Hw & Hb).
      unfold start_of. rewrite (take_S_r ps k (w, b) E), joined_app, joined_1, !byte_len_app.
      assert (byte_len w <> 0 \/ byte_len b <> 0); [|lia]. destruct H' as [H'|H'].
      - left. intros E0. apply byte_len_0 in E0. by apply Hw; [right|].
      - destruct k; [right|left]; intros E0; apply byte_len_0 in E0; [apply Hb; [lia|done]|apply Hw; [right; lia|done]]. }
    assert (start_of pos ps (j - 1) < start_of pos ps (S (j - 1))) as Hj by (apply Hk; lia).
    pose proof (start_mono pos ps i (j - 1) ltac:(lia)). replace (S (j - 1)) with j in Hj by lia. lia.
  Qed.
  Lemma begin_strict i j m m' : i < j -> bs !! i = Some m -> bs !! j = Some m' -> tm_end m < tm_begin m'.
  Proof.
    intros L E E'. pose proof (boundary_between pos ps i m E) as [_ ->].
    rewrite boundaries_at_lookup in E'. destruct E' as (w & b & E' & ->). cbn [tm_begin new_empty].
    rewrite well_cut_lookup in Hcut. destruct (Hcut j w b E') as (_ & _ & Hw & _).
    assert (w <> []) as Hw0 by (apply Hw; lia).
    pose proof (start_mono pos ps (S i) j ltac:(lia)) as Lm. unfold start_of in Lm |- *. rewrite byte_len_app.
    assert (byte_len w <> 0) by (intros E0; by apply byte_len_0 in E0). lia.
  Qed.
  Lemma separator_nonempty i m : bs !! i = Some m -> S i < length ps -> tm_begin m < tm_end m.
  Proof.
    rewrite boundaries_at_lookup. intros (w & b & E & ->) L. cbn [tm_begin tm_end new_empty].
    rewrite well_cut_lookup in Hcut. destruct (Hcut i w b E) as (_ & _ & _ & Hb). rewrite !byte_len_app.
    assert (byte_len b <> 0); [|lia]. intros E0. apply byte_len_0 in E0. by apply Hb.
  Qed.

  (** [x] is at the place of the [n + 1] words from word [j] *)
  Definition stands (x : tmatch) (j n : nat) : Prop :=
    j + n < length ps /\ stretch (drop j ps) (S n) <> [] /\ tm_text x = stretch (drop j ps) (S n) /\
    tm_begin x = start_of pos ps j /\ tm_end x = start_of pos ps j + byte_len (stretch (drop j ps) (S n)).

  Lemma stands_end x j n : stands x j n -> exists b, bs !! (j + n) = Some b /\ tm_end x = tm_begin b /\ tm_begin x < tm_end x.
  Proof using Type.
    clear Hcut. intros (L & Hne & _ & Eb & Ee). destruct (lookup_lt_is_Some_2 ps (j + n) L) as [[w b] E]. eexists. split.
    { apply boundaries_at_lookup. exists w, b. split; [exact E|reflexivity]. }
    cbn [tm_begin new_empty]. rewrite (stretch_from ps j n w b E), byte_len_app. unfold start_of in *. split; [lia|].
    assert (byte_len (stretch (drop j ps) (S n)) <> 0); [|lia]. intros E0. by apply byte_len_0 in E0.
  Qed.
  Lemma piece_nonempty x n : stands x 0 n -> start_of pos ps 0 < start_of pos ps 1.
  Proof.
    intros (L & Hne & _). destruct ps as [|[w b] [|[w' b'] qs]]; [cbn in L; lia| |].
    - destruct n; [|cbn in L; lia]. cbn [drop stretch] in Hne. unfold start_of. cbn [take].
      rewrite joined_1, byte_len_app. change (byte_len (joined [])) with 0.
      assert (byte_len w <> 0) by (intros E0; by apply byte_len_0 in E0). lia.
    - destruct Hcut as (_ & _ & _ & Hb & _). unfold start_of. cbn [take]. rewrite joined_1, byte_len_app.
      change (byte_len (joined [])) with 0. assert (byte_len b <> 0); [|lia]. intros E0. apply byte_len_0 in E0. by apply Hb.
  Qed.

  Lemma adjacent_app m i l1 : forall l2 prev next, adjacent m i (l1 ++ l2) prev next =
    adjacent m (i + length l1) l2 (adjacent m i l1 prev next).1 (adjacent m i l1 prev next).2.
  Proof using Type.
    clear Hcut. revert i. induction l1 as [|b l1 IH]; intros i l2 prev next; cbn [app adjacent length].
    - by rewrite Nat.add_0_r.
    - rewrite <- Nat.add_succ_comm. by destruct (_ =? _); [|destruct (_ =? _)].
  Qed.
  Lemma adjacent_prev m l : forall i prev next, (forall j b, l !! j = Some b -> tm_begin m <> tm_end b) ->
    (adjacent m i l prev next).1 = prev.
  Proof using Type.
    clear Hcut. induction l as [|b l IH]; intros i prev next H; [done|]. cbn [adjacent].
    destruct (Nat.eqb_spec (tm_begin m) (tm_end b)) as [E|_]; [by destruct (H 0 b)|].
    destruct (_ =? _); apply IH; intros j b' E; by apply (H (S j)).
  Qed.
  Lemma adjacent_next m l : forall i prev next, (forall j b, l !! j = Some b -> tm_end m <> tm_begin b) ->
    (adjacent m i l prev next).2 = next.
  Proof using Type.
    clear Hcut. induction l as [|b l IH]; intros i prev next H; [done|]. cbn [adjacent].
    destruct (_ =? _); [apply IH; intros j b' E; by apply (H (S j))|].
    destruct (Nat.eqb_spec (tm_end m) (tm_begin b)) as [E|_]; [by destruct (H 0 b)|].
    apply IH; intros j b' E; by apply (H (S j)).
  Qed.
  Lemma adjacent_prev_at m l k b : l !! k = Some b -> tm_begin m = tm_end b ->
    (forall j b', k < j -> l !! j = Some b' -> tm_begin m <> tm_end b') ->
    (adjacent m 0 l None None).1 = Some k.
  Proof using Type.
    clear Hcut. intros E Eb H. rewrite <- (take_drop_middle l k b E), adjacent_app. cbn [adjacent].
    rewrite Eb, Nat.eqb_refl. rewrite adjacent_prev.
    - rewrite take_length. apply lookup_lt_Some in E. f_equal. lia.
    - intros j b' E'. rewrite lookup_drop in E'. apply (H (S k + j)); [lia|done].
  Qed.
  Lemma adjacent_next_at m l k b : l !! k = Some b -> tm_end m = tm_begin b -> tm_begin m <> tm_end b ->
    (forall j b', k < j -> l !! j = Some b' -> tm_end m <> tm_begin b') ->
    (adjacent m 0 l None None).2 = Some k.
  Proof using Type.
    clear Hcut. intros E Ee Eb H. rewrite <- (take_drop_middle l k b E), adjacent_app. cbn [adjacent].
    rewrite (proj2 (Nat.eqb_neq _ _) Eb). rewrite Ee, Nat.eqb_refl. rewrite adjacent_next.
    - rewrite take_length. apply lookup_lt_Some in E. f_equal. lia.
    - intros j b' E'. rewrite lookup_drop in E'. apply (H (S k + j)); [lia|done].
  Qed.
  Lemma endpoints_spec x j n : stands x j n -> endpoints x bs = Ok (S n, j, j + n).
  Proof.
    intros Hx. pose proof Hx as (L & Hne & _ & Eb & Ee). destruct (stands_end x j n Hx) as (b & E & Eend & Lx).
    unfold endpoints.
    assert ((adjacent x 0 bs None None).2 = Some (j + n)) as E2.
    { apply (adjacent_next_at x bs (j + n) b); [done|done| |].
      - pose proof (boundary_between pos ps _ _ E). lia.
      - intros k b' Lk E'. pose proof (begin_strict _ _ _ _ Lk E E'). pose proof (boundary_between pos ps _ _ E). lia. }
    assert ((adjacent x 0 bs None None).1 = match j with 0 => None | S p => Some p end) as E1.
    { destruct j as [|p].
      - apply adjacent_prev. intros k b' E'. pose proof (boundary_between pos ps _ _ E') as [_ ->].
        pose proof (piece_nonempty x n Hx). pose proof (start_mono pos ps 1 (S k) ltac:(lia)). lia.
      - destruct (lookup_lt_is_Some_2 bs p) as [b' E']; [rewrite boundaries_at_length; lia|].
        pose proof (boundary_between pos ps _ _ E') as [_ Ep].
        apply (adjacent_prev_at x bs p b'); [done|by rewrite Ep|].
        intros k b'' Lk E''. pose proof (boundary_between pos ps _ _ E'') as [_ ->].
        assert (k < length ps) by (apply lookup_lt_Some in E''; by rewrite boundaries_at_length in E'').
        pose proof (start_strict (S p) (S k)). lia. }
    destruct (adjacent x 0 bs None None) as [o1 o2]. cbn [fst snd] in E1, E2. subst o1 o2. cbn [rexpect rbind].
    destruct j as [|p].
    - do 3 f_equal. lia.
    - destruct (Nat.ltb_spec (S p + n) p); [lia|]. do 3 f_equal. lia.
  Qed.

  (** ** Arcs *)
  (** the symbol stands for a variant of the match, or for the match itself if
      it has none *)
  Definition symbol_for (x : tmatch) (o : output_symbol) : Prop :=
    match os_variant o with
    | Some i => exists vs v, tm_variants x = Some vs /\ vs !! i = Some v /\ vr_id v = os_vocab o
    | None => os_vocab o = 0 /\ (tm_variants x = None \/ tm_variants x = Some [])
    end.
  Definition leads (ms : list tmatch) (idx : nat) (o : output_symbol) (j n : nat) : Prop :=
    idx <= os_match o /\ exists x, ms !! (os_match o - idx) = Some x /\ stands x j n /\ os_boundary o = j + n /\ symbol_for x o.
  Definition labelled (ms : list tmatch) (ss : list output_symbol) (k idx : nat) (a : arc) : Prop :=
    k <= a_out a /\ exists o j n, ss !! (a_out a - k) = Some o /\ leads ms idx o j n /\ a_from a = j /\ a_to a = S (j + n).

  Lemma match_arcs_spec fw k idx x j n : stands x j n ->
    exists ss arcs, match_arcs fw bs k idx x = Ok (ss, arcs) /\
      (forall a, a ∈ arcs -> labelled [x] ss k idx a) /\ (forall o, o ∈ ss -> leads [x] idx o j n) /\ (n = 0 -> ss <> []).
  Proof.
    intros Hx. unfold match_arcs. rewrite (endpoints_spec x j n Hx). cbn [rbind].
    assert (forall v vs, tm_variants x = Some (v :: vs) -> forall i u, (v :: vs) !! i = Some u ->
      leads [x] idx (OutputSymbol (vr_id u) idx (Some i) (j + n)) j n) as Hv.
    { intros v vs Ev i u Eu. split; [done|]. exists x. cbn [os_match os_boundary]. rewrite Nat.sub_diag. split; [done|].
      split; [done|]. split; [done|]. exists (v :: vs), u. done. }
    assert (tm_variants x = None \/ tm_variants x = Some [] -> leads [x] idx (OutputSymbol 0 idx None (j + n)) j n) as H0.
    { intros Ev. split; [done|]. exists x. cbn [os_match os_boundary]. rewrite Nat.sub_diag. done. }
    assert (tm_variants x = None \/ tm_variants x = Some [] -> exists ss arcs,
      (if S n =? 1 then Ok ([OutputSymbol 0 idx None (j + n)], [Arc j (idx + 1) k (f32add (f32_of_nat (S n)) f32_1) (S (j + n))])
       else Ok ([], [])) = Ok (ss, arcs) /\
      (forall a, a ∈ arcs -> labelled [x] ss k idx a) /\ (forall o, o ∈ ss -> leads [x] idx o j n) /\ (n = 0 -> ss <> [])) as Hn.
    { intros Ev. destruct (Nat.eqb_spec (S n) 1) as [E1|E1].
      - eexists _, _. split; [done|]. split; [|split; [|done]].
        + intros a Ha. apply elem_of_list_singleton in Ha as ->. split; [done|]. cbn [a_out a_from a_to].
          eexists _, j, n. rewrite Nat.sub_diag. split; [done|]. split; [by apply H0|done].
        + intros o Ho. apply elem_of_list_singleton in Ho as ->. by apply H0.
      - eexists _, _. split; [done|]. split; [intros a Ha; inversion Ha|]. split; [intros o Ho; inversion Ho|]. intros ->. done. }
    destruct (tm_variants x) as [[|v vs]|] eqn:Ev; [apply Hn; by right| |apply Hn; by left].
    eexists _, _. split; [done|]. split; [|split; [|done]].
    - intros a Ha. apply elem_of_lookup_imap in Ha as (i & u & -> & Eu). split; [cbn; lia|]. cbn [a_out a_from a_to].
      eexists _, j, n. replace (k + i - k) with i by lia. rewrite list_lookup_imap, Eu. split; [done|].
      split; [by eapply Hv|done].
    - intros o Ho. apply elem_of_lookup_imap in Ho as (i & u & -> & Eu). by eapply Hv.
  Qed.
  Lemma leads_shift x ms idx o j n : leads [x] idx o j n -> leads (x :: ms) idx o j n.
  Proof using Type.
    clear Hcut. intros (L & y & E & H). split; [done|]. exists y. destruct (os_match o - idx) as [|i]; [|done]. by injection E as ->.
  Qed.
  Lemma leads_next x ms idx o j n : leads ms (S idx) o j n -> leads (x :: ms) idx o j n.
  Proof using Type.
    clear Hcut. intros (L & y & E & H). split; [lia|]. exists y. replace (os_match o - idx) with (S (os_match o - S idx)) by lia. done.
  Qed.
  Lemma all_arcs_spec fw ms : forall k idx, (forall x, x ∈ ms -> exists j n, stands x j n) ->
    exists ss arcs, all_arcs fw bs k idx ms = Ok (ss, arcs) /\
      (forall a, a ∈ arcs -> labelled ms ss k idx a) /\ (forall o, o ∈ ss -> exists j n, leads ms idx o j n) /\
      (forall x j, x ∈ ms -> stands x j 0 -> ss <> []).
  Proof.
    induction ms as [|x ms IH]; intros k idx H.
    - eexists _, _. split; [done|]. split; [|split]; [intros ? Hi; inversion Hi|intros ? Hi; inversion Hi|intros ? ? Hi; inversion Hi].
    - destruct (H x) as (j & n & Hx); [left|].
      destruct (match_arcs_spec fw k idx x j n Hx) as (ss & arcs & E & Ha & Ho & Hne).
      destruct (IH (k + length ss) (S idx)) as (ss' & arcs' & E' & Ha' & Ho' & Hne'); [intros y Hy; apply H; by right|].
      exists (ss ++ ss'), (arcs ++ arcs'). cbn [all_arcs]. rewrite E. cbn [rbind]. rewrite E'. cbn [rbind]. split; [done|].
      split; [|split].
      + intros a. rewrite elem_of_app. intros [Hin|Hin].
        * destruct (Ha a Hin) as (L & o & j' & n' & Eo & Hl & Ef & Et). split; [done|]. exists o, j', n'.
          split; [by apply lookup_app_l_Some|]. split; [by apply leads_shift|done].
        * destruct (Ha' a Hin) as (L & o & j' & n' & Eo & Hl & Ef & Et). split; [lia|]. exists o, j', n'.
          split; [|split; [by apply leads_next|done]]. rewrite lookup_app_r by lia. rewrite <- Eo. f_equal. lia.
      + intros o. rewrite elem_of_app. intros [Hin|Hin].
        * exists j, n. by apply leads_shift, Ho.
        * destruct (Ho' o Hin) as (j' & n' & Hl). exists j', n'. by apply leads_next.
      + intros y j' Hy Hs Enil. apply app_eq_nil in Enil as [-> ->]. apply elem_of_cons in Hy as [->|Hy]; [|by eapply Hne'].
        apply Hne; [|done]. pose proof (endpoints_spec x j n Hx) as E1. rewrite (endpoints_spec x j' 0 Hs) in E1. by injection E1.
  Qed.

  (** ** Paths *)
  (** stretches of words (first word, number of words less one), one after the
      other from word [s] *)
  Fixpoint ordered (s : nat) (spans : list (nat * nat)) : Prop :=
    match spans with
    | [] => True
    | (j, n) :: spans' => s <= j /\ ordered (S (j + n)) spans'
    end.
  Lemma ordered_weaken s s' spans : s' <= s -> ordered s spans -> ordered s' spans.
  Proof using Type. clear Hcut. destruct spans as [|[j n] spans]; [done|]. cbn. intros L [L' H]. split; [lia|done]. Qed.
  Lemma route_symbols ms ss arcs :
    (forall a, a ∈ arcs -> labelled ms ss 1 0 a) ->
    forall s l t, route (arcs ++ failsafe_arcs bs) s l t ->
    exists os spans, rmapM (fun o => rexpect (nth_error (dummy_symbol :: ss) o)) (written l) = Ok os /\
      Forall2 (fun o sp => leads ms 0 o sp.1 sp.2) os spans /\ ordered s spans.
  Proof using Type.
    clear Hcut. intros Ha s l t R. induction R as [s|a l t Hin R IH].
    - exists [], []. split; [done|]. split; [constructor|done].
    - destruct IH as (os & spans & E & F & O). apply elem_of_app in Hin as [Hin|Hin].
      + destruct (Ha a Hin) as (L & o & j & n & Eo & Hl & Ef & Et). exists (o :: os), ((j, n) :: spans).
        unfold written. cbn [map List.filter]. destruct (Nat.eqb_spec (a_out a) 0) as [|_]; [lia|]. cbn [negb rmapM].
        rewrite nth_error_lookup_eq. replace (a_out a) with (S (a_out a - 1)) by lia.
        change ((dummy_symbol :: ss) !! S (a_out a - 1)) with (ss !! (a_out a - 1)). rewrite Eo. cbn [rexpect rbind].
        fold (written l). rewrite E. cbn [rbind]. split; [done|]. split; [by constructor|]. cbn [ordered].
        split; [lia|]. by rewrite <- Et.
      + unfold failsafe_arcs in Hin. apply elem_of_list_fmap in Hin as (i & -> & _). cbn [a_to a_from] in *.
        exists os, spans. split; [exact E|]. split; [done|]. by apply (ordered_weaken (S i)); [lia|].
  Qed.

  (** ** From stretches to places *)
  Fixpoint apart (lo : nat) (ms : list tmatch) : Prop :=
    match ms with
    | [] => True
    | x :: ms' => lo <= tm_begin x /\ apart (S (tm_end x)) ms'
    end.
  Lemma apart_weaken lo lo' ms : lo' <= lo -> apart lo ms -> apart lo' ms.
  Proof using Type. clear Hcut. destruct ms as [|x ms]; [done|]. cbn. intros L [L' H]. split; [lia|done]. Qed.
  Lemma apart_app lo hi lo' ms ms' : apart lo ms -> (forall x, x ∈ ms -> tm_end x <= hi) -> lo <= lo' ->
    hi < lo' \/ ms' = [] -> apart lo' ms' -> apart lo (ms ++ ms').
  Proof using Type.
    clear Hcut. revert lo. induction ms as [|x ms IH]; intros lo H Hhi Hlo Hd H'; cbn [app].
    - by apply (apart_weaken lo').
    - destruct H as [L H]. cbn [apart]. split; [done|]. destruct Hd as [Hd| ->]; [|by rewrite app_nil_r].
      apply IH; [done|intros y Hy; apply Hhi; by right| |by left|done]. specialize (Hhi x ltac:(left)). lia.
  Qed.
  Lemma apart_order lo ms : apart lo ms -> (forall x, x ∈ ms -> tm_begin x <= tm_end x) -> one_after_other ms.
  Proof using Type.
    clear Hcut. revert lo. induction ms as [|x ms IH]; intros lo H Hle i j y y' L E E'; [done|]. destruct H as [_ H].
    assert (forall lo ms, apart lo ms -> (forall x, x ∈ ms -> tm_begin x <= tm_end x) -> forall z, z ∈ ms -> lo <= tm_begin z) as Hlo.
    { clear. intros lo ms. revert lo. induction ms as [|x ms IH]; intros lo H Hle z Hz; [by inversion Hz|]. destruct H as [L H].
      apply elem_of_cons in Hz as [->|Hz]; [done|]. specialize (Hle x ltac:(left)) as Hx.
      specialize (IH _ H ltac:(intros ? ?; apply Hle; by right) z Hz). lia. }
    destruct j as [|j]; [lia|]. change (ms !! j = Some y') in E'. destruct i as [|i].
    - injection E as <-. apply (Hlo _ _ H); [intros z Hz; apply Hle; by right|]. by eapply elem_of_list_lookup_2.
    - change (ms !! i = Some y) in E. apply (IH _ H) with (i := i) (j := j); [intros z Hz; apply Hle; by right|lia|done|done].
  Qed.
  Definition spanned (s : nat) (out : list tmatch) : Prop :=
    exists spans, ordered s spans /\ Forall2 (fun x sp => stands x sp.1 sp.2) out spans.
  Lemma stands_bounds x j n lastb : stands x j n -> bs !! (length ps - 1) = Some lastb ->
    pos <= tm_begin x /\ tm_begin x <= tm_end x <= tm_begin lastb.
  Proof.
    intros Hx El. destruct (stands_end x j n Hx) as (b & Eb & Ee & Le). destruct Hx as (L & _ & _ & Es & _).
    split; [rewrite Es; unfold start_of; lia|]. split; [lia|]. rewrite Ee.
    destruct (decide (j + n = length ps - 1)) as [E|N]; [rewrite E in Eb; by replace lastb with b by congruence|].
    pose proof (begin_strict (j + n) (length ps - 1) b lastb ltac:(lia) Eb El). pose proof (boundary_between pos ps _ _ Eb). lia.
  Qed.
  Lemma spanned_apart s out : spanned s out -> apart (start_of pos ps s) out.
  Proof.
    intros (spans & O & F). revert s O. induction F as [|x [j n] out spans Hx F IH]; intros s O; [done|].
    destruct O as [L O]. cbn [apart fst snd] in *. split.
    - destruct Hx as (_ & _ & _ & -> & _). by apply start_mono.
    - destruct out as [|y out]; [done|]. apply (apart_weaken (start_of pos ps (S (j + n)))); [|by apply IH].
      destruct (stands_end x j n Hx) as (b & Eb & Ee & _). rewrite Ee.
      pose proof (boundary_between pos ps _ _ Eb) as [_ EE]. rewrite <- EE.
      assert (tm_begin b < tm_end b); [|lia]. apply (separator_nonempty (j + n)); [done|].
      inversion F as [|? [j' n'] ? ? Hy _]; subst. destruct O as [L' _]. destruct Hy as (Ly & _). cbn in Ly. lia.
  Qed.
  Lemma spanned_stands s out x : spanned s out -> x ∈ out -> exists j n, stands x j n.
  Proof using Type.
    clear Hcut. intros (spans & _ & F) Hx. apply elem_of_list_lookup in Hx as [i Hi].
    destruct (Forall2_lookup_l _ _ _ _ _ F Hi) as ([j n] & _ & H). by exists j, n.
  Qed.
End places.

Lemma stands_at_bytes pre ps post x j n : stands (byte_len pre) ps x j n ->
  at_bytes (pre ++ joined ps ++ post) (tm_begin x) (tm_end x) (tm_text x) /\ tm_text x <> [].
Proof.
  intros (L & Hne & -> & -> & ->). split; [|done]. apply (candidate_at_bytes pre ps post n j L).
Qed.
Lemma stands_place pos ps x x' j n : stands pos ps x j n -> tm_text x' = tm_text x -> tm_begin x' = tm_begin x ->
  tm_end x' = tm_end x -> stands pos ps x' j n.
Proof. unfold stands. by intros H -> -> ->. Qed.
Lemma stands_candidate pos ps j n : j + n < length ps -> stretch (drop j ps) (S n) <> [] ->
  stands pos ps (candidate pos ps (S n) j) j n.
Proof. done. Qed.

Lemma choose_in score l : forall best_score best s, choose score best_score best l = Some s -> s ∈ l \/ best = Some s.
Proof.
  induction l as [|x l IH]; intros best_score best s; cbn [choose]; [by right|].
  destruct (_ || _); intros H; apply IH in H as [H|H]; try (left; by right); [injection H as ->; left; left|by right].
Qed.
Lemma choose_some score l : forall best_score best, l <> [] \/ is_Some best -> is_Some (choose score best_score best l).
Proof.
  induction l as [|x l IH]; intros best_score best; cbn [choose]; [by intros [?|?]|]. intros _.
  destruct best as [b|]; [|rewrite orb_true_r; apply IH; by right].
  destruct (_ || _); apply IH; by right.
Qed.

Lemma failsafe_route pos ps : forall n i, i + n <= length ps -> route (failsafe_arcs (boundaries_at pos ps)) i (map (fun k => Arc k 0 0 (f32_of_nat 100) (S k)) (seq i n)) (i + n).
Proof.
  induction n as [|n IH]; intros i L; cbn [seq map].
  - rewrite Nat.add_0_r. constructor.
  - rewrite <- Nat.add_succ_comm. set (a := Arc i 0 0 (f32_of_nat 100) (S i)). change i with (a_from a) at 1. constructor.
    + unfold failsafe_arcs. apply elem_of_list_fmap. exists i. split; [done|]. rewrite boundaries_at_length.
      apply elem_of_seq. lia.
    + apply IH. lia.
Qed.
Lemma route_more arcs arcs' s l t : route arcs s l t -> (forall a, a ∈ arcs -> a ∈ arcs') -> route arcs' s l t.
Proof. intros R H. induction R; constructor; auto. Qed.
Lemma final_last pos ps lastb : (boundaries_at pos ps) !! (length ps - 1) = Some lastb -> length ps ∈ final_states (boundaries_at pos ps) (tm_begin lastb).
Proof.
  intros El. unfold final_states. apply elem_of_list_fmap. exists (length ps, lastb). split; [done|].
  apply elem_of_list_In, filter_In. cbn [fst snd]. rewrite Nat.eqb_refl. split; [|done].
  apply elem_of_list_In, elem_of_lookup_imap. exists (length ps - 1), lastb. split; [|done].
  apply lookup_lt_Some in El. rewrite boundaries_at_length in El. f_equal. lia.
Qed.


Lemma wp_rfoldl {A B} (f : B -> A -> res B) (E : Prop) (I : nat -> B -> Prop) l : forall acc k,
  I k acc -> (forall i a acc, l !! i = Some a -> I (k + i) acc -> wp (f acc a) E (I (S (k + i)))) ->
  wp (rfoldl f acc l) E (I (k + length l)).
Proof.
  induction l as [|a l IH]; intros acc k H0 H; cbn [rfoldl length].
  - by rewrite Nat.add_0_r.
  - apply wp_bind. pose proof (H 0 a acc eq_refl) as H1. rewrite Nat.add_0_r in H1. eapply wp_mono; [by apply H1|].
    intros acc' _ Hacc. rewrite <- Nat.add_succ_comm. apply IH; [done|]. intros i a' acc'' E' HI.
    rewrite (Nat.add_succ_comm k i) in HI |- *. by apply H.
Qed.
Lemma ordered_unigrams (q : nat -> bool) n : forall s, ordered s (map (fun j => (j, 0)) (List.filter q (seq s n))).
Proof.
  induction n as [|n IH]; intros s; [done|]. cbn [seq List.filter]. destruct (q s); cbn [map ordered].
  - split; [done|]. rewrite Nat.add_0_r. apply IH.
  - apply (ordered_weaken (S s)); [lia|]. apply IH.
Qed.

(** * Searching *)
Section outcome.
  Context (ln32 : f32 -> f32) (ln : f64 -> f64) (ws : N -> bool) (solve : fst_graph -> nat -> list (list nat * f32)).
  Context (alpha : N -> bool) (lookup : str -> res (list variant_result)) (m : model) (p : search_parameters) (t : str).
  Context (E : Prop) (ok_id : vocab_id -> Prop).
  Hypothesis (Hlookup : forall s b e, at_bytes t b e s -> s <> [] -> wp (lookup s) E (Forall (fun v => ok_id (vr_id v)))).
  Hypothesis (Hentry : forall id, ok_id id -> wp (entry_tokens m id) E (fun _ => True)).
  Hypothesis (Hencoder : forall t id, m_encoder m !! t = Some id -> ok_id id).
  Hypothesis (Hrules : forall ids, wp (test_context_rules m ids) E (fun _ => True)).
  Hypothesis (Hsound : solver_sound solve).
  Hypothesis (Hfinds : forall g l t, forward g -> route (f_arcs g) 0 l t -> t ∈ f_final g -> solve g (p_max_seq p) = [] -> E).
  Hypothesis (Hsp : alpha 32%N = false).
  #[local] Set Default Proof Using "Type*".

  Definition ids_ok (x : tmatch) : Prop := forall vs, tm_variants x = Some vs -> Forall (fun v => ok_id (vr_id v)) vs.
  Definition chosen_ok (x : tmatch) : Prop :=
    match tm_selected x with
    | Some i => exists vs v, tm_variants x = Some vs /\ vs !! i = Some v
    | None => tm_variants x = None \/ tm_variants x = Some []
    end.

  Lemma chosen_solved x : chosen_ok x -> solved x.
  Proof using Type.
    clear. unfold chosen_ok, solved, solution. destruct (tm_selected x) as [i|].
    - intros (vs & v & Ev & Ei). exists (Some v). rewrite Ev. cbn [rexpect rbind]. rewrite nth_error_lookup_eq, Ei.
      split; [done|]. exists vs. split; [done|]. by eapply elem_of_list_lookup_2.
    - intros H. by exists None.
  Qed.
  Section batch.
    Context (first : bool) (pos : nat) (ps : pieces).
    Hypothesis (Hcut : well_cut alpha first ps).
    Notation bs := (boundaries_at pos ps).

    Lemma symbol_tokens_wp ms o j n : Forall ids_ok ms -> leads pos ps ms 0 o j n -> wp (symbol_tokens ws m bs o) E (fun _ => True).
    Proof.
      intros Hids (_ & x & Ex & Hx & Eb & Hs). unfold symbol_tokens.
      destruct (stands_end pos ps x j n Hx) as (b & Ebs & _). apply wp_bind.
      eapply (wp_rexpect _ _ _ b); [by rewrite nth_error_lookup_eq, Eb|]. apply wp_bind.
      eapply (wp_mono _ _ (fun _ => True)).
      - destruct (Nat.eqb_spec (os_vocab o) 0) as [_|N]; [done|]. apply Hentry. unfold symbol_for in Hs.
        destruct (os_variant o) as [i|]; [|tauto]. destruct Hs as (vs & v & Ev & Evi & <-).
        apply elem_of_list_lookup_2 in Ex. rewrite Forall_forall in Hids. specialize (Hids _ Ex vs Ev).
        rewrite Forall_forall in Hids. apply Hids. by eapply elem_of_list_lookup_2.
      - intros own _ _. apply wp_bind. eapply (wp_mono _ _ (fun _ => True)); [|done].
        destruct (trim ws (tm_text b)) as [|c r]; [done|]. destruct (m_encoder m !! (c :: r)) as [id|] eqn:Ee; [|done].
        apply Hentry. by eapply Hencoder.
    Qed.
    Lemma path_sequence_wp ms ss arcs l fin w :
      Forall ids_ok ms -> (forall a, a ∈ arcs -> labelled pos ps ms ss 1 0 a) ->
      route (arcs ++ failsafe_arcs bs) 0 l fin ->
      wp (path_sequence ln32 ws m p bs (dummy_symbol :: ss) (written l, w)) E (fun s =>
        exists spans, Forall2 (fun o sp => leads pos ps ms 0 o sp.1 sp.2) (sq_symbols s) spans /\ ordered 0 spans).
    Proof.
      intros Hids Ha R. destruct (route_symbols pos ps ms ss arcs Ha 0 l fin R) as (os & spans & Eo & F & O).
      unfold path_sequence. cbn [fst snd]. rewrite Eo. cbn [rbind]. apply wp_bind. eapply (wp_mono _ _ (fun _ => True)).
      - destruct (use_lm m p); [|done]. unfold lm_score. apply wp_bind.
        eapply wp_mono; [eapply (wp_rmapM _ _ (fun _ _ => True))|].
        + intros o Ho. apply elem_of_list_lookup in Ho as [i Hi].
          destruct (Forall2_lookup_l _ _ _ _ _ F Hi) as ([j n] & _ & H). by eapply symbol_tokens_wp.
        + intros ts _ _. by rewrite lm_score_tokens_spec.
      - intros lm _ _. apply wp_bind. eapply (wp_mono _ _ (fun _ => True)).
        + destruct (m_context_rules m); [done|]. apply wp_bind. eapply wp_mono; [apply Hrules|]. by intros [].
        + intros ctx _ _. cbn [wp sq_symbols]. by exists spans.
    Qed.

    Lemma selected_matches_wp ms s spans : Forall2 (fun o sp => leads pos ps ms 0 o sp.1 sp.2) (sq_symbols s) spans ->
      wp (selected_matches ms s) False (fun out =>
        Forall2 (fun x sp => stands pos ps x sp.1 sp.2) out spans /\ Forall chosen_ok out).
    Proof using Type.
      clear - ps pos. intros F. unfold selected_matches.
      assert (forall f os spans', Forall2 (fun o sp => leads pos ps ms 0 o sp.1 sp.2) os spans' ->
        (forall io sp, leads pos ps ms 0 io.2 sp.1 sp.2 -> wp (f io) False (fun x => stands pos ps x sp.1 sp.2 /\ chosen_ok x)) ->
        forall g : nat -> nat, wp (rmapM f (imap (fun i o => (g i, o)) os)) False (fun out =>
          Forall2 (fun x sp => stands pos ps x sp.1 sp.2) out spans' /\ Forall chosen_ok out)) as G.
      { clear. intros f os spans' F Hf. induction F as [|o sp os spans' Ho F IH]; intros g; [cbn; by split; constructor|].
        cbn [imap rmapM]. apply wp_bind. eapply wp_mono; [by apply (Hf (g 0, o) sp)|]. intros x _ [Hx Hc]. apply wp_bind.
        eapply wp_mono; [apply (IH (g ∘ S))|]. intros out _ [Ho1 Ho2]. cbn. split; by constructor. }
      apply (G _ _ _ F) with (g := id). intros [i o] [j n] (_ & x & Ex & Hx & _ & Hs). cbn [fst snd] in *. apply wp_bind.
      rewrite Nat.sub_0_r in Ex. eapply (wp_rexpect _ _ _ x); [by rewrite nth_error_lookup_eq|].
      assert (chosen_ok (set_selected x (os_variant o))) as Hc.
      { unfold chosen_ok. cbn [tm_selected tm_variants set_selected]. unfold symbol_for in Hs. destruct (os_variant o); [|tauto].
        destruct Hs as (vs & v & ? & ? & _). by exists vs, v. }
      cbn [wp]. destruct (nth_error (sq_tags s) i); (split; [by apply (stands_place _ _ x)|done]).
    Qed.

    Lemma most_likely_wp ms lastb :
      bs !! (length ps - 1) = Some lastb -> (forall x, x ∈ ms -> exists j n, stands pos ps x j n) -> Forall ids_ok ms ->
      ms = [] \/ (exists x j, x ∈ ms /\ stands pos ps x j 0) ->
      wp (most_likely_sequence ln32 ln ws solve m p ms bs (tm_begin lastb)) E (fun out => spanned pos ps 0 out /\ Forall chosen_ok out).
    Proof.
      intros El Hms Hids Huni. unfold most_likely_sequence.
      pose proof (final_last pos ps lastb El) as Hf. destruct (final_states bs (tm_begin lastb)) as [|f0 fs] eqn:Ef; [by inversion Hf|].
      destruct (all_arcs_spec alpha first pos ps Hcut (p_freq_weight p) ms 1 0 Hms) as (ss & arcs & Ea & Harcs & Hss & Hne).
      rewrite Ea. cbn [rbind]. destruct ss as [|s0 ss0].
      { destruct Huni as [->|(x & j & Hx & Hs)]; [|by destruct (Hne x j Hx Hs)]. cbn. split; [|constructor].
        exists []. split; [done|constructor]. }
      cbn zeta. set (g := Fst _ _ _). apply wp_bind.
      eapply wp_mono; [apply (wp_rmapM _ _ (fun _ s => exists spans, Forall2 (fun o sp => leads pos ps ms 0 o sp.1 sp.2) (sq_symbols s) spans /\ ordered 0 spans))|].
      - intros [labels w] Hin. destruct (Hsound _ _ _ _ Hin) as (l & fin & R & _ & ->). cbn [g f_arcs] in R.
        by apply (path_sequence_wp ms (s0 :: ss0) arcs l fin w).
      - intros seqs _ F. cbn beta in F |- *. apply wp_bind.
        destruct (solve g (p_max_seq p)) as [|p0 pl] eqn:Es.
        + inversion F; subst. cbn [choose rexpect wp]. apply (Hfinds g) with (l := map (fun k => Arc k 0 0 (f32_of_nat 100) (S k)) (seq 0 (length ps))) (t := length ps); [| |done|done].
          { intros a Hin. cbn [g f_arcs] in Hin. apply elem_of_app in Hin as [Hin|Hin].
            - destruct (Harcs a Hin) as (_ & o & j & n & _ & _ & -> & ->). lia.
            - unfold failsafe_arcs in Hin. apply elem_of_list_In, in_map_iff in Hin as (i & <- & _). cbn. lia. }
          cbn [g f_arcs]. eapply route_more; [by apply (failsafe_route pos ps (length ps) 0)|]. intros a Hin. apply elem_of_app. by right.
        + assert (seqs <> []) as Hne0 by (inversion F; done).
          match goal with |- context [choose ?sc ?w0 None seqs] =>
            destruct (choose_some sc seqs w0 None (or_introl Hne0)) as [best Eb]; rewrite Eb; apply choose_in in Eb as [Hin|[=]] end.
          cbn [rexpect wp]. apply elem_of_list_lookup in Hin as [i Hi].
          destruct (Forall2_lookup_r _ _ _ _ _ F Hi) as (pth & _ & spans & F' & O).
          pose proof (selected_matches_wp ms best spans F') as W. destruct (selected_matches ms best) as [out|]; [|done].
          destruct W as [W1 W2]. cbn. split; [|done]. by exists spans.
    Qed.

    Lemma consolidate_wp batch lastb :
      bs !! (length ps - 1) = Some lastb -> (forall x, x ∈ batch -> exists j n, stands pos ps x j n) -> Forall ids_ok batch ->
      batch = [] \/ (exists x j, x ∈ batch /\ stands pos ps x j 0) ->
      (p_max_ngram p <= 1 -> spanned pos ps 0 batch /\ Forall (fun x => is_Some (tm_variants x)) batch) ->
      wp (consolidate ln32 ln ws solve m p batch bs (tm_begin lastb)) E (fun out => spanned pos ps 0 out /\ Forall solved out).
    Proof.
      intros El Hms Hids Huni H1. unfold consolidate.
      assert (forall out, Forall chosen_ok out -> Forall solved out) as Hcs.
      { intros out Ho. eapply Forall_impl; [exact Ho|]. apply chosen_solved. }
      destruct (Nat.ltb_spec 1 (p_max_ngram p)) as [_|L]; cbn [orb].
      { eapply wp_mono; [by apply most_likely_wp|]. intros out _ [? ?]. auto. }
      destruct (_ || _); [eapply wp_mono; [by apply most_likely_wp|]; intros out _ [? ?]; auto|].
      cbn [wp]. destruct (H1 L) as [(spans & O & F) Fv]. split.
      - exists spans. split; [done|]. clear -F.
        induction F as [|x sp batch spans Hx F IH]; cbn [map]; constructor; [|done]. by apply (stands_place _ _ x).
      - clear -Fv. induction Fv as [|x batch [vs Hv] Fv IH]; cbn [map]; constructor; [|done].
        exists (vs !! 0). unfold solution. cbn [tm_selected set_selected tm_variants]. rewrite Hv. cbn [rexpect rbind].
        rewrite nth_error_lookup_eq. split; [done|]. destruct vs as [|v vs]; [by right|]. exists (v :: vs). split; [done|left].
    Qed.
  End batch.

  (** one batch: words [a] up to [a + k] of the text *)
  Lemma gather_wp ps bs a k lastb :
    segmentation alpha t ps -> find_boundaries alpha t = Ok bs -> 0 < k -> a + k <= length ps ->
    bs !! (a + k - 1) = Some lastb -> tm_begin lastb <> byte_len (joined (take a ps)) ->
    wp (gather_batch lookup t (p_max_ngram p) (take k (drop a bs)) (byte_len (joined (take a ps))) (tm_begin lastb)) E
      (fun batch =>
        let pos := byte_len (joined (take a ps)) in let part := take k (drop a ps) in
        (forall x, x ∈ batch -> exists j n, stands pos part x j n) /\ Forall ids_ok batch /\
        (batch = [] \/ exists x j, x ∈ batch /\ stands pos part x j 0) /\
        (p_max_ngram p <= 1 -> spanned pos part 0 batch /\ Forall (fun x => is_Some (tm_variants x)) batch)).
  Proof.
    intros Hseg Ebs Hk L El Hne. set (pos := byte_len (joined (take a ps))). set (part := take k (drop a ps)).
    assert (length part = k) as Hlen by (unfold part; rewrite take_length, drop_length; lia).
    set (I := fun (i : nat) (batch : list tmatch) =>
      (forall x, x ∈ batch -> exists j n, stands pos part x j n) /\ Forall ids_ok batch /\
      (i = 0 /\ batch = [] \/ 0 < i /\ exists x j, x ∈ batch /\ stands pos part x j 0) /\
      (i <= 1 -> spanned pos part 0 batch /\ Forall (fun x => is_Some (tm_variants x)) batch)).
    assert (exists w b, part !! (k - 1) = Some (w, b) /\ w <> []) as (wl & bl & Epl & Hwl).
    { pose proof (find_boundaries_spec alpha t ps Hseg) as Ebs'. assert (bs = boundaries_at 0 ps) as Eb by congruence.
      rewrite Eb in El. apply boundaries_at_lookup in El as (w & b & Ep & ->).
      exists w, b. unfold part. rewrite lookup_take, lookup_drop by lia. replace (a + (k - 1)) with (a + k - 1) by lia. split; [done|].
      intros ->. destruct Hseg as (_ & _ & Hs). destruct (Hs _ _ _ Ep) as (_ & _ & Hw & _). cbn [tm_begin new_empty] in Hne.
      destruct (decide (0 < a + k - 1)) as [H0|H0]; [by apply Hw|]. replace a with 0 in Hne by lia. replace k with 1 in Hne by lia. done. }
    unfold gather_batch.
    match goal with |- wp (rfoldl ?f [] ?l) _ _ => assert (wp (rfoldl f [] l) E (I (0 + length l))) as G end.
    { apply wp_rfoldl.
      - split; [intros x Hx; inversion Hx|]. split; [constructor|]. split; [by left|]. intros _. split; [|constructor]. exists []. split; [done|constructor].
      - cbn [Nat.add]. intros i order batch Eo (H1 & H2 & H3 & H4). apply lookup_seq in Eo as [-> _].
        change (1 + i) with (S i). unfold pos at 1. rewrite (candidates_part alpha t ps bs a k lastb i) by done. cbn [rbind].
        fold pos part. set (js := List.filter _ _).
        assert (forall j, j ∈ js -> j + i < length part /\ stretch (drop j part) (S i) <> []) as Hjs.
        { intros j Hj. apply elem_of_list_In, filter_In in Hj as [Hj Hs]. apply in_seq in Hj. split; [lia|].
          by destruct (bool_decide_reflect (stretch (drop j part) (S i) = [])). }
        apply wp_bind.
        eapply wp_mono; [apply (wp_rmapM _ _ (fun c x => (i = 0 -> is_Some (tm_variants x)) /\ ids_ok x /\ tm_text x = tm_text c /\ tm_begin x = tm_begin c /\ tm_end x = tm_end c))|].
        + intros c Hc. apply elem_of_list_fmap in Hc as (j & -> & Hj). unfold segment_variants. destruct ((S i =? 1) || _) eqn:Eor.
          * apply wp_bind. destruct (Hjs j Hj) as [Lj Hsj].
            destruct (stands_at_bytes (joined (take a ps)) part (joined (drop k (drop a ps))) _ j i (stands_candidate pos part j i Lj Hsj)) as [Hat Hnt].
            unfold part at 1 in Hat. rewrite <- part_text, <- (proj1 Hseg) in Hat.
            eapply wp_mono; [by eapply Hlookup|]. intros vs _ Hvs. cbn [wp]. split; [by eexists|]. split; [|done].
            intros vs' [= <-]. done.
          * cbn [wp]. split; [|split; [|done]]; [|intros vs' Ev; done]. intros ->. done.
        + intros cur _ F. cbn [wp].
          assert (Forall2 (fun x j => stands pos part x j i) cur js) as Fs.
          { clear - F Hjs. revert cur F. induction js as [|j js IH]; intros cur F; inversion F as [|? ? ? ? (_ & _ & ? & ? & ?)]; subst; constructor.
            - apply (stands_place _ _ (candidate pos part (S i) j)); [|done..]. apply stands_candidate; apply Hjs; left.
            - apply IH; [|done]. intros j' Hj'. apply Hjs. by right. }
          split; [|split; [|split]].
          * intros x. rewrite elem_of_app. intros [Hx|Hx]; [by apply H1|]. apply elem_of_list_lookup in Hx as [q Hq].
            destruct (Forall2_lookup_l _ _ _ _ _ Fs Hq) as (j & _ & Hs). by exists j, i.
          * apply Forall_app. split; [done|]. clear -F. induction F as [|? ? ? ? (_ & ? & _) F IH]; by constructor.
          * right. split; [lia|]. destruct H3 as [[-> ->]|(_ & x & j & Hx & Hs)]; [|exists x, j; split; [apply elem_of_app; by left|done]].
            assert (k - 1 ∈ js) as Hin.
            { apply elem_of_list_In, filter_In. split; [apply in_seq; lia|].
              rewrite bool_decide_eq_false_2; [done|]. rewrite (stretch_split _ 0 wl bl) by (rewrite lookup_drop; by rewrite Nat.add_0_r).
              cbn. done. }
            apply elem_of_list_lookup in Hin as [q Hq]. destruct (Forall2_lookup_r _ _ _ _ _ Fs Hq) as (x & Ex & Hs).
            exists x, (k - 1). split; [|done]. apply elem_of_app. right. by eapply elem_of_list_lookup_2.
          * intros L1. assert (i = 0) as -> by lia. destruct H3 as [[_ ->]|[? _]]; [|lia].
            cbn [app]. split.
            -- exists (map (fun j => (j, 0)) js). split; [apply ordered_unigrams|]. clear -Fs.
               induction Fs; cbn [map]; by constructor.
            -- clear -F. induction F as [|? ? ? ? (H & _) F IH]; constructor; [by apply H|done]. }
    rewrite seq_length in G. eapply wp_mono; [exact G|]. intros batch _ (H1 & H2 & H3 & H4). split; [done|]. split; [done|].
    split; [|done]. destruct H3 as [[_ ?]|[_ ?]]; [by left|by right].
  Qed.

  Lemma batches_wp ps bs l : segmentation alpha t ps -> find_boundaries alpha t = Ok bs ->
    forall i a, l = drop i (zip (classify_boundaries bs) bs) -> a <= i ->
    wp (batches ln32 ln ws solve lookup m p t bs l i (byte_len (joined (take a ps))) a) E (fun out =>
      (in_place t out /\ apart (byte_len (joined (take a ps))) out) /\ Forall solved out).
  Proof.
    intros Hseg Ebs. assert (bs = boundaries_at 0 ps) as Eat by (pose proof (find_boundaries_spec alpha t ps Hseg); congruence).
    assert (length bs = length ps) as Hlen by (rewrite Eat; apply boundaries_at_length).
    assert (length (zip (classify_boundaries bs) bs) = length ps) as Hzip by (rewrite zip_with_length, classify_length; lia).
    induction l as [|[s b] l IH]; intros i a El La.
    { cbn. split; [|constructor]. split; [intros x Hx; inversion Hx|done]. }
    assert (i < length ps) as Li.
    { destruct (decide (i < length ps)); [done|]. rewrite drop_ge in El by lia. done. }
    assert (bs !! i = Some b) as Eb.
    { assert (zip (classify_boundaries bs) bs !! i = Some (s, b)) as Ez.
      { rewrite <- (Nat.add_0_r i), <- lookup_drop, <- El. done. }
      apply lookup_zip_with_Some in Ez as (s' & b' & [= <- <-] & _ & Eb). done. }
    assert (l = drop (S i) (zip (classify_boundaries bs) bs)) as El'.
    { change l with (drop 1 ((s, b) :: l)). rewrite El, drop_drop. f_equal. lia. }
    cbn [batches]. destruct (match s with Hard => true | _ => false end && negb (tm_begin b =? byte_len (joined (take a ps)))) eqn:Ec;
      [|apply IH; [done|lia]].
    apply andb_true_iff in Ec as [_ Ec]. apply negb_true_iff, Nat.eqb_neq in Ec.
    set (k := S i - a). assert (a + k = S i) as Ek by lia. assert (bs !! (a + k - 1) = Some b) as Ebk by (rewrite <- Eb; f_equal; lia).
    set (part := take k (drop a ps)). set (pos := byte_len (joined (take a ps))).
    assert (length part = k) as Hlp by (unfold part; rewrite take_length, drop_length; lia).
    assert (take k (drop a bs) = boundaries_at pos part) as Epart by (rewrite Eat; apply boundaries_part; lia).
    assert (boundaries_at pos part !! (length part - 1) = Some b) as Elast.
    { rewrite <- Epart, Hlp, lookup_take, lookup_drop by lia. rewrite <- Ebk. f_equal. lia. }
    pose proof Hseg as Hcut0. apply segmentation_cut in Hcut0 as (Et & _ & Hcut0).
    assert (well_cut alpha (match a with 0 => true | _ => false end) part) as Hcut by (by apply well_cut_take, well_cut_drop).
    (* the slice for debugging *)
    assert (exists s', slice t pos (tm_begin b) = Ok s') as [s' Es'].
    { exists (stretch part k). apply slice_spec. rewrite Et, (part_text ps a k). fold part.
      destruct k as [|n] eqn:Ek0; [lia|]. pose proof (candidate_at_bytes (joined (take a ps)) part (joined (drop (S n) (drop a ps))) n 0 ltac:(lia)) as Hc.
      destruct (lookup_lt_is_Some_2 part (0 + n)) as [[w0 b0] Ew0]; [lia|].
      destruct (candidate_ends (joined (take a ps)) (joined (drop (S n) (drop a ps))) part n 0 w0 b0 Ew0) as (mb & Emb & Eend & _).
      fold pos in Emb, Eend. assert (mb = b) as ->.
      { rewrite Hlp in Elast. replace (S n - 1) with (0 + n) in Elast by lia. congruence. }
      rewrite Eend. unfold candidate in Hc |- *. cbn [tm_begin tm_end tm_text set_n new_empty take drop] in Hc |- *.
      change (byte_len (joined [])) with 0 in Hc |- *. rewrite Nat.add_0_r in Hc |- *. exact Hc. }
    rewrite Es'. cbn [rbind]. apply wp_bind. fold k.
    eapply wp_mono; [apply (gather_wp ps bs a k b Hseg Ebs); [lia|lia|done|done]|]. fold pos part.
    intros batch _ (H1 & H2 & H3 & H4). apply wp_bind. rewrite Epart.
    eapply wp_mono; [by apply (consolidate_wp _ pos part Hcut batch b)|]. intros out _ [Hout Hsol]. apply wp_bind.
    assert (tm_end b = byte_len (joined (take (S i) ps))) as Eend.
    { rewrite Eat in Eb. by destruct (boundary_between 0 ps i b Eb) as [_ ->]. }
    rewrite Eend. eapply wp_mono; [apply (IH (S i) (S i) El'); lia|]. intros rest Erest [[Hr1 Hr2] Hr3]. cbn [wp]. split; [|by apply Forall_app]. split.
    - intros x. rewrite elem_of_app. intros [Hx|Hx]; [|by apply Hr1].
      destruct (spanned_stands _ _ _ _ _ Hout Hx) as (j & n & Hs).
      rewrite Et, (part_text ps a k). by apply (stands_at_bytes _ part _ x j n).
    - pose proof (boundary_between 0 ps i b ltac:(by rewrite <- Eat)) as [Hb1 Hb2].
      apply (apart_app _ (tm_begin b) (byte_len (joined (take (S i) ps)))); [| | | |done].
      + pose proof (spanned_apart alpha _ pos part Hcut 0 out Hout) as Ha. unfold start_of in Ha. cbn [take] in Ha.
        change (byte_len (joined [])) with 0 in Ha. by rewrite Nat.add_0_r in Ha.
      + intros x Hx. destruct (spanned_stands _ _ _ _ _ Hout Hx) as (j & n & Hs).
        by destruct (stands_bounds alpha _ pos part Hcut x j n b Hs Elast) as [_ [_ ?]].
      + pose proof (start_mono 0 ps a (S i) ltac:(lia)) as Hm. unfold start_of in Hm. cbn in Hm. fold pos in Hm. lia.
      + destruct (decide (S i < length ps)) as [Ls|Ls].
        * left. rewrite <- Eend. rewrite Eat in Eb. by apply (separator_nonempty alpha true 0 ps Hcut0 i b Eb).
        * right. rewrite drop_ge in El' by lia. rewrite El' in Erest. cbn in Erest. congruence.
  Qed.

  Lemma find_all_wp : wp (find_all_matches ln32 ln ws solve alpha lookup m t p) E (fun out =>
    (p_unicodeoffsets p = false -> in_place t out /\ one_after_other out) /\
    (p_unicodeoffsets p = true -> exists ms, in_place t ms /\ one_after_other ms /\ remap_offsets t ms = Ok out) /\
    Forall solved out).
  Proof.
    unfold find_all_matches.
    assert (forall P : Prop, in_place t [] /\ one_after_other [] /\ remap_offsets t [] = Ok []) as Hnil.
    { intros _. split; [intros x Hx; inversion Hx|]. by split. }
    destruct (bool_decide (t = [])); [cbn; destruct (Hnil True) as (? & ? & ?); split; [done|]; split; [by exists []|constructor]|].
    destruct (bool_decide (m_index m = ∅)); [cbn; destruct (Hnil True) as (? & ? & ?); split; [done|]; split; [by exists []|constructor]|].
    destruct (find_boundaries_cut alpha t) as (ps & Hseg & Ebs). rewrite Ebs. cbn [rbind]. apply wp_bind.
    eapply wp_mono; [by apply (batches_wp ps _ _ Hseg Ebs 0 0)|]. intros out _ [[H1 H2] H3].
    assert (one_after_other out) as Ho.
    { eapply apart_order; [exact H2|]. intros x Hx. destruct (H1 x Hx) as [Hb _]. apply at_bytes_range in Hb. lia. }
    destruct (p_unicodeoffsets p); [|by cbn].
    destruct (remap_matches t out) as (out' & E' & F'); [intros x Hx; by apply H1|]. rewrite E'. cbn [wp]. split; [done|].
    split; [intros _; by exists out|]. clear -F' H3. induction F' as [|x x' out out' [_ Hx] F' IH]; [constructor|].
    inversion H3; subst. constructor; [|by apply IH]. rewrite Hx. done.
  Qed.
End outcome.

(** * Statements of C_Matches.v *)
Lemma matches_in_place ln32 ln ws solve alpha lookup m t p ms :
  alpha 32%N = false -> solver_sound solve -> p_unicodeoffsets p = false ->
  find_all_matches ln32 ln ws solve alpha lookup m t p = Ok ms -> in_place t ms /\ one_after_other ms.
Proof.
  intros Hsp Hs Hu H. pose proof (find_all_wp ln32 ln ws solve alpha lookup m p t True (fun _ => True)) as W.
  rewrite H in W. apply W; try done.
  - intros s _ _ _ _. destruct (lookup s) as [l|]; [|done]. cbn. induction l; by constructor.
  - intros id _. by destruct (entry_tokens m id).
  - intros ids. by destruct (test_context_rules m ids).
Qed.
Lemma matches_solved ln32 ln ws solve alpha lookup m t p ms :
  alpha 32%N = false -> solver_sound solve ->
  find_all_matches ln32 ln ws solve alpha lookup m t p = Ok ms -> Forall solved ms.
Proof.
  intros Hsp Hs H. pose proof (find_all_wp ln32 ln ws solve alpha lookup m p t True (fun _ => True)) as W.
  rewrite H in W. apply W; try done.
  - intros s _ _ _ _. destruct (lookup s) as [l|]; [|done]. cbn. induction l; by constructor.
  - intros id _. by destruct (entry_tokens m id).
  - intros ids. by destruct (test_context_rules m ids).
Qed.
Lemma prefix_lengths t : forall p1 p2 q1 q2 : str, t = p1 ++ q1 -> t = p2 ++ q2 -> byte_len p1 < byte_len p2 -> length p1 < length p2.
Proof.
  induction t as [|c t IH]; intros p1 p2 q1 q2 E1 E2 L.
  - symmetry in E2. apply app_eq_nil in E2 as [-> _]. cbn in L. lia.
  - destruct p2 as [|c2 p2]; [cbn in L; lia|]. destruct p1 as [|c1 p1]; [cbn; lia|]. cbn [app] in E1, E2.
    injection E1 as <- E1. injection E2 as <- E2. rewrite !byte_len_cons in L. cbn [length].
    specialize (IH p1 p2 q1 q2 E1 E2 ltac:(lia)). lia.
Qed.
Lemma remap_order t ms ms' : remap_offsets t ms = Ok ms' -> one_after_other ms -> one_after_other ms'.
Proof.
  intros H Ho. unfold remap_offsets in H. cbv zeta in H.
  assert (Forall2 (fun m m' => (exists p q, t = p ++ q /\ tm_begin m = byte_len p /\ tm_begin m' = length p) /\
                               (exists p q, t = p ++ q /\ tm_end m = byte_len p /\ tm_end m' = length p)) ms ms') as F.
  { clear Ho. revert ms' H. induction ms as [|x ms IH]; intros ms' H; cbn [rmapM] in H; [injection H as <-; constructor|].
    destruct (convert_one _ (tm_begin x)) as [b|] eqn:Eb; [|done]. destruct (convert_one _ (tm_end x)) as [e|] eqn:Ee; [|done].
    cbn [rbind] in H. destruct (rmapM _ ms) as [r|] eqn:Er; [|done]. cbn [rbind] in H. injection H as <-. constructor; [|by apply IH].
    apply convert_spec in Eb as (p1 & q1 & E1 & L1 & R1), Ee as (p2 & q2 & E2 & L2 & R2).
    cbn [tm_begin tm_end set_offset]. split; [exists p1, q1|exists p2, q2]; (split; [done|]); split; [lia|done|lia|done]. }
  intros i j x' y' L Ex Ey. destruct (Forall2_lookup_r _ _ _ _ _ F Ex) as (x & Ex' & _ & p1 & q1 & E1 & L1 & R1).
  destruct (Forall2_lookup_r _ _ _ _ _ F Ey) as (y & Ey' & (p2 & q2 & E2 & L2 & R2) & _).
  rewrite R1, R2. apply (prefix_lengths t p1 p2 q1 q2 E1 E2). rewrite <- L1, <- L2. by apply (Ho i j).
Qed.
Lemma matches_in_place_chars ln32 ln ws solve alpha lookup m t p ms :
  alpha 32%N = false -> solver_sound solve -> p_unicodeoffsets p = true ->
  find_all_matches ln32 ln ws solve alpha lookup m t p = Ok ms ->
  (forall x, x ∈ ms -> at_chars t (tm_begin x) (tm_end x) (tm_text x) /\ tm_text x <> []) /\ one_after_other ms.
Proof.
  intros Hsp Hs Hu H. pose proof (find_all_wp ln32 ln ws solve alpha lookup m p t True (fun _ => True)) as W.
  rewrite H in W. destruct W as (_ & W & _); try done.
  - intros s _ _ _ _. destruct (lookup s) as [l|]; [|done]. cbn. induction l; by constructor.
  - intros id _. by destruct (entry_tokens m id).
  - intros ids. by destruct (test_context_rules m ids).
  - destruct (W Hu) as (ms0 & Hp & Ho & Hr). split; [|by eapply remap_order].
    destruct (remap_matches t ms0) as (ms1 & Hr' & F); [intros x Hx; by apply Hp|].
    assert (ms1 = ms) as -> by congruence. intros x Hx. apply elem_of_list_lookup in Hx as [i Hi].
    destruct (Forall2_lookup_r _ _ _ _ _ F Hi) as (x0 & Ei & Hc & ->). cbn [tm_text set_offset]. split; [done|].
    apply (Hp x0). by eapply elem_of_list_lookup_2.
Qed.
