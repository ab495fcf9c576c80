(** Proofs about hashing and normalisation (src/anahash.rs). *)
From Coq Require Import Lia.
From Verif Require Import M_Base M_Anahash S_Anahash P_Primes.
From stdpp Require Import options.

Lemma is_prefix_spec e t : is_prefix e t = true <-> e `prefix_of` t.
Proof.
  revert t. induction e as [|x e IH]; intros t; cbn.
  - split; [intros _; apply prefix_nil|done].
  - destruct t as [|y t].
    + split; [done|]. intros H. apply prefix_nil_inv in H. done.
    + rewrite andb_true_iff, N.eqb_eq, IH. split.
      * intros [-> H]. apply prefix_cons. done.
      * intros H. split; [eapply prefix_cons_inv_1|eapply prefix_cons_inv_2]; done.
Qed.

Lemma match_line_Some line t n :
  match_line line t = Some n ->
  exists j e, line !! j = Some e /\ e `prefix_of` t /\ length e = n /\
    forall j' e', line !! j' = Some e' -> e' `prefix_of` t -> j <= j'.
Proof.
  induction line as [|e line IH]; cbn; [done|].
  destruct (is_prefix e t) eqn:E.
  - intros [= <-]. exists 0, e. split_and!; try done; [by apply is_prefix_spec|lia].
  - intros H. destruct (IH H) as (j & e' & H1 & H2 & H3 & H4).
    exists (S j), e'. split_and!; try done.
    intros [|j'] e'' L P; [|cbn in L; apply le_n_S; eauto].
    cbn in L. injection L as ->. apply is_prefix_spec in P. congruence.
Qed.

Lemma match_line_None line t :
  match_line line t = None -> forall j e, line !! j = Some e -> ~ e `prefix_of` t.
Proof.
  induction line as [|e line IH]; cbn; [done|].
  destruct (is_prefix e t) eqn:E; [done|].
  intros H [|j] e' L P; cbn in L.
  - injection L as ->. apply is_prefix_spec in P. congruence.
  - eapply IH; eauto.
Qed.

Lemma match_alphabet_Some A s t i n :
  match_alphabet A s t = Some (i, n) ->
  exists k e, i = s + k /\ first_entry A t k e /\ length e = n.
Proof.
  revert s. induction A as [|line A IH]; intros s; cbn; [done|].
  destruct (match_line line t) as [m|] eqn:E.
  - intros [= <- <-]. apply match_line_Some in E as (j & e & H1 & H2 & H3 & H4).
    exists 0, e. split_and!; [lia| |done].
    exists j. split_and!; [exists line; done|done|].
    intros i' j' e' (l' & L1 & L2) P. destruct i' as [|i']; [|lia].
    cbn in L1. injection L1 as <-. right. eauto.
  - intros H. apply IH in H as (k & e & -> & (j & (l & H1 & H1') & H2 & H3) & H4).
    exists (S k), e. split_and!; [lia| |done].
    exists j. split_and!; [exists l; done|done|].
    intros i' j' e' (l' & L1 & L2) P. destruct i' as [|i'].
    + cbn in L1. injection L1 as <-. exfalso. eapply match_line_None; eauto.
    + cbn in L1. destruct (H3 i' j' e') as [|[-> ?]]; [exists l'; done|done|lia|lia].
Qed.

Lemma match_alphabet_None A s t :
  match_alphabet A s t = None -> no_entry A t.
Proof.
  revert s. induction A as [|line A IH]; intros s; cbn.
  - intros _ i j e (l & H & _). done.
  - destruct (match_line line t) as [m|] eqn:E; [done|].
    intros H i j e (l & L1 & L2). destruct i as [|i]; cbn in L1.
    + injection L1 as <-. eapply match_line_None; eauto.
    + eapply IH; eauto. exists l. done.
Qed.

Lemma first_entry_det A t i e i' e' :
  first_entry A t i e -> first_entry A t i' e' -> i = i' /\ e = e'.
Proof.
  intros (j & (l & L1 & L2) & P & H) (j' & (l' & L1' & L2') & P' & H').
  assert (H1 := H i' j' e' (ex_intro _ l' (conj L1' L2')) P').
  assert (H2 := H' i j e (ex_intro _ l (conj L1 L2)) P).
  assert (i = i' /\ j = j') as [-> ->] by lia.
  rewrite L1 in L1'. injection L1' as <-. rewrite L2 in L2'. injection L2' as <-. done.
Qed.

Lemma match_alphabet_first A t i e :
  first_entry A t i e -> match_alphabet A 0 t = Some (i, length e).
Proof.
  intros H. destruct (match_alphabet A 0 t) as [[i' n]|] eqn:E.
  - apply match_alphabet_Some in E as (k & e' & -> & H' & <-).
    destruct (first_entry_det _ _ _ _ _ _ H H') as [-> ->]. done.
  - apply match_alphabet_None in E. destruct H as (j & H & P & _).
    exfalso. eapply E; eauto.
Qed.

Lemma match_alphabet_no_entry A t : no_entry A t -> match_alphabet A 0 t = None.
Proof.
  intros H. destruct (match_alphabet A 0 t) as [[i' n]|] eqn:E; [|done].
  apply match_alphabet_Some in E as (k & e' & -> & (j & H' & P & _) & <-).
  exfalso. eapply H; eauto.
Qed.

(** ** Reading is total and deterministic *)

Lemma first_entry_nonempty A t i e : alphabet_ok A -> first_entry A t i e -> e <> [].
Proof.
  intros [_ H] (j & (l & L1 & L2) & _). eapply H.
  - eapply elem_of_list_lookup_2. done.
  - eapply elem_of_list_lookup_2. done.
Qed.

Lemma first_entry_lt A t i e : first_entry A t i e -> i < length A.
Proof. intros (j & (l & L1 & L2) & _). apply lookup_lt_Some in L1. done. Qed.

Lemma reads_total A t : alphabet_ok A -> exists ks, reads A t ks.
Proof.
  intros HA. remember (length t) as n eqn:En. revert t En.
  induction (lt_wf n) as [n _ IH]. intros t ->.
  destruct t as [|c t]; [exists []; constructor|].
  destruct (match_alphabet A 0 (c :: t)) as [[i m]|] eqn:E.
  - apply match_alphabet_Some in E as (k & e & _ & Hf & _).
    pose proof (first_entry_nonempty _ _ _ _ HA Hf) as He.
    pose proof Hf as (j & _ & [t' Et] & _).
    destruct (IH (length t')) with (t := t') as [ks Hks]; [|done|].
    + rewrite Et. rewrite app_length. destruct e; [done|cbn; lia].
    + exists (k :: ks). eapply reads_entry; eauto.
  - apply match_alphabet_None in E.
    destruct (IH (length t)) with (t := t) as [ks Hks]; [cbn; lia|done|].
    exists (length A :: ks). constructor; done.
Qed.

Lemma reads_inv A t ks :
  reads A t ks ->
  (t = [] /\ ks = []) \/
  (exists i e t' ks', t = e ++ t' /\ e <> [] /\ first_entry A t i e /\ reads A t' ks' /\ ks = i :: ks') \/
  (exists c t' ks', t = c :: t' /\ no_entry A t /\ reads A t' ks' /\ ks = length A :: ks').
Proof. intros H. destruct H; [left|right; left|right; right]; eauto 10. Qed.

Lemma reads_det A t ks ks' : reads A t ks -> reads A t ks' -> ks = ks'.
Proof.
  intros H. revert ks'. induction H as [|t i e t' ks -> He Hf Hr IH|c t' ks Hn Hr IH];
    intros ks' H'; apply reads_inv in H' as
      [[E ->]|[(i2 & e2 & t2 & ks2 & E & He2 & Hf2 & Hr2 & ->)|(c2 & t2 & ks2 & E & Hn2 & Hr2 & ->)]].
  - done.
  - symmetry in E. apply app_eq_nil in E as [-> _]. done.
  - done.
  - apply app_eq_nil in E as [-> _]. done.
  - destruct (first_entry_det _ _ _ _ _ _ Hf Hf2) as [-> ->].
    apply app_inv_head in E. subst. f_equal. auto.
  - destruct Hf as (j & Hj & P & _). exfalso. eapply Hn2; eauto.
  - done.
  - destruct Hf2 as (j & Hj & P & _). exfalso. eapply Hn; eauto.
  - injection E as <- <-. f_equal. auto.
Qed.

Lemma reads_bound A t ks : reads A t ks -> Forall (fun k => k <= length A) ks.
Proof.
  induction 1 as [|t i e t' ks -> He Hf Hr IH|c t' ks Hn Hr IH]; constructor; try done.
  apply first_entry_lt in Hf. lia.
Qed.

Lemma reads_below168 A t ks : alphabet_ok A -> reads A t ks -> below168 ks.
Proof.
  intros [HA _] H. apply reads_bound in H. eapply Forall_impl; [exact H|]. cbn. lia.
Qed.

(** ** The loops compute the reading *)

Lemma as_u8_small n : n < 256 -> as_u8 n = n.
Proof. intros H. unfold as_u8. apply Nat.mod_small. done. Qed.

Lemma anahash_loop_skip A s t h : anahash_loop A (s ++ t) (length s) h = anahash_loop A t 0 h.
Proof. induction s as [|c s IH]; cbn; [done|]. exact IH. Qed.

Lemma anahash_loop_reads A t ks h :
  alphabet_ok A -> reads A t ks -> (0 < h)%N -> anahash_loop A t 0 h = Ok (h * prod ks)%N.
Proof.
  intros HA H. revert h.
  induction H as [|t i e t' ks -> He Hf Hr IH|c t' ks Hn Hr IH]; intros h Hh; cbn [prod].
  - cbn. f_equal. lia.
  - pose proof (match_alphabet_first _ _ _ _ Hf) as Em.
    pose proof (first_entry_lt _ _ _ _ Hf) as Hi. pose proof HA as [HA' _].
    destruct e as [|c e]; [done|]. cbn [app] in *. cbn [anahash_loop].
    rewrite Em. rewrite as_u8_small by lia. rewrite character_ok by lia. cbn [rbind length skip_of].
    rewrite anahash_loop_skip.
    pose proof (prime_at_ge2 i ltac:(lia)).
    rewrite ana_insert_pos by done. rewrite IH by nia. f_equal. ring.
  - pose proof HA as [HA' _]. cbn [anahash_loop].
    rewrite (match_alphabet_no_entry _ _ Hn). rewrite as_u8_small by lia.
    rewrite character_ok by lia. cbn [rbind].
    pose proof (prime_at_ge2 (length A) ltac:(lia)).
    rewrite ana_insert_pos by done. rewrite IH by nia. f_equal. ring.
Qed.

Lemma anahash_reads A t ks : alphabet_ok A -> reads A t ks -> anahash A t = Ok (prod ks).
Proof.
  intros HA H. unfold anahash, ana_empty. rewrite (anahash_loop_reads _ _ _ _ HA H) by lia.
  f_equal. lia.
Qed.

(** The normalised form uses the number [length A + 1] for unknown characters. *)
Definition norm_code (A : alphabet) (k : nat) : nat :=
  if (k =? length A)%nat then S (length A) else k.

Lemma normalize_loop_skip A s t r :
  normalize_loop A (s ++ t) (length s) r = normalize_loop A t 0 r.
Proof. induction s as [|c s IH]; cbn; [done|]. exact IH. Qed.

Lemma normalize_loop_reads A t ks r :
  alphabet_ok A -> reads A t ks ->
  normalize_loop A t 0 r = Ok (r ++ map (norm_code A) ks).
Proof.
  intros HA H. revert r.
  induction H as [|t i e t' ks -> He Hf Hr IH|c t' ks Hn Hr IH]; intros r; cbn [map].
  - cbn. rewrite app_nil_r. done.
  - pose proof (match_alphabet_first _ _ _ _ Hf) as Em.
    pose proof (first_entry_lt _ _ _ _ Hf) as Hi. pose proof HA as [HA' _].
    destruct e as [|c e]; [done|]. cbn [app] in *. cbn [normalize_loop].
    rewrite Em. cbn [rbind length skip_of]. rewrite as_u8_small by lia.
    rewrite normalize_loop_skip, IH. rewrite <- app_assoc. cbn [app].
    unfold norm_code at 2. destruct (Nat.eqb_spec i (length A)); [lia|]. done.
  - pose proof HA as [HA' _]. cbn [normalize_loop].
    rewrite (match_alphabet_no_entry _ _ Hn). rewrite as_u8_small by lia.
    unfold u8_succ. destruct (Nat.ltb_spec (length A) 255); [|lia]. cbn [rbind].
    rewrite IH. rewrite <- app_assoc. cbn [app].
    unfold norm_code at 2. rewrite Nat.eqb_refl. done.
Qed.

Lemma normalize_reads A t ks :
  alphabet_ok A -> reads A t ks -> normalize_to_alphabet A t = Ok (map (norm_code A) ks).
Proof. intros HA H. unfold normalize_to_alphabet. rewrite (normalize_loop_reads _ _ _ _ HA H). done. Qed.

Lemma norm_code_inj A j k :
  j <= length A -> k <= length A -> norm_code A j = norm_code A k -> j = k.
Proof.
  unfold norm_code. intros Hj Hk.
  destruct (Nat.eqb_spec j (length A)); destruct (Nat.eqb_spec k (length A)); lia.
Qed.

(** ** C01 *)
Lemma hash_eq_iff A t1 t2 k1 k2 :
  alphabet_ok A -> reads A t1 k1 -> reads A t2 k2 ->
  exists h1 h2, anahash A t1 = Ok h1 /\ anahash A t2 = Ok h2 /\ (h1 = h2 <-> k1 ≡ₚ k2).
Proof.
  intros HA H1 H2. exists (prod k1), (prod k2).
  split_and!; [by apply anahash_reads|by apply anahash_reads|]. split.
  - apply prod_inj; eapply reads_below168; eauto.
  - apply prod_perm.
Qed.

(** ** C02 *)
Lemma bag_ops a b :
  below168 a -> below168 b ->
  exists ha hb, bag_hash a = Ok ha /\ bag_hash b = Ok hb /\
    (ana_contains ha hb = true <-> b ⊆+ a) /\
    (forall r, ana_delete ha hb = Some r <-> exists c, a ≡ₚ b ++ c /\ bag_hash c = Ok r) /\
    bag_hash (a ++ b) = Ok (ana_insert ha hb) /\
    ana_delete (ana_insert ha hb) hb = Some ha.
Proof.
  intros Ha Hb. exists (prod a), (prod b).
  pose proof (prod_pos a Ha) as Pa. pose proof (prod_pos b Hb) as Pb.
  assert (Hc : forall x y, below168 x -> below168 y ->
     ana_contains (prod x) (prod y) = true <-> y ⊆+ x).
  { intros x y Hx Hy. rewrite ana_contains_spec by (apply prod_pos; done).
    apply prod_divide; done. }
  split_and!.
  - by apply bag_hash_ok.
  - by apply bag_hash_ok.
  - by apply Hc.
  - intros r. unfold ana_delete. destruct (ana_contains (prod a) (prod b)) eqn:E.
    + pose proof E as Hs. apply Hc in Hs; [|done..].
      apply submseteq_Permutation in Hs as [c Ec]. split.
      * intros [= <-]. exists c. split; [done|].
        assert (below168 c). { rewrite Ec in Ha. apply Forall_app in Ha. tauto. }
        rewrite bag_hash_ok by done. f_equal.
        rewrite (prod_perm _ _ Ec), prod_app, N.mul_comm, N.div_mul by lia. done.
      * intros (c' & Ec' & Hr). f_equal.
        assert (below168 c'). { rewrite Ec' in Ha. apply Forall_app in Ha. tauto. }
        rewrite bag_hash_ok in Hr by done. injection Hr as <-.
        rewrite (prod_perm _ _ Ec'), prod_app, N.mul_comm, N.div_mul by lia. done.
    + split; [done|]. intros (c & Ec & _).
      assert (b ⊆+ a). { rewrite Ec. apply submseteq_inserts_r. done. }
      apply Hc in H; [|done..]. congruence.
  - rewrite bag_hash_ok by (apply Forall_app; done). rewrite prod_app, ana_insert_pos by done. done.
  - rewrite ana_insert_pos by done. unfold ana_delete.
    assert (ana_contains (prod a * prod b) (prod b) = true) as ->.
    { apply ana_contains_spec; [nia|done|]. exists (prod a). done. }
    f_equal. apply N.div_mul. lia.
Qed.

Lemma insert_comm_assoc a b c :
  (0 < a)%N -> (0 < b)%N -> (0 < c)%N ->
  ana_insert a b = ana_insert b a /\
  ana_insert (ana_insert a b) c = ana_insert a (ana_insert b c).
Proof.
  intros Ha Hb Hc. rewrite !ana_insert_pos by nia. split; ring.
Qed.

(** ** C03 *)
Lemma norm_code_back A ks :
  Forall (fun k => k <= length A) ks -> map (unk_to_hash_index A) (map (norm_code A) ks) = ks.
Proof.
  induction 1 as [|k ks Hk _ IH]; cbn; [done|]. f_equal; [|done].
  unfold unk_to_hash_index, norm_code.
  destruct (Nat.eqb_spec k (length A)); [subst; rewrite Nat.eqb_refl; done|].
  destruct (Nat.eqb_spec k (S (length A))); [lia|done].
Qed.

Lemma norm_perm_reads A k1 k2 :
  Forall (fun k => k <= length A) k1 -> Forall (fun k => k <= length A) k2 ->
  map (norm_code A) k1 ≡ₚ map (norm_code A) k2 <-> k1 ≡ₚ k2.
Proof.
  intros H1 H2. split.
  - intros H. rewrite <- (norm_code_back A k1), <- (norm_code_back A k2) by done.
    apply (fmap_Permutation (unk_to_hash_index A)). done.
  - apply (fmap_Permutation (norm_code A)).
Qed.

Lemma norm_hash_agree A t :
  alphabet_ok A ->
  exists n h, normalize_to_alphabet A t = Ok n /\ anahash A t = Ok h /\
    bag_hash (map (unk_to_hash_index A) n) = Ok h.
Proof.
  intros HA. destruct (reads_total A t HA) as [ks Hks].
  exists (map (norm_code A) ks), (prod ks).
  split_and!; [by apply normalize_reads|by apply anahash_reads|].
  rewrite norm_code_back by (eapply reads_bound; eauto).
  apply bag_hash_ok. eapply reads_below168; eauto.
Qed.

Lemma norm_perm_iff_hash A t1 t2 n1 n2 h1 h2 :
  alphabet_ok A ->
  normalize_to_alphabet A t1 = Ok n1 -> normalize_to_alphabet A t2 = Ok n2 ->
  anahash A t1 = Ok h1 -> anahash A t2 = Ok h2 ->
  (h1 = h2 <-> n1 ≡ₚ n2).
Proof.
  intros HA N1 N2 H1 H2.
  destruct (reads_total A t1 HA) as [k1 R1]. destruct (reads_total A t2 HA) as [k2 R2].
  rewrite (normalize_reads _ _ _ HA R1) in N1. rewrite (normalize_reads _ _ _ HA R2) in N2.
  rewrite (anahash_reads _ _ _ HA R1) in H1. rewrite (anahash_reads _ _ _ HA R2) in H2.
  simplify_eq.
  rewrite norm_perm_reads by (eapply reads_bound; eauto).
  split; [apply prod_inj; eapply reads_below168; eauto|apply prod_perm].
Qed.

(** ** C04 *)
Lemma hash_total A t :
  alphabet_ok A -> (exists h, anahash A t = Ok h) /\ (exists n, normalize_to_alphabet A t = Ok n).
Proof. intros HA. destruct (norm_hash_agree A t HA) as (n & h & H1 & H2 & _). eauto. Qed.

Lemma hash_unknown_panics A c t :
  168 <= length A <= 255 -> no_entry A (c :: t) -> anahash A (c :: t) = Panic IndexOutOfBounds.
Proof.
  intros HA Hn. unfold anahash. cbn [anahash_loop].
  rewrite (match_alphabet_no_entry _ _ Hn), as_u8_small, character_panic by lia. done.
Qed.

Lemma hash_entry_panics A t i e :
  168 <= i <= 255 -> t <> [] -> first_entry A t i e -> anahash A t = Panic IndexOutOfBounds.
Proof.
  intros Hi Ht Hf. unfold anahash. destruct t as [|c t]; [done|]. cbn [anahash_loop].
  rewrite (match_alphabet_first _ _ _ _ Hf), as_u8_small, character_panic by lia. done.
Qed.

(** ** C05 *)
Lemma single_prefix A i j e c t :
  single_chars A -> entry_at A i j e -> e `prefix_of` (c :: t) -> e = [c].
Proof.
  intros HA (l & L1 & L2) P.
  destruct (HA l e) as [d ->]; [eapply elem_of_list_lookup_2; done..|].
  apply prefix_cons_inv_1 in P. congruence.
Qed.

Lemma line_of_first A c t i : single_chars A -> line_of A c i -> first_entry A (c :: t) i [c].
Proof.
  intros HA [(line & L & Hin) Hmin].
  destruct (match_line line [c]) as [n|] eqn:E.
  - apply match_line_Some in E as (j & e & Lj & P & Hn & Hj).
    assert (e = [c]) as -> by (eapply (single_prefix A i j); eauto; exists line; done).
    exists j. split_and!; [exists line; done|exists t; done|].
    intros i' j' e' He' P'.
    pose proof (single_prefix _ _ _ _ _ _ HA He' P') as ->.
    destruct He' as (l' & L1 & L2).
    assert (i <= i') by (eapply Hmin; [done|eapply elem_of_list_lookup_2; done]).
    destruct (decide (i = i')) as [<-|]; [|lia]. right. split; [done|].
    rewrite L in L1. injection L1 as <-. eapply Hj; [done|]. done.
  - apply elem_of_list_lookup in Hin as [j Hj]. exfalso. eapply match_line_None; eauto.
Qed.

Lemma unlisted_no_entry A c t : single_chars A -> unlisted A c -> no_entry A (c :: t).
Proof.
  intros HA Hu i j e He P. pose proof (single_prefix _ _ _ _ _ _ HA He P) as ->.
  destruct He as (l & L1 & L2). eapply (Hu l); eapply elem_of_list_lookup_2; done.
Qed.

Lemma char_cases A c : (exists i, line_of A c i) \/ unlisted A c.
Proof.
  unfold line_of, unlisted. induction A as [|line A IH].
  - right. intros line H. by apply elem_of_nil in H.
  - destruct (decide ([c] ∈ line)) as [Hin|Hin].
    + left. exists 0. split; [exists line; done|]. lia.
    + destruct IH as [[i [(l & L & Hl) Hmin]]|Hu].
      * left. exists (S i). split; [exists l; done|].
        intros [|i'] l' L' Hl'; cbn in L'; [congruence|]. apply le_n_S. eapply Hmin; done.
      * right. intros l Hl. apply elem_of_cons in Hl as [->|Hl]; auto.
Qed.

Lemma reads_cons A c t ks :
  single_chars A -> reads A t ks ->
  exists k, reads A (c :: t) (k :: ks) /\
    ((line_of A c k) \/ (unlisted A c /\ k = length A)).
Proof.
  intros HA Hr. destruct (char_cases A c) as [[i Hi]|Hu].
  - exists i. split; [|by left]. eapply (reads_entry A _ i [c] t); [done|done| |done].
    apply line_of_first; done.
  - exists (length A). split; [|by right]. apply reads_unknown; [|done].
    apply unlisted_no_entry; done.
Qed.

Lemma line_of_det A c i j : line_of A c i -> line_of A c j -> i = j.
Proof.
  intros [(l1 & H1 & H1') M1] [(l2 & H2 & H2') M2].
  specialize (M1 _ _ H2 H2'). specialize (M2 _ _ H1 H1'). lia.
Qed.

Lemma line_of_unlisted A c i : line_of A c i -> unlisted A c -> False.
Proof. intros [(l & H & H') _] Hu. eapply Hu; [|done]. eapply elem_of_list_lookup_2; done. Qed.

Lemma reads_indistinct A s c d t ks :
  alphabet_ok A -> single_chars A -> indistinct A c d ->
  reads A (s ++ c :: t) ks -> reads A (s ++ d :: t) ks.
Proof.
  intros HO HA Hcd. revert ks. induction s as [|x s IH]; intros ks Hr; cbn [app] in *.
  - destruct (reads_total A t HO) as [ks' Hr'].
    destruct (reads_cons A c t ks' HA Hr') as (k & Hc & Kc).
    destruct (reads_cons A d t ks' HA Hr') as (k' & Hd & Kd).
    rewrite (reads_det _ _ _ _ Hr Hc).
    assert (k = k') as ->; [|done].
    destruct Hcd as [(i & Hci & Hdi)|[Hcu Hdu]].
    + destruct Kc as [Kc|[Kc _]]; [|by destruct (line_of_unlisted _ _ _ Hci Kc)].
      destruct Kd as [Kd|[Kd _]]; [|by destruct (line_of_unlisted _ _ _ Hdi Kd)].
      rewrite (line_of_det _ _ _ _ Kc Hci), (line_of_det _ _ _ _ Kd Hdi). done.
    + destruct Kc as [Kc|[_ ->]]; [by destruct (line_of_unlisted _ _ _ Kc Hcu)|].
      destruct Kd as [Kd|[_ ->]]; [by destruct (line_of_unlisted _ _ _ Kd Hdu)|]. done.
  - destruct (reads_total A (s ++ c :: t) HO) as [ks' Hr'].
    destruct (reads_cons A x _ ks' HA Hr') as (k & Hc & Kc).
    rewrite (reads_det _ _ _ _ Hr Hc).
    destruct (reads_cons A x _ ks' HA (IH _ Hr')) as (k' & Hd & Kd).
    assert (k = k') as ->; [|done].
    destruct Kc as [Kc|[Kc ->]], Kd as [Kd|[Kd ->]].
    + eapply line_of_det; eauto.
    + exfalso. apply (line_of_unlisted _ _ _ Kc Kd).
    + exfalso. apply (line_of_unlisted _ _ _ Kd Kc).
    + done.
Qed.

Lemma indistinct_same A s c d t :
  alphabet_ok A -> single_chars A -> indistinct A c d ->
  anahash A (s ++ c :: t) = anahash A (s ++ d :: t) /\
  normalize_to_alphabet A (s ++ c :: t) = normalize_to_alphabet A (s ++ d :: t).
Proof.
  intros HO HA Hcd. destruct (reads_total A (s ++ c :: t) HO) as [ks Hr].
  pose proof (reads_indistinct _ _ _ _ _ _ HO HA Hcd Hr) as Hr'.
  rewrite (anahash_reads _ _ _ HO Hr), (anahash_reads _ _ _ HO Hr').
  rewrite (normalize_reads _ _ _ HO Hr), (normalize_reads _ _ _ HO Hr'). done.
Qed.

Lemma reads_total_unique A t :
  alphabet_ok A -> exists ks, reads A t ks /\ forall ks', reads A t ks' -> ks' = ks.
Proof.
  intros HA. destruct (reads_total A t HA) as [ks H]. exists ks. split; [done|].
  intros ks' H'. eapply reads_det; done.
Qed.
