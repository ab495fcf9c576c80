(** Metric laws, bags, and the longest common substring/prefix/suffix. *)
From Coq Require Import Lia.
From stdpp Require Import gmap.
From Verif Require Import M_Base M_Anahash M_Iter M_Distance S_Distance P_Base P_Align P_Distance.
From stdpp Require Import options.

(** ** Metrics *)
Lemma min_edits_zero {A} `{EqDecision A} sw (s t : list A) : min_edits sw s t 0 <-> s = t.
Proof.
  split.
  - intros [H _]. exact (edits_0_eq sw s t H).
  - intros ->. split; [constructor|lia].
Qed.
Lemma min_edits_sym {A} `{EqDecision A} sw (s t : list A) d : min_edits sw s t d -> min_edits sw t s d.
Proof. intros [H1 H2]. split; [by apply edits_sym|]. intros n H. apply H2, edits_sym, H. Qed.
Lemma min_edits_triangle {A} `{EqDecision A} sw (s t r : list A) d1 d2 d3 :
  min_edits sw s t d1 -> min_edits sw t r d2 -> min_edits sw s r d3 -> d3 <= d1 + d2.
Proof. intros [H1 _] [H2 _] [_ H3]. apply H3. eapply edits_trans; done. Qed.

Section metric.
  Context (sw : bool) (f : list nat -> list nat -> nat -> res (option nat)).
  Context (Hf : forall s t max, length s <= 255 -> length t <= 255 -> max <= 255 ->
    exists d, min_edits sw s t d /\ f s t max = Ok (if (d <=? max)%nat then Some d else None)).

  Lemma metric_value s t : length s <= 255 -> length t <= 255 ->
    exists d, f s t 255 = Ok (Some d) /\ min_edits sw s t d.
  Proof using Hf.
    intros Hs Ht. destruct (Hf s t 255 Hs Ht ltac:(lia)) as (d & Hd & E). exists d. split; [|done].
    rewrite E. pose proof (min_edits_len _ _ _ _ Hd). destruct (Nat.leb_spec d 255); [done|lia].
  Qed.

  Lemma metric_laws s t r :
    length s <= 255 -> length t <= 255 -> length r <= 255 ->
    exists d1 d2 d3, f s t 255 = Ok (Some d1) /\ f t r 255 = Ok (Some d2) /\ f s r 255 = Ok (Some d3) /\
      (d1 = 0 <-> s = t) /\ d3 <= d1 + d2 /\
      forall max, max <= 255 -> f s t max = f t s max.
  Proof using Hf.
    intros Hs Ht Hr. destruct (metric_value s t Hs Ht) as (d1 & E1 & M1).
    destruct (metric_value t r Ht Hr) as (d2 & E2 & M2). destruct (metric_value s r Hs Hr) as (d3 & E3 & M3).
    exists d1, d2, d3. split_and!; [done..| | |].
    - split; [intros ->; exact (edits_0_eq sw s t (proj1 M1))|].
      intros E. subst t. pose proof (proj2 (min_edits_zero sw s s) eq_refl) as H0.
      exact (min_edits_unique sw s s d1 0 M1 H0).
    - exact (min_edits_triangle sw s t r d1 d2 d3 M1 M2 M3).
    - intros max Hm. destruct (Hf s t max Hs Ht Hm) as (d & Hd & ->).
      destruct (Hf t s max Ht Hs Hm) as (d' & Hd' & ->).
      apply min_edits_sym in Hd'. assert (d = d') as -> by exact (min_edits_unique sw s t d d' Hd Hd'). done.
  Qed.
End metric.

(** ** Bags *)
Lemma common_sub_bag {A} `{EqDecision A} (c x y c' x' y' : list A) :
  c ++ x ≡ₚ c' ++ x' -> c ++ y ≡ₚ c' ++ y' -> (forall a, a ∈ x' -> a ∉ y') -> c ⊆+ c'.
Proof.
  revert c'. induction c as [|a c IH]; intros c' E1 E2 Hd; [apply submseteq_nil_l|].
  assert (Ha : a ∈ c').
  { assert (H1 : a ∈ c' ++ x') by (rewrite <- E1; left). assert (H2 : a ∈ c' ++ y') by (rewrite <- E2; left).
    apply elem_of_app in H1 as [?|H1]; [done|]. apply elem_of_app in H2 as [?|H2]; [done|].
    exfalso. by eapply Hd. }
  apply elem_of_Permutation in Ha as [c'' Ec]. rewrite Ec.
  apply submseteq_skip. apply IH; [| |done].
  - rewrite Ec in E1. cbn in E1. by apply Permutation_cons_inv in E1.
  - rewrite Ec in E2. cbn in E2. by apply Permutation_cons_inv in E2.
Qed.

Lemma bag_diff_le sw (s t : list nat) d n :
  min_edits sw s t d -> bag_diff s t n -> n <= 2 * d.
Proof.
  intros Hd (c' & x' & y' & Es & Et & -> & Hdis).
  apply aldist_min_edits in Hd as [Hal _]. apply al_bag in Hal as (c & x & y & Es' & Et' & Hl).
  assert (Hsub : c ⊆+ c').
  { eapply common_sub_bag; [by rewrite <- Es', <- Es|by rewrite <- Et', <- Et|done]. }
  apply submseteq_length in Hsub.
  assert (L1 : length s = length c + length x) by (rewrite Es', app_length; done).
  assert (L2 : length s = length c' + length x') by (rewrite Es, app_length; done).
  assert (L3 : length t = length c + length y) by (rewrite Et', app_length; done).
  assert (L4 : length t = length c' + length y') by (rewrite Et, app_length; done). lia.
Qed.

Lemma bag_diff_exists {A} `{EqDecision A} (s t : list A) : exists n, bag_diff s t n.
Proof.
  revert t. induction s as [|a s IH]; intros t.
  - exists (length t), [], [], t. cbn. split_and!; [done..|]. intros b Hb. by apply elem_of_nil in Hb.
  - destruct (decide (a ∈ t)) as [Ha|Ha].
    + apply elem_of_Permutation in Ha as [t' Et]. destruct (IH t') as (n & c & x & y & E1 & E2 & -> & Hd).
      exists (length x + length y), (a :: c), x, y. split_and!; [by rewrite E1|by rewrite Et, E2|done|done].
    + destruct (IH t) as (n & c & x & y & E1 & E2 & -> & Hd).
      exists (length (a :: x) + length y), c, (a :: x), y.
      split_and!; [rewrite E1; apply Permutation_middle|done|done|].
      intros b Hb. apply elem_of_cons in Hb as [->|Hb]; [|auto].
      intros Hy. apply Ha. rewrite E2. apply elem_of_app. auto.
Qed.

(** ** Common prefixes *)
Fixpoint cpl (s t : list nat) : nat :=
  match s, t with
  | a :: s, b :: t => if (a =? b)%nat then S (cpl s t) else 0
  | _, _ => 0
  end.

Lemma cpl_le s t : cpl s t <= length s /\ cpl s t <= length t.
Proof.
  revert t. induction s as [|a s IH]; intros [|b t]; cbn; try lia.
  destruct (a =? b)%nat; [|lia]. specialize (IH t). lia.
Qed.
Lemma cpl_common s t : take (cpl s t) s `prefix_of` s /\ take (cpl s t) s `prefix_of` t.
Proof.
  revert t. induction s as [|a s IH]; intros [|b t]; cbn; try (split; apply prefix_nil).
  destruct (Nat.eqb_spec a b) as [->|]; cbn; [|split; apply prefix_nil].
  destruct (IH t). split; by apply prefix_cons.
Qed.
Lemma cpl_max w s t : w `prefix_of` s -> w `prefix_of` t -> length w <= cpl s t.
Proof.
  revert s t. induction w as [|a w IH]; intros s t Hs Ht; cbn; [lia|].
  destruct s as [|b s]; [by apply prefix_nil_not in Hs|]. destruct t as [|c t]; [by apply prefix_nil_not in Ht|].
  apply prefix_cons_inv_1 in Hs as Eb. apply prefix_cons_inv_2 in Hs.
  apply prefix_cons_inv_1 in Ht as Ec. apply prefix_cons_inv_2 in Ht. subst. cbn.
  rewrite Nat.eqb_refl. specialize (IH s t Hs Ht). lia.
Qed.

Lemma u16_succ_ok n : (N.of_nat n + 1 < 65536)%N -> u16_succ (N.of_nat n) = Ok (N.of_nat (S n)).
Proof.
  intros H. unfold u16_succ. destruct (N.ltb_spec (N.of_nat n) 65535); [|lia]. f_equal. lia.
Qed.

Lemma drop_cons {A} (l : list A) i x : l !! i = Some x -> drop i l = x :: drop (S i) l.
Proof. intros H. by apply drop_S. Qed.

Lemma prefix_loop_ok s t acc i len :
  i + len = Nat.min (length s) (length t) ->
  (N.of_nat (acc + cpl (drop i s) (drop i t)) < 65536)%N ->
  prefix_loop s t (N.of_nat acc) (seq i len) = Ok (N.of_nat (acc + cpl (drop i s) (drop i t))).
Proof.
  revert acc i. induction len as [|len IH]; intros acc i Hi Hb; cbn.
  - assert (cpl (drop i s) (drop i t) = 0) as ->; [|by rewrite Nat.add_0_r].
    pose proof (cpl_le (drop i s) (drop i t)) as H. rewrite !drop_length in H. lia.
  - destruct (lookup_lt_is_Some_2 s i ltac:(lia)) as [x Hx].
    destruct (lookup_lt_is_Some_2 t i ltac:(lia)) as [y Hy].
    rewrite (rindex_ok _ _ _ Hx). cbn. rewrite (rindex_ok _ _ _ Hy). cbn.
    rewrite (drop_cons _ _ _ Hx), (drop_cons _ _ _ Hy) in *. cbn in *.
    destruct (x =? y)%nat; [|by rewrite Nat.add_0_r].
    rewrite u16_succ_ok by lia. cbn. rewrite IH; [f_equal; lia|lia|lia].
Qed.

Lemma common_prefix_cpl s t :
  (N.of_nat (Nat.min (length s) (length t)) < 65536)%N ->
  common_prefix_length s t = Ok (N.of_nat (cpl s t)).
Proof.
  intros H. unfold common_prefix_length. change 0%N with (N.of_nat 0).
  pose proof (cpl_le s t). rewrite prefix_loop_ok; rewrite ?drop_0; [done|lia|lia].
Qed.

Lemma suffix_loop_eq s t acc i len :
  i + len <= Nat.min (length s) (length t) ->
  suffix_loop s t acc (seq i len) = prefix_loop (reverse s) (reverse t) acc (seq i len).
Proof.
  revert acc i. induction len as [|len IH]; intros acc i Hi; cbn; [done|].
  rewrite (usub_ok (length s) i), (usub_ok (length t) i) by lia. cbn.
  rewrite (usub_ok (length s - i) 1), (usub_ok (length t - i) 1) by lia. cbn.
  destruct (lookup_lt_is_Some_2 s (length s - i - 1) ltac:(lia)) as [x Hx].
  destruct (lookup_lt_is_Some_2 t (length t - i - 1) ltac:(lia)) as [y Hy].
  rewrite (rindex_ok _ _ _ Hx), (rindex_ok _ _ _ Hy). cbn.
  rewrite (rindex_ok (reverse s) i x), (rindex_ok (reverse t) i y).
  - cbn. destruct (x =? y)%nat; [|done]. destruct (u16_succ acc); cbn; [|done]. apply IH. lia.
  - rewrite reverse_lookup by lia. rewrite <- Hy. f_equal. lia.
  - rewrite reverse_lookup by lia. rewrite <- Hx. f_equal. lia.
Qed.

Lemma common_suffix_cpl s t :
  (N.of_nat (Nat.min (length s) (length t)) < 65536)%N ->
  common_suffix_length s t = Ok (N.of_nat (cpl (reverse s) (reverse t))).
Proof.
  intros H. unfold common_suffix_length. rewrite suffix_loop_eq by lia.
  rewrite <- common_prefix_cpl by (rewrite !reverse_length; done).
  unfold common_prefix_length. rewrite !reverse_length. done.
Qed.

Lemma common_prefix_spec s t :
  (N.of_nat (Nat.min (length s) (length t)) < 65536)%N ->
  exists w, common_prefix_length s t = Ok (N.of_nat (length w)) /\
    w `prefix_of` s /\ w `prefix_of` t /\
    forall w', w' `prefix_of` s -> w' `prefix_of` t -> length w' <= length w.
Proof.
  intros H. exists (take (cpl s t) s). rewrite common_prefix_cpl by done.
  rewrite take_length. pose proof (cpl_le s t). rewrite Nat.min_l by lia.
  split_and!; [done|exact (proj1 (cpl_common s t))|exact (proj2 (cpl_common s t))|].
  intros w' H1 H2. by apply cpl_max.
Qed.

Lemma suffix_rev {A} (w s : list A) : w `suffix_of` s <-> reverse w `prefix_of` reverse s.
Proof.
  split.
  - intros [k ->]. exists (reverse k). by rewrite reverse_app.
  - intros [k E]. exists (reverse k). apply (f_equal reverse) in E.
    rewrite reverse_involutive, reverse_app, reverse_involutive in E. done.
Qed.

Lemma common_suffix_spec s t :
  (N.of_nat (Nat.min (length s) (length t)) < 65536)%N ->
  exists w, common_suffix_length s t = Ok (N.of_nat (length w)) /\
    w `suffix_of` s /\ w `suffix_of` t /\
    forall w', w' `suffix_of` s -> w' `suffix_of` t -> length w' <= length w.
Proof.
  intros H. rewrite common_suffix_cpl by done.
  exists (reverse (take (cpl (reverse s) (reverse t)) (reverse s))).
  rewrite reverse_length, take_length. pose proof (cpl_le (reverse s) (reverse t)). rewrite Nat.min_l by lia.
  split_and!; [done|..].
  - apply suffix_rev. rewrite reverse_involutive. apply cpl_common.
  - apply suffix_rev. rewrite reverse_involutive. apply cpl_common.
  - intros w' H1 H2. apply suffix_rev in H1, H2. rewrite <- (reverse_length w'). by apply cpl_max.
Qed.

(** ** Longest common substring *)
Lemma lcs_extend_ok fuel s t acc i j :
  0 < fuel -> length s < fuel + i -> (N.of_nat (acc + cpl (drop i s) (drop j t)) < 65536)%N ->
  lcs_extend fuel s t (N.of_nat acc) i j = Ok (N.of_nat (acc + cpl (drop i s) (drop j t))).
Proof.
  revert acc i j. induction fuel as [|fuel IH]; intros acc i j H0 Hf Hb; [lia|]. cbn [lcs_extend].
  destruct (Nat.ltb_spec i (length s)) as [Hi|Hi]; cbn [andb].
  2:{ rewrite (drop_ge s) by lia. cbn. by rewrite Nat.add_0_r. }
  destruct (Nat.ltb_spec j (length t)) as [Hj|Hj]; cbn [andb].
  2:{ rewrite (drop_ge t) by lia. assert (cpl (drop i s) [] = 0) as -> by (destruct (drop i s); done). by rewrite Nat.add_0_r. }
  destruct (lookup_lt_is_Some_2 s i Hi) as [x Hx]. destruct (lookup_lt_is_Some_2 t j Hj) as [y Hy].
  rewrite (rindex_ok _ _ _ Hx), (rindex_ok _ _ _ Hy). cbn.
  rewrite (drop_cons _ _ _ Hx), (drop_cons _ _ _ Hy) in *. cbn in *.
  destruct (x =? y)%nat; [|by rewrite Nat.add_0_r].
  rewrite u16_succ_ok by lia. cbn. rewrite !Nat.add_1_r. rewrite IH; [f_equal; lia|lia|lia|lia].
Qed.

Definition lcs_inv (s t : list nat) (done_ : nat -> nat -> Prop) (v : N) : Prop :=
  exists n, v = N.of_nat n /\
    (n = 0 \/ exists i j, i < length s /\ j < length t /\ n = cpl (drop i s) (drop j t)) /\
    (forall i j, i < length s -> j < length t -> done_ i j -> cpl (drop i s) (drop j t) <= n).

Lemma lcs_ok s t :
  (N.of_nat (Nat.min (length s) (length t)) < 65536)%N ->
  exists v, lcs_length s t = Ok v /\ lcs_inv s t (fun _ _ => True) v.
Proof.
  intros Hb. unfold lcs_length.
  destruct (rfoldl_seq (fun i v => lcs_inv s t (fun i' _ => i' < i) v)
    (fun lcs i => rfoldl (fun lcs j =>
      let* x := rindex s i in
      let* y := rindex t j in
      if (x =? y)%nat then
        let* tmp_lcs := lcs_extend (S (length s)) s t 1%N (i + 1) (j + 1) in
        Ok (if (lcs <? tmp_lcs)%N then tmp_lcs else lcs)
      else Ok lcs) lcs (seq 0 (length t))) 0 (length s) 0%N) as (v & E & n & -> & H1 & H2).
  - exists 0. split_and!; [done|auto|lia].
  - intros i v Hi Hv.
    destruct (rfoldl_seq (fun j v => lcs_inv s t (fun i' j' => i' < i \/ (i' = i /\ j' < j)) v)
      (fun lcs j =>
      let* x := rindex s i in
      let* y := rindex t j in
      if (x =? y)%nat then
        let* tmp_lcs := lcs_extend (S (length s)) s t 1%N (i + 1) (j + 1) in
        Ok (if (lcs <? tmp_lcs)%N then tmp_lcs else lcs)
      else Ok lcs) 0 (length t) v) as (v' & E & Hv').
    + destruct Hv as (n & -> & H1 & H2). exists n. split_and!; [done..|]. intros i' j' Hi' Hj' Hd. apply H2; lia.
    + intros j w Hj (n & -> & H1 & H2).
      destruct (lookup_lt_is_Some_2 s i ltac:(lia)) as [x Hx]. destruct (lookup_lt_is_Some_2 t j ltac:(lia)) as [y Hy].
      rewrite (rindex_ok _ _ _ Hx), (rindex_ok _ _ _ Hy). cbn [rbind].
      pose proof (cpl_le (drop i s) (drop j t)) as Hcl. rewrite !drop_length in Hcl.
      assert (Hstep : forall m, (m = 0 \/ exists i j, i < length s /\ j < length t /\ m = cpl (drop i s) (drop j t)) ->
         n <= m -> cpl (drop i s) (drop j t) <= m ->
         lcs_inv s t (fun i' j' => i' < i \/ i' = i /\ j' < S j) (N.of_nat m)).
      { intros m Hm Hnm Hcm. exists m. split_and!; [done|done|]. intros i' j' Hi' Hj' Hd.
        destruct (decide (i' = i /\ j' = j)) as [[-> ->]|Hne]; [done|].
        etrans; [apply H2; [done|done|lia]|done]. }
      destruct (Nat.eqb_spec x y) as [->|Hxy].
      * assert (Hc : cpl (drop i s) (drop j t) = 1 + cpl (drop (i + 1) s) (drop (j + 1) t)).
        { rewrite (drop_cons _ _ _ Hx), (drop_cons _ _ _ Hy). cbn. rewrite Nat.eqb_refl, !Nat.add_1_r. done. }
        change 1%N with (N.of_nat 1). rewrite lcs_extend_ok by lia. cbn [rbind]. rewrite <- Hc.
        destruct (N.ltb_spec (N.of_nat n) (N.of_nat (cpl (drop i s) (drop j t)))).
        -- eexists. split; [reflexivity|]. apply Hstep; [|lia|lia]. right. exists i, j. lia.
        -- eexists. split; [reflexivity|]. apply Hstep; [done|lia|lia].
      * eexists. split; [reflexivity|]. apply Hstep; [done|lia|].
        rewrite (drop_cons _ _ _ Hx), (drop_cons _ _ _ Hy). cbn. destruct (Nat.eqb_spec x y); [done|lia].
    + exists v'. split; [exact E|]. destruct Hv' as (n & -> & H1 & H2). exists n. split_and!; [done..|].
      intros i' j' Hi' Hj' Hd. apply H2; lia.
  - exists (N.of_nat n). split; [exact E|]. exists n. split_and!; [done..|]. intros i j Hi Hj _. apply H2; lia.
Qed.

Lemma lcs_spec s t :
  (N.of_nat (Nat.min (length s) (length t)) < 65536)%N ->
  exists w, lcs_length s t = Ok (N.of_nat (length w)) /\
    substring w s /\ substring w t /\
    forall w', substring w' s -> substring w' t -> length w' <= length w.
Proof.
  intros Hb. destruct (lcs_ok s t Hb) as (v & E & n & -> & H1 & H2).
  assert (Hmax : forall w', substring w' s -> substring w' t -> length w' <= n).
  { intros w' (p & q & Es) (p' & q' & Et). destruct w' as [|a w']; [cbn; lia|].
    etrans; [|apply (H2 (length p) (length p'))].
    - subst. rewrite !drop_app. apply cpl_max; by eexists.
    - subst. rewrite app_length. cbn. lia.
    - subst. rewrite app_length. cbn. lia.
    - done. }
  destruct H1 as [->|(i & j & Hi & Hj & ->)].
  - exists []. split_and!; [done|by exists [], s|by exists [], t|done].
  - exists (take (cpl (drop i s) (drop j t)) (drop i s)).
    pose proof (cpl_le (drop i s) (drop j t)) as Hl. rewrite take_length, Nat.min_l by lia.
    destruct (cpl_common (drop i s) (drop j t)) as [[q Hq] [q' Hq']].
    split_and!; [done| | |done].
    + exists (take i s), q. rewrite <- Hq. by rewrite take_drop.
    + exists (take j t), q'. rewrite <- Hq'. by rewrite take_drop.
Qed.

Lemma cpl_sym s t : cpl s t = cpl t s.
Proof.
  revert t. induction s as [|a s IH]; intros [|b t]; cbn; try done.
  rewrite (Nat.eqb_sym b a), IH. done.
Qed.

Lemma lengths_sym s t :
  (N.of_nat (Nat.min (length s) (length t)) < 65536)%N ->
  lcs_length s t = lcs_length t s /\ common_prefix_length s t = common_prefix_length t s /\
  common_suffix_length s t = common_suffix_length t s.
Proof.
  intros H. assert (H' : (N.of_nat (Nat.min (length t) (length s)) < 65536)%N) by lia. split_and!.
  - destruct (lcs_spec s t H) as (w & -> & H1 & H2 & H3). destruct (lcs_spec t s H') as (w' & -> & H4 & H5 & H6).
    pose proof (H3 _ H5 H4). pose proof (H6 _ H2 H1). do 2 f_equal. lia.
  - rewrite !common_prefix_cpl by done. by rewrite cpl_sym.
  - rewrite !common_suffix_cpl by done. by rewrite cpl_sym.
Qed.

Lemma damerau_bag s t max d n :
  length s <= 255 -> max <= 255 ->
  damerau_levenshtein s t max = Ok (Some d) -> bag_diff s t n -> n <= 2 * d.
Proof.
  intros Hs Hm E Hb. destruct (damerau_spec s t max Hs Hm) as (d' & Hd & E').
  rewrite E in E'. destruct (d' <=? max)%nat; [|done]. injection E' as ->. by eapply bag_diff_le.
Qed.
