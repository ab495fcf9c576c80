(** Number theory behind the anagram hash: products of primes from the table
    determine the bag of factors. *)
From Coq Require Import ZArith Znumtheory Lia.
From Verif Require Import M_Base M_Anahash S_Anahash.
From stdpp Require Import options.

(** boolean primality, by trial division *)
Definition no_divisor_below (p : N) : bool :=
  forallb (fun d => negb (p mod (N.of_nat d) =? 0)%N) (seq 2 (N.to_nat p - 2)).
Definition is_prime_b (p : N) : bool := (2 <=? p)%N && no_divisor_below p.

Lemma is_prime_b_spec p : is_prime_b p = true -> prime (Z.of_N p).
Proof.
  unfold is_prime_b, no_divisor_below. rewrite andb_true_iff, N.leb_le, forallb_forall.
  intros [H2 H]. apply prime_alt. split; [lia|].
  intros n Hn [q Hq].
  specialize (H (Z.to_nat n)). rewrite in_seq in H.
  assert (Hm : negb (p mod N.of_nat (Z.to_nat n) =? 0)%N = true) by (apply H; lia).
  apply negb_true_iff, N.eqb_neq in Hm. apply Hm.
  replace (N.of_nat (Z.to_nat n)) with (Z.to_N n) by lia.
  apply N.mod_divide; [lia|]. exists (Z.to_N q).
  nia.
Qed.

Lemma PRIMES_all_prime : forallb is_prime_b PRIMES = true.
Proof. vm_compute. reflexivity. Qed.

Lemma PRIMES_length : length PRIMES = 168.
Proof. reflexivity. Qed.

Fixpoint nodup_b (l : list N) : bool :=
  match l with
  | [] => true
  | x :: l' => negb (existsb (N.eqb x) l') && nodup_b l'
  end.
Lemma nodup_b_spec l : nodup_b l = true -> NoDup l.
Proof.
  induction l as [|x l IH]; cbn; [constructor|].
  rewrite andb_true_iff, negb_true_iff. intros [Hx Hl]. constructor; [|auto].
  intros Hin. apply elem_of_list_In in Hin.
  assert (existsb (N.eqb x) l = true); [|congruence].
  apply existsb_exists. exists x. split; [done|]. apply N.eqb_refl.
Qed.
Lemma PRIMES_NoDup : NoDup PRIMES.
Proof. apply nodup_b_spec. vm_compute. reflexivity. Qed.

(** the [k]-th prime, total *)
Definition prime_at (k : nat) : N := nth k PRIMES 0%N.
Global Arguments prime_at : simpl never.

Lemma prime_at_lookup k : k < 168 -> PRIMES !! k = Some (prime_at k).
Proof.
  intros Hk. unfold prime_at.
  destruct (PRIMES !! k) as [p|] eqn:E.
  - f_equal. symmetry. apply nth_lookup_Some. done.
  - apply lookup_ge_None in E. rewrite PRIMES_length in E. lia.
Qed.

Lemma prime_at_prime k : k < 168 -> prime (Z.of_N (prime_at k)).
Proof.
  intros Hk. apply is_prime_b_spec.
  pose proof PRIMES_all_prime as H. rewrite forallb_forall in H. apply H.
  apply elem_of_list_In. eapply elem_of_list_lookup_2. apply prime_at_lookup; done.
Qed.

Lemma prime_at_ge2 k : k < 168 -> (2 <= prime_at k)%N.
Proof. intros Hk. pose proof (prime_ge_2 _ (prime_at_prime k Hk)). lia. Qed.

Lemma prime_at_inj j k : j < 168 -> k < 168 -> prime_at j = prime_at k -> j = k.
Proof.
  intros Hj Hk E. eapply (NoDup_lookup PRIMES); [apply PRIMES_NoDup| |].
  - apply prime_at_lookup; done.
  - rewrite E. apply prime_at_lookup; done.
Qed.

Lemma character_ok k : k < 168 -> character k = Ok (prime_at k).
Proof.
  intros Hk. unfold character, rindex.
  rewrite (nth_error_nth' PRIMES 0%N); [done|]. rewrite PRIMES_length. done.
Qed.
Lemma character_panic k : 168 <= k -> character k = Panic IndexOutOfBounds.
Proof.
  intros Hk. unfold character, rindex.
  assert (nth_error PRIMES k = None) as ->; [|done].
  apply nth_error_None. rewrite PRIMES_length. done.
Qed.

(** product of the primes of a bag *)
Fixpoint prod (ks : list nat) : N :=
  match ks with [] => 1%N | k :: ks' => (prime_at k * prod ks')%N end.

Lemma prod_app a b : prod (a ++ b) = (prod a * prod b)%N.
Proof. induction a as [|x a IH]; cbn; [lia|]. rewrite IH. ring. Qed.

Lemma prod_perm a b : a ≡ₚ b -> prod a = prod b.
Proof. induction 1 as [|x l l' _ IH|x y l|l l' l'' _ IH1 _ IH2]; cbn; [done|by rewrite IH|ring|congruence]. Qed.

Notation below168 := (Forall (fun k => k < 168)).

Lemma prod_pos ks : below168 ks -> (0 < prod ks)%N.
Proof.
  induction 1 as [|k ks Hk _ IH]; cbn; [lia|].
  pose proof (prime_at_ge2 k Hk). nia.
Qed.

Lemma N_Z_divide a b : N.divide a b <-> Z.divide (Z.of_N a) (Z.of_N b).
Proof.
  split.
  - intros [q ->]. exists (Z.of_N q). rewrite N2Z.inj_mul. done.
  - intros [q Hq]. destruct (N.eq_dec b 0) as [->|Hb]; [exists 0%N; lia|].
    exists (Z.to_N q). nia.
Qed.

Lemma prime_divides_prod k ks :
  k < 168 -> below168 ks -> N.divide (prime_at k) (prod ks) -> k ∈ ks.
Proof.
  intros Hk. induction 1 as [|x ks Hx _ IH]; cbn; intros Hd.
  - apply N.divide_1_r in Hd. pose proof (prime_at_ge2 k Hk). lia.
  - apply N_Z_divide in Hd. rewrite N2Z.inj_mul in Hd.
    apply prime_mult in Hd; [|apply prime_at_prime; done].
    destruct Hd as [Hd|Hd].
    + apply prime_div_prime in Hd; try (apply prime_at_prime; done).
      apply N2Z.inj, prime_at_inj in Hd; [|done..]. subst. left.
    + right. apply IH. apply N_Z_divide. done.
Qed.

Lemma prod_divide a b :
  below168 a -> below168 b -> N.divide (prod b) (prod a) <-> b ⊆+ a.
Proof.
  intros Ha Hb. split.
  - revert a Ha. induction Hb as [|x b Hx Hb IH]; intros a Ha Hd.
    + apply submseteq_nil_l.
    + cbn in Hd.
      assert (Hin : x ∈ a).
      { apply prime_divides_prod; try done. destruct Hd as [q Hq].
        exists (q * prod b)%N. rewrite Hq. ring. }
      apply elem_of_Permutation in Hin as [a' Ea].
      rewrite Ea. apply submseteq_skip. apply IH.
      * rewrite Ea in Ha. inversion Ha; done.
      * rewrite (prod_perm _ _ Ea) in Hd. cbn in Hd.
        destruct Hd as [q Hq]. exists q.
        pose proof (prime_at_ge2 x Hx). nia.
  - intros Hs. apply submseteq_Permutation in Hs as [c Ec].
    rewrite (prod_perm _ _ Ec), prod_app. exists (prod c). ring.
Qed.

Lemma prod_inj a b : below168 a -> below168 b -> prod a = prod b -> a ≡ₚ b.
Proof.
  intros Ha Hb E.
  assert (H1 : a ⊆+ b). { apply prod_divide; try done. rewrite E. exists 1%N. lia. }
  assert (H2 : b ⊆+ a). { apply prod_divide; try done. rewrite E. exists 1%N. lia. }
  apply (anti_symm _); done.
Qed.

Lemma prod_length_le ks : below168 ks -> (2 ^ N.of_nat (length ks) <= prod ks)%N.
Proof.
  induction 1 as [|k ks Hk _ IH]; [cbn; lia|].
  cbn [length prod]. rewrite Nat2N.inj_succ, N.pow_succ_r'.
  pose proof (prime_at_ge2 k Hk). nia.
Qed.

(** The operations on hashes in terms of products. *)
Lemma ana_insert_pos h c : (0 < h)%N -> ana_insert h c = (h * c)%N.
Proof. intros Hh. unfold ana_insert. destruct (N.eqb_spec h 0); [lia|done]. Qed.

Lemma ana_contains_spec h v :
  (0 < h)%N -> (0 < v)%N -> ana_contains h v = true <-> N.divide v h.
Proof.
  intros Hh Hv. unfold ana_contains.
  destruct (N.ltb_spec h v).
  - split; [done|]. intros Hd. apply N.divide_pos_le in Hd; lia.
  - rewrite N.eqb_eq, N.mod_divide by lia. done.
Qed.

Lemma bag_hash_ok ks : below168 ks -> bag_hash ks = Ok (prod ks).
Proof.
  unfold bag_hash.
  assert (G : forall h, (0 < h)%N -> below168 ks ->
    rfoldl (fun h k => let* c := character k in Ok (ana_insert h c)) h ks = Ok (h * prod ks)%N).
  { induction ks as [|k ks IH]; intros h Hh Hks; cbn; [f_equal; lia|].
    inversion Hks as [|? ? Hk Hks']; subst.
    rewrite character_ok by done. cbn. rewrite ana_insert_pos by done.
    pose proof (prime_at_ge2 k Hk).
    rewrite IH by (nia || done). f_equal. ring. }
  intros H. unfold ana_empty. rewrite G by (lia || done). f_equal. lia.
Qed.
