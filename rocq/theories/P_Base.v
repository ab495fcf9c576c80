(** Loop rules for the error monad. *)
From Coq Require Import Lia.
From Verif Require Import M_Base M_Distance.
From stdpp Require Import options.

Lemma rfoldl_app {A B} (f : B -> A -> res B) acc l l' :
  rfoldl f acc (l ++ l') = (let* acc := rfoldl f acc l in rfoldl f acc l').
Proof.
  revert acc. induction l as [|x l IH]; intros acc; cbn; [done|].
  destruct (f acc x); cbn; [apply IH|done].
Qed.

(** loop rule over the indices [a..a+n) *)
Lemma rfoldl_seq {B} (P : nat -> B -> Prop) (f : B -> nat -> res B) a n acc :
  P a acc ->
  (forall i acc, a <= i < a + n -> P i acc -> exists acc', f acc i = Ok acc' /\ P (S i) acc') ->
  exists acc', rfoldl f acc (seq a n) = Ok acc' /\ P (a + n) acc'.
Proof.
  revert a acc. induction n as [|n IH]; intros a acc HP Hs; cbn.
  - exists acc. split; [done|]. by rewrite Nat.add_0_r.
  - destruct (Hs a acc ltac:(lia) HP) as (acc1 & E & HP1). rewrite E. cbn.
    destruct (IH (S a) acc1 HP1) as (acc2 & E2 & HP2).
    + intros i acc0 Hi. apply Hs. lia.
    + exists acc2. split; [done|]. by rewrite Nat.add_succ_r.
Qed.

(** loop rule over a list *)
Lemma rfoldl_list {A B} (P : nat -> B -> Prop) (f : B -> A -> res B) l acc :
  P 0 acc ->
  (forall i x acc, l !! i = Some x -> P i acc -> exists acc', f acc x = Ok acc' /\ P (S i) acc') ->
  exists acc', rfoldl f acc l = Ok acc' /\ P (length l) acc'.
Proof.
  revert P acc. induction l as [|x l IH]; intros P acc HP Hs; cbn.
  - exists acc. done.
  - destruct (Hs 0 x acc eq_refl HP) as (acc1 & E & HP1). rewrite E. cbn.
    apply (IH (fun n => P (S n)) acc1 HP1).
    intros i y acc0 Hy. apply (Hs (S i)). done.
Qed.

Lemma enumerate_lookup {A} (l : list A) i p :
  enumerate l !! i = Some p -> p.1 = i /\ l !! i = Some (p.2).
Proof.
  unfold enumerate. intros H. apply lookup_zip_with_Some in H as (x & y & -> & H1 & H2).
  apply lookup_seq in H1 as [-> _]. done.
Qed.
Lemma enumerate_length {A} (l : list A) : length (enumerate l) = length l.
Proof. unfold enumerate. rewrite zip_with_length, seq_length. lia. Qed.

Lemma rfoldl_enum {A B} (P : nat -> B -> Prop) (f : B -> nat * A -> res B) l acc :
  P 0 acc ->
  (forall i x acc, l !! i = Some x -> P i acc -> exists acc', f acc (i, x) = Ok acc' /\ P (S i) acc') ->
  exists acc', rfoldl f acc (enumerate l) = Ok acc' /\ P (length l) acc'.
Proof.
  intros HP Hs. rewrite <- (enumerate_length l). apply rfoldl_list; [done|].
  intros i [j x] acc0 H. apply enumerate_lookup in H as [H1 H2]. cbn in *. subst. by apply Hs.
Qed.

Lemma rindex_ok {A} (l : list A) i x : l !! i = Some x -> rindex l i = Ok x.
Proof.
  intros H. unfold rindex. assert (nth_error l i = Some x) as ->; [|done].
  revert l H. induction i as [|i IH]; intros [|y l] H; try done. cbn in *. by apply IH.
Qed.
Lemma rindex_inv {A} (l : list A) i x : rindex l i = Ok x -> l !! i = Some x.
Proof.
  unfold rindex. destruct (nth_error l i) as [y|] eqn:E; [|done]. intros [= <-].
  revert l E. induction i as [|i IH]; intros [|z l] H; try done. cbn in *. by apply IH.
Qed.
Lemma rindex_panic {A} (l : list A) i : l !! i = None -> rindex l i = Panic IndexOutOfBounds.
Proof.
  intros H. unfold rindex. assert (nth_error l i = None) as ->; [|done].
  revert l H. induction i as [|i IH]; intros [|y l] H; try done. cbn in *. by apply IH.
Qed.
Lemma rset_ok {A} (l : list A) i v : i < length l -> rset l i v = Ok (<[i := v]> l).
Proof. intros H. unfold rset. destruct (Nat.ltb_spec i (length l)); [done|lia]. Qed.
Lemma usub_ok a b : b <= a -> usub a b = Ok (a - b).
Proof. intros H. unfold usub. destruct (Nat.leb_spec b a); [done|lia]. Qed.

Lemma rbind_ok {A B} (x : res A) (f : A -> res B) b :
  rbind x f = Ok b <-> exists a, x = Ok a /\ f a = Ok b.
Proof.
  split.
  - destruct x as [a|]; [|done]. cbn. eauto.
  - intros (a & -> & H). done.
Qed.
