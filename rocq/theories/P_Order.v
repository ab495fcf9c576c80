(** The order of floating-point numbers, without assumptions on their form. *)
From Verif Require Import M_Base M_Float.
From stdpp Require Import options.

Definition fkey (x : spec_float) : Z * Z * Z :=
  match x with
  | S754_nan => (0, 0, 0)
  | S754_infinity true => (1, 0, 0)
  | S754_finite true m e => (2, -e, Zneg m)
  | S754_zero _ => (3, 0, 0)
  | S754_finite false m e => (4, e, Zpos m)
  | S754_infinity false => (5, 0, 0)
  end%Z.
Definition klt (a b : Z * Z * Z) : Prop :=
  (a.1.1 < b.1.1 \/ a.1.1 = b.1.1 /\ (a.1.2 < b.1.2 \/ a.1.2 = b.1.2 /\ a.2 < b.2))%Z.

Lemma compare_key x y : fis_nan x = false -> fis_nan y = false ->
  (SFcompare x y = Some Eq /\ fkey x = fkey y) \/ (SFcompare x y = Some Lt /\ klt (fkey x) (fkey y)) \/
  (SFcompare x y = Some Gt /\ klt (fkey y) (fkey x)).
Proof.
  destruct x as [[]|[]| |[] mx ex], y as [[]|[]| |[] my ey]; intros Hx Hy; try discriminate; cbn [SFcompare fkey];
    unfold klt; cbn [fst snd];
    try (left; split; [reflexivity|reflexivity]); try (right; left; split; [reflexivity|lia]); try (right; right; split; [reflexivity|lia]).
  - destruct (Z.compare_spec ex ey) as [->|L|L]; [|right; right; split; [done|lia]|right; left; split; [done|lia]].
    change (Pos.compare_cont Eq mx my) with (Pos.compare mx my).
    destruct (Pos.compare_spec mx my) as [->|L|L]; cbn [CompOpp]; [left; done|right; right; split; [done|lia]|right; left; split; [done|lia]].
  - destruct (Z.compare_spec ex ey) as [->|L|L]; [|right; left; split; [done|lia]|right; right; split; [done|lia]].
    change (Pos.compare_cont Eq mx my) with (Pos.compare mx my).
    destruct (Pos.compare_spec mx my) as [->|L|L]; [left; done|right; left; split; [done|lia]|right; right; split; [done|lia]].
Qed.
Lemma klt_irrefl a : ~ klt a a. Proof. unfold klt. lia. Qed.
Lemma klt_trans a b c : klt a b -> klt b c -> klt a c. Proof. unfold klt. lia. Qed.
Lemma nan_not_flt x y : fis_nan x = true \/ fis_nan y = true -> flt x y = false.
Proof. destruct x as [[]|[]| |[]], y as [[]|[]| |[]]; intros [?|?]; try discriminate; reflexivity. Qed.
Lemma flt_key x y : flt x y = true <-> fis_nan x = false /\ fis_nan y = false /\ klt (fkey x) (fkey y).
Proof.
  destruct (fis_nan x) eqn:Nx; [rewrite nan_not_flt by auto; split; [done|by intros (? & _)]|].
  destruct (fis_nan y) eqn:Ny; [rewrite nan_not_flt by auto; split; [done|by intros (_ & ? & _)]|].
  unfold flt, SFltb. destruct (compare_key x y Nx Ny) as [[-> E]|[[-> L]|[-> L]]].
  - split; [done|]. intros (_ & _ & H). rewrite E in H. by destruct (klt_irrefl _ H).
  - done.
  - split; [done|]. intros (_ & _ & H). by destruct (klt_irrefl _ (klt_trans _ _ _ H L)).
Qed.
Lemma fle_key x y : fis_nan x = false -> fis_nan y = false -> fle x y = true <-> ~ klt (fkey y) (fkey x).
Proof.
  intros Nx Ny. unfold fle, SFleb. destruct (compare_key x y Nx Ny) as [[-> E]|[[-> L]|[-> L]]].
  - rewrite E. split; [intros _; apply klt_irrefl|done].
  - split; [|done]. intros _ H. by destruct (klt_irrefl _ (klt_trans _ _ _ H L)).
  - split; [done|]. intros H. by destruct H.
Qed.
Lemma fle_flt x y : fis_nan x = false -> fis_nan y = false -> fle x y = true <-> flt y x = false.
Proof. intros Nx Ny. rewrite (fle_key x y Nx Ny), <- not_true_iff_false, flt_key. tauto. Qed.
Lemma flt_trans x y z : flt x y = true -> flt y z = true -> flt x z = true.
Proof. rewrite !flt_key. intros (? & _ & H1) (_ & ? & H2). split; [done|]. split; [done|]. by eapply klt_trans. Qed.
Lemma nlt_trans x y z : fis_nan y = false -> flt y x = false -> flt z y = false -> flt z x = false.
Proof.
  intros Ny H1 H2. apply not_true_iff_false. intros H. apply flt_key in H as (Nz & Nx & H).
  rewrite <- not_true_iff_false, flt_key in H1, H2.
  assert (~ klt (fkey y) (fkey x)) as K1 by tauto. assert (~ klt (fkey z) (fkey y)) as K2 by tauto. clear H1 H2. unfold klt in *. lia.
Qed.
Lemma nlt_lt_trans x y z : fis_nan x = false -> flt y x = false -> flt y z = true -> flt x z = true.
Proof.
  intros Nx H1 H2. apply flt_key in H2 as (Ny & Nz & H2). apply flt_key. split; [done|]. split; [done|].
  rewrite <- not_true_iff_false, flt_key in H1.
  assert (~ klt (fkey y) (fkey x)) as K1 by tauto. clear H1. unfold klt in *. lia.
Qed.
Lemma flt_irrefl x : flt x x = false.
Proof. apply not_true_iff_false. rewrite flt_key. intros (_ & _ & H). by destruct (klt_irrefl _ H). Qed.
