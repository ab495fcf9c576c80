(** Counts above 1, as 32-bit numbers. *)
From Coq Require Import ZArith Reals SpecFloat Lia Lra.
From Flocq Require Import Core BinarySingleNaN.
From Verif Require Import M_Base M_Float M_Types M_Matches P_Float P_Limit P_Score P_Rank P_Order P_Nonan P_Share.
From stdpp Require Import options.
#[local] Open Scope nat_scope.

Lemma count_above n : (1 < n < 4294967296)%N -> flt f32_1 (f32_of_N n) = true.
Proof.
  intros [H1 H2]. destruct (fval_count n H2) as [V _]. assert (fval 24 128 (f32_of_N 2) 2) as V2 by (apply (fval_int 24 128 prec24 emax24 2 false); lia).
  assert (2 <= rnd 24 128 (IZR (Z.of_N n)))%R as Hn.
  { rewrite <- (rnd_fval 24 128 prec24 emax24 _ _ V2). apply (rnd_mono 24 128 prec24 emax24). apply IZR_le. lia. }
  destruct (fval_ext 24 128 prec24 emax24 _ _ V) as (Nx & Hx & Ex). destruct (fval_ext 24 128 prec24 emax24 _ _ fval32_1) as (N1 & G1 & E1).
  apply (lt_ext 24 128 prec24 emax24); try done. rewrite Ex, E1. lra.
Qed.
