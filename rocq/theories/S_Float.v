(** Real-number readings of the floating-point settings (used only in
    statements about them). *)
From Coq Require Import Reals.
From Flocq Require Import Core BinarySingleNaN.
From Verif Require Import M_Base M_Float M_Types.

(** the real value of a finite number *)
Definition real (x : spec_float) : R := SF2R radix2 x.
(** rounding to the nearest 32-bit float (even on ties), without upper bound *)
Definition nearest32 (r : R) : R := round radix2 (FLT_exp (-149) 24) ZnearestE r.
(** a finite non-negative 32-bit float *)
Definition ratio (x : f32) : Prop := valid_binary 24 128 x = true /\ is_finite_SF x = true /\ (0 <= real x)%R.

(** The weighted mean of the components: the exact value of the similarity of
    an entry with distances [d] to an input of [len] characters. *)
Definition total_weight (w : weights) : R :=
  (real (w_ld w) + real (w_lcs w) + real (w_prefix w) + real (w_suffix w) + real (w_case w))%R.
Definition part (n : N) (len : nat) : R := (IZR (Z.of_N n) / IZR (Z.of_nat len))%R.
Definition similarity (w : weights) (len : nat) (d : distance) : R :=
  ((real (w_ld w) * Rmax 0 (1 - part (N.of_nat (d_ld d)) len) +
    real (w_lcs w) * part (d_lcs d) len + real (w_prefix w) * part (d_prefixlen d) len +
    real (w_suffix w) * part (d_suffixlen d) len + (if d_samecase d then real (w_case w) else 0)) / total_weight w)%R.
