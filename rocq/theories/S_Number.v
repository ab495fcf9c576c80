(** Specification of the conversions of numbers in the Python bindings, with
    real numbers. *)
From Coq Require Import Reals.
From Flocq Require Import Core BinarySingleNaN.
From Verif Require Import M_Base M_Float S_Float.
From stdpp Require Import options.

(** rounding to the nearest 64-bit float (even on ties), without upper bound *)
Definition nearest64 (r : R) : R := round radix2 (FLT_exp (-1074) 53) ZnearestE r.
(** [x] is the double for the whole number [z]; it is never minus zero. *)
Record double_of (z : Z) (x : spec_float) : Prop := {
  do_valid : valid_binary 53 1024 x = true;
  do_finite : is_finite_SF x = true;
  do_value : real x = nearest64 (IZR z);
  do_sign : sign_SF x = (z <? 0)%Z
}.
(** [y] is the 32-bit float for the 64-bit float [x]: the nearest, or infinity
    if that is too large; infinities and not-a-number stay. *)
Inductive narrowed (x y : spec_float) : Prop :=
| nw_special : is_finite_SF x = false -> y = x -> narrowed x y
| nw_near : is_finite_SF x = true -> valid_binary 24 128 y = true -> is_finite_SF y = true ->
    real y = nearest32 (real x) -> sign_SF y = sign_SF x -> narrowed x y
| nw_over : is_finite_SF x = true -> (bpow radix2 128 <= Rabs (nearest32 (real x)))%R -> y = S754_infinity (sign_SF x) -> narrowed x y.
