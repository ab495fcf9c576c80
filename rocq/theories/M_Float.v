(** Floating-point numbers of the model: IEEE binary64/binary32 with rounding
    to nearest even, using the executable specification of Coq's standard
    library (Coq.Floats.SpecFloat; no primitive floats, no axioms). *)
From Coq Require Export SpecFloat.
From Verif Require Import M_Base.
From stdpp Require Import options.

Notation f64 := spec_float.
Notation f32 := spec_float.

Definition fadd : f64 -> f64 -> f64 := SFadd 53 1024.
Definition fsub : f64 -> f64 -> f64 := SFsub 53 1024.
Definition fmul : f64 -> f64 -> f64 := SFmul 53 1024.
Definition fdiv : f64 -> f64 -> f64 := SFdiv 53 1024.

Definition f32add : f32 -> f32 -> f32 := SFadd 24 128.
Definition f32sub : f32 -> f32 -> f32 := SFsub 24 128.
Definition f32mul : f32 -> f32 -> f32 := SFmul 24 128.
Definition f32div : f32 -> f32 -> f32 := SFdiv 24 128.

(** Comparisons ([<], [<=], [==] of Rust: false if an operand is NaN) *)
Definition flt (x y : spec_float) : bool := SFltb x y.
Definition fle (x y : spec_float) : bool := SFleb x y.
Definition feq (x y : spec_float) : bool := SFeqb x y.
Definition fgt (x y : spec_float) : bool := SFltb y x.
Definition fge (x y : spec_float) : bool := SFleb y x.
Definition fis_nan (x : spec_float) : bool := match x with S754_nan => true | _ => false end.

(** [n as f64], [n as f32] for an unsigned integer *)
Definition f64_of_N (n : N) : f64 := binary_normalize 53 1024 (Z.of_N n) 0 false.
Definition f64_of_nat (n : nat) : f64 := f64_of_N (N.of_nat n).
Definition f32_of_N (n : N) : f32 := binary_normalize 24 128 (Z.of_N n) 0 false.
Definition f32_of_nat (n : nat) : f32 := f32_of_N (N.of_nat n).

(** [x as f64] for an [f32] (exact) and [x as f32] for an [f64] (rounds) *)
Definition to_f64 (x : f32) : f64 :=
  match x with
  | S754_finite s m e => binary_normalize 53 1024 (cond_Zopp s (Zpos m)) e s
  | _ => x
  end.
Definition to_f32 (x : f64) : f32 :=
  match x with
  | S754_finite s m e => binary_normalize 24 128 (cond_Zopp s (Zpos m)) e s
  | _ => x
  end.

Definition f0 : f64 := S754_zero false.
Definition f1 : f64 := S754_finite false 4503599627370496 (-52).
Definition f2 : f64 := S754_finite false 4503599627370496 (-51).
Definition f32_1 : f32 := S754_finite false 8388608 (-23).

(** The integer part of a non-negative finite number [m * 2^e]. *)
Definition floor_pos (m : positive) (e : Z) : N :=
  match e with
  | Z0 => Npos m
  | Zpos p => (Npos m * 2 ^ Npos p)%N
  | Zneg p => (Npos m / 2 ^ Npos p)%N
  end.

(** [x.floor() as u8]: the cast saturates and maps NaN to 0. *)
Definition floor_as_u8 (x : spec_float) : nat :=
  match x with
  | S754_finite false m e => N.to_nat (N.min 255 (floor_pos m e))
  | S754_infinity false => 255
  | _ => 0
  end.

Example f1_is_one : f64_of_N 1 = f1. Proof. reflexivity. Qed.
Example f2_is_two : f64_of_N 2 = f2. Proof. reflexivity. Qed.
Example f32_one : f32_of_N 1 = f32_1. Proof. reflexivity. Qed.
Example half_sum : fadd (fdiv f1 f2) (fdiv f1 f2) = f1. Proof. vm_compute. reflexivity. Qed.
Example floor_5_halves : floor_as_u8 (fdiv (f64_of_N 5) f2) = 2. Proof. vm_compute. reflexivity. Qed.
