(** * The operations of [FloatOps] in IEEE 754 binary32, round to nearest even
    The numbers and the operations are those of the standard library (Coq.Floats.SpecFloat),
    24 bits of precision; the NaNs are one. The exponential and the logarithm of
    src/fastmath.h are parameters. *)
From Coq Require Import ZArith Bool SpecFloat FloatOps.
From Verif Require Import FloatOps.
Local Open Scope Z_scope.

Definition b32 : Set := spec_float.
Definition b32_prec : Z := 24.
Definition b32_emax : Z := 128.

(** m / 2^k, rounded; the constants of the code are exact. *)
Definition b32_dy (m k : Z) : b32 := binary_normalize b32_prec b32_emax m (- k) false.

(** Floor; none for the infinities and the NaN. *)
Definition b32_floor (x : b32) : option Z :=
  match x with
  | S754_zero _ => Some 0
  | S754_finite s m e => let z := if s then - Z.pos m else Z.pos m in Some (if 0 <=? e then z * 2 ^ e else z / 2 ^ (- e))
  | _ => None
  end.

(** fmaxf: the other one if there is a NaN. *)
Definition b32_max (x y : b32) : b32 :=
  match x, y with
  | S754_nan, _ => y
  | _, S754_nan => x
  | _, _ => if SFltb x y then y else x
  end.

Definition b32_ops (exp2 log2 : b32 -> b32) : fops b32 :=
  mkFops b32 b32_dy
    (SFadd b32_prec b32_emax) (SFsub b32_prec b32_emax) (SFmul b32_prec b32_emax) (SFdiv b32_prec b32_emax)
    SFopp SFabs b32_max SFltb SFleb SFeqb b32_floor (SFsqrt b32_prec b32_emax) exp2 log2.

(** Zeros of both signs. *)
Definition b32_zero (x : b32) : Prop := exists s, x = S754_zero s.
