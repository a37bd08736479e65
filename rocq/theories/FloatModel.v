(** * Binary32 numbers as integers
    A finite single precision number is an integer multiple of 2^-149 (the
    smallest subnormal): it is represented by that integer. Sums of such numbers
    are integers too, and [rnd] is the IEEE rounding to nearest, ties to even, to
    the 24 bits of the format. Overflow to infinity is out of the model: the
    values in use stay far below 2^128. *)
From Coq Require Import ZArith Bool.
Local Open Scope Z_scope.

(** The number 1. *)
Definition one : Z := 2 ^ 149.

(** Exponent of the last bit of the significand. *)
Definition f_exp (a : Z) : Z := Z.max 0 (Z.log2 a - 23).

Definition rnd_pos (a : Z) : Z :=
  let e := f_exp a in
  let q := a / 2 ^ e in
  let r := a mod 2 ^ e in
  (if (2 * r <? 2 ^ e) || ((2 * r =? 2 ^ e) && Z.even q) then q else q + 1) * 2 ^ e.

Definition rnd (x : Z) : Z := Z.sgn x * rnd_pos (Z.abs x).

(** The integers that represent a single precision number. *)
Definition is_f32 (x : Z) : Prop := rnd x = x.
