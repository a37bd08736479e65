(** * IEEE 754 binary32, round to nearest even, and the functions of src/fastmath.h
    The numbers and the operations are those of Flocq (24 bits of precision, exponents below
    128); the NaNs are one number. *)
From Coq Require Import ZArith Bool List.
From Flocq Require Import Core.Core IEEE754.BinarySingleNaN.
From Verif Require Import FloatOps.
Local Open Scope Z_scope.

#[global] Instance prec24 : Prec_gt_0 24 := eq_refl.
#[global] Instance emax128 : Prec_lt_emax 24 128 := eq_refl.
Definition f32 : Type := binary_float 24 128.

(** m / 2^k, rounded; the constants of the code are exact. *)
Definition f32_dy (m k : Z) : f32 := binary_normalize 24 128 _ _ mode_NE m (- k) false.

Definition f32_nan (x : f32) : bool := match x with B754_nan => true | _ => false end.

(** floorf and conversion to an int; none for the infinities, the NaN and values out of the
    int. *)
Definition f32_int (z : Z) : option Z := if (-2 ^ 31 <=? z) && (z <? 2 ^ 31) then Some z else None.
Definition f32_floor (x : f32) : option Z :=
  match x with
  | B754_zero _ => Some 0
  | B754_finite s m e _ => let z := if s then - Z.pos m else Z.pos m in f32_int (if 0 <=? e then z * 2 ^ e else z / 2 ^ (- e))
  | _ => None
  end.

(** fmaxf: the other one if there is a NaN. *)
Definition f32_max (x y : f32) : f32 := if f32_nan x then y else if f32_nan y then x else if Bltb x y then y else x.

(** Representation on 32 bits. *)
Definition f32_bits (nan : Z) (x : f32) : Z :=
  match x with
  | B754_zero s => if s then 2 ^ 31 else 0
  | B754_infinity s => (if s then 2 ^ 31 else 0) + 255 * 2 ^ 23
  | B754_nan => nan
  | B754_finite s m e _ => (if s then 2 ^ 31 else 0) + (if Z.pos m <? 2 ^ 23 then Z.pos m else (e + 150) * 2 ^ 23 + (Z.pos m - 2 ^ 23))
  end.
Definition f32_of_bits (u : Z) : f32 :=
  let s := 2 ^ 31 <=? u in
  let e := u / 2 ^ 23 mod 256 in
  let m := u mod 2 ^ 23 in
  if e =? 255 then (if m =? 0 then B754_infinity s else B754_nan)
  else let m := if e =? 0 then m else 2 ^ 23 + m in
    binary_normalize 24 128 _ _ mode_NE (if s then - m else m) (if e =? 0 then -149 else e - 150) s.

Definition Add (x y : f32) : f32 := Bplus mode_NE x y.
Definition Sub (x y : f32) : f32 := Bminus mode_NE x y.
Definition Mul (x y : f32) : f32 := Bmult mode_NE x y.
Definition Div (x y : f32) : f32 := Bdiv mode_NE x y.

(** src/fastmath.h lines 60-70: lc3_frexpf. *)
Definition frexp32 (nan : Z) (x : f32) : f32 * Z :=
  let u := f32_bits nan x in
  let e := u / 2 ^ 23 mod 256 in
  (f32_of_bits (u - e * 2 ^ 23 + 126 * 2 ^ 23), e - 126).

(** src/fastmath.h lines 127-148: lc3_log2f. *)
Definition log2_32 (nan : Z) (x : f32) : f32 :=
  let '(x, e) := frexp32 nan x in
  let y := Mul (f32_dy (-10861543) 23) x in
  let y := Mul (Add y (f32_dy 5366287 20)) x in
  let y := Mul (Add y (f32_dy (-4416053) 19)) x in
  let y := Mul (Add y (f32_dy 2124829 18)) x in
  let y := Add y (f32_dy (-14703861) 22) in
  Add (f32_dy e 0) y.

(** src/fastmath.h lines 77-120: lc3_exp2f; the shift of the exponent is on 32 bits. *)
Definition exp2_e : list (Z * Z) :=
  ((1, 0) :: (4573921, 22) :: (623487, 19) :: (10878679, 23) :: (11863283, 23) :: (6468501, 22) :: (14107901, 23) :: (15384775, 23) :: nil)%list.
Definition exp2_32 (nan : Z) (x : f32) : f32 :=
  let c := f32_dy 3 (-19) in
  let v := Add x c in
  let k := f32_bits nan v in
  let x := Sub x (Sub v c) in
  let y := Mul (f32_dy 42131 22) x in
  let y := Mul (Add y (f32_dy 3721611 26)) x in
  let y := Mul (Add y (f32_dy 16121479 26)) x in
  let y := Mul (Add y (f32_dy 11629079 24)) x in
  let '(m, s) := nth (Z.to_nat (k mod 8)) exp2_e (1, 0) in
  let y := Mul (Add y (f32_dy 1 0)) (f32_dy m s) in
  f32_of_bits ((f32_bits nan y + k / 8 * 2 ^ 23) mod 2 ^ 32).

(** The operations of the code, for a NaN of bits [nan]. *)
Definition f32_ops (nan : Z) : fops f32 :=
  mkFops f32 f32_dy Add Sub Mul Div Bopp Babs f32_max Bltb Bleb Beqb f32_floor
    (fun x : f32 => Bsqrt mode_NE x) (exp2_32 nan) (log2_32 nan).
