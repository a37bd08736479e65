(** * What is expected from the residual bits
    Numbers are integers in units of 2^-149, see [FloatModel]. *)
From Coq Require Import ZArith List.
From Verif Require Import Base FloatModel.
Import ListNotations.
Local Open Scope Z_scope.

(** Coefficients that can be coded: single precision, magnitude on 16 bits, or 23 bits
    in high resolution. *)
Definition coded_f32 (hr : bool) (x : Z) : Prop :=
  is_f32 x /\ Z.abs x < (2 ^ (if hr then 23 else 16) - 1) * one.

(** Magnitudes quantized to zero: below 1/2 in high resolution mode, 5/8 otherwise. *)
Definition zero_below (hr : bool) : Z := if hr then one / 2 else 5 * one / 8.

(** [q] is the quantized value of [x]: rounding down from 1/2, resp. 5/8. *)
Definition quantized (hr : bool) (x q : Z) : Prop :=
  let l := zero_below hr in
  Z.abs q * one - (one - l) <= Z.abs x < Z.abs q * one + l /\ (q <> 0 -> Z.sgn q = Z.sgn x).

(** Distance to the original after [m] refinement bits. *)
Definition res_bound (hr : bool) (m : Z) : Z :=
  if hr then 2 ^ (148 - m) else if m =? 0 then 5 * one / 8 else 5 * one / 16.

(** Coefficient decoded as zero, without refinement, or with the right sign. *)
Definition same_zero (hr : bool) (x y m : Z) : Prop :=
  if Z.abs x <? zero_below hr then y = 0 /\ m = 0 else 0 <= m /\ Z.sgn y = Z.sgn x.

Definition refined (hr : bool) (x y m : Z) : Prop :=
  same_zero hr x y m /\
  (zero_below hr <= Z.abs x -> Z.abs (y - x) <= res_bound hr m).

(** The [n] bits go to the coefficients not quantized to zero, in turn and in order,
    each one receiving not more than [iters] bits; [ms] are the numbers of bits
    received by each coefficient. *)
Definition in_turn (hr : bool) (iters n : Z) (xs ms : list Z) (total : Z) : Prop :=
  let nz := filter (fun p => zero_below hr <=? Z.abs (fst p)) (combine xs ms) in
  exists k j, 0 <= k /\ 0 <= j <= zlen nz /\
    map snd nz = repeat (k + 1) (Z.to_nat j) ++ repeat k (Z.to_nat (zlen nz - j)) /\
    total = k * zlen nz + j /\ total = Z.min (Z.max n 0) (iters * zlen nz).
