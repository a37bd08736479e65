(** * Levels of the blocks of a spectrum and least gains: specification *)
From Coq Require Import Reals ZArith List.
From Flocq Require Import Core.Core IEEE754.BinarySingleNaN.
From Verif Require Import Base FloatOps F32Model.
Import ListNotations.
Local Open Scope R_scope.

(** The level in dB of an energy, of -100 dB at least. *)
Definition level (e : R) : R := 10 * (ln (Rmax e (/ 10000000000)) / ln 10).
(** The energy of the block [k] of 4 coefficients. *)
Definition block_sum (x : list f32) (k : Z) : R :=
  let sq i := B2R (znth x (4 * k + i) (f32_dy 0 0)) * B2R (znth x (4 * k + i) (f32_dy 0 0)) in sq 0%Z + sq 1%Z + sq 2%Z + sq 3%Z.
(** [g] is the least gain, in [lo..hi], that meets [ok], or [hi]. *)
Definition least (lo hi : Z) (ok : Z -> Prop) (g : Z) : Prop :=
  (lo <= g <= hi)%Z /\ (g = hi \/ ok g) /\ forall g', (lo <= g' < g)%Z -> ~ ok g'.
