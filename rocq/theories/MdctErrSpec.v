(** * Specification of the errors of the transforms *)
From Coq Require Import Reals ZArith List.
From Flocq Require Import Core.Core IEEE754.BinarySingleNaN.
From Verif Require Import MdctSpec F32Model.
Local Open Scope R_scope.

(** The Euclidean norm of [f 0], ..., [f (n - 1)]. *)
Definition norm (n : Z) (f : Z -> R) : R := sqrt (sum n (fun i => f i * f i)).
(** The number that the value [n] of a buffer of floats stands for. *)
Definition number (l : list f32) (n : Z) : R := B2R (nth (Z.to_nat n) l (B754_zero false)).
Definition finite (v : f32) : Prop := is_finite v = true.
