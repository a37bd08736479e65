(** * Bounds on the results of the operations of [FloatOps] *)
From Coq Require Import ZArith.
From Verif Require Import FloatOps.
Local Open Scope Z_scope.

(** Bounds k 2^e in use. *)
Definition kok (k e : Z) : Prop := 0 <= k <= 2 ^ 24 /\ -149 <= e <= 100.
Definition eok (e : Z) : Prop := -149 <= e <= 100.

(** [bnd k e x]: x is finite, at most k 2^e in magnitude. *)
Record blaws {F} (fl : fops F) (bnd : Z -> Z -> F -> Prop) : Prop := mkBlaws {
  b_weak : forall k e k' d x, 0 <= d -> 0 <= k -> k <= k' * 2 ^ d -> bnd k e x -> bnd k' (e + d) x;
  b_add : forall k1 k2 e x y, kok (k1 + k2) e -> bnd k1 e x -> bnd k2 e y -> bnd (k1 + k2) e (f_add fl x y);
  b_sub : forall k1 k2 e x y, kok (k1 + k2) e -> bnd k1 e x -> bnd k2 e y -> bnd (k1 + k2) e (f_sub fl x y);
  b_mul : forall k1 k2 e1 e2 x y, kok (k1 * k2) (e1 + e2) -> bnd k1 e1 x -> bnd k2 e2 y -> bnd (k1 * k2) (e1 + e2) (f_mul fl x y);
  b_div : forall k e x n, kok k e -> 1 <= n <= 2 ^ 24 -> bnd k e x -> bnd k e (f_div fl x (f_z fl n));
  b_abs : forall k e x, bnd k e x -> bnd k e (f_abs fl x);
  b_dy : forall m s n, eok (n - s) -> 0 <= n -> Z.abs m <= 2 ^ n -> bnd 1 (n - s) (f_dy fl m s);
  b_zero : forall e, bnd 0 e (f_z fl 0);
  b_log2 : forall x, bnd 1 9 (f_log2 fl x) }.

