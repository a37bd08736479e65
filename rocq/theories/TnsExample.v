(** * Instances for the examples of the temporal noise shaping: rationals, binary32 *)
From Coq Require Import ZArith List Bool Lia QArith Qcanon Qround SpecFloat.
From Verif Require Import Base FloatOps Binary32 TnsMain.
Import ListNotations.
Local Open Scope Z_scope.

(** Exact rational arithmetic; no square root, exponential or logarithm (unused by the
    temporal noise shaping). *)
Definition Qcltb (x y : Qc) : bool := negb (Qle_bool y x).
Definition Qcops : fops Qc :=
  mkFops Qc (fun m k => if k <=? 0 then Q2Qc (inject_Z (m * 2 ^ (- k))) else Q2Qc (m # Z.to_pos (2 ^ k)))
    Qcplus Qcminus Qcmult Qcdiv Qcopp (fun x => if Qle_bool 0 x then x else Qcopp x) (fun x y => if Qle_bool x y then y else x)
    Qcltb (fun x y => Qle_bool x y) (fun x y => Qeq_bool x y) (fun x => Some (Qfloor x)) (fun x => x) (fun x => x) (fun x => x).

Lemma Qcops_ring : ring_theory (f_z Qcops 0) (f_z Qcops 1) (f_add Qcops) (f_mul Qcops) (f_sub Qcops) (f_opp Qcops) (@eq Qc).
Proof.
  replace (f_z Qcops 0) with (0%Qc) by (apply Qc_is_canon; reflexivity). replace (f_z Qcops 1) with (1%Qc) by (apply Qc_is_canon; reflexivity). exact Qcrt.
Qed.

Lemma b32_zero_laws exp2 log2 : zero_laws (b32_ops exp2 log2) b32_zero.
Proof.
  constructor; unfold b32_zero.
  - exists false. reflexivity.
  - intros x y [[] ->] [[] ->]; eexists; reflexivity.
  - intros x y [[] ->] [[] ->]; eexists; reflexivity.
  - intros x y [[] ->] [[] ->]; eexists; reflexivity.
  - intros x [[] ->]; eexists; reflexivity.
  - intros x [[] ->]; reflexivity.
  - intros x n [[] ->] [-> | ->]; eexists; reflexivity.
  - intros x n [[] ->] [-> | ->]; reflexivity.
  - intros n [-> | ->]; reflexivity.
Qed.
