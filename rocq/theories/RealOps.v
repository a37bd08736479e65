(** * The operations of [FloatOps] on the real numbers *)
From Coq Require Import Reals ZArith List Lra Lia.
From Verif Require Import FloatOps.
Local Open Scope R_scope.

Definition Rltb (x y : R) : bool := if Rlt_dec x y then true else false.
Definition Rleb (x y : R) : bool := if Rle_dec x y then true else false.
Definition Reqb (x y : R) : bool := if Req_EM_T x y then true else false.

(** Exact arithmetic: the constants m / 2^k, comparisons, floor, square root, powers of 2. *)
Definition Rops : fops R :=
  mkFops R (fun m k => IZR m / powerRZ 2 k) Rplus Rminus Rmult Rdiv Ropp Rabs Rmax
    Rltb Rleb Reqb (fun x => Some (Int_part x)) sqrt (fun x => Rpower 2 x) (fun x => ln x / ln 2).

Lemma Rops_z z : f_z Rops z = IZR z.
Proof. unfold f_z, Rops. cbn [f_dy powerRZ]. unfold Rdiv. rewrite Rinv_1. ring. Qed.

Lemma Rops_dy m k : f_dy Rops m k = IZR m / powerRZ 2 k.
Proof. reflexivity. Qed.

Lemma Rltb_true x y : Rltb x y = true <-> x < y.
Proof. unfold Rltb. destruct (Rlt_dec x y); split; auto; try discriminate; intros; lra. Qed.
Lemma Rleb_true x y : Rleb x y = true <-> x <= y.
Proof. unfold Rleb. destruct (Rle_dec x y); split; auto; try discriminate; intros; lra. Qed.
Lemma Reqb_true x y : Reqb x y = true <-> x = y.
Proof. unfold Reqb. destruct (Req_EM_T x y); split; auto; try discriminate; intros; lra. Qed.

Lemma Rops_ring : ring_theory (f_z Rops 0) (f_z Rops 1) (f_add Rops) (f_mul Rops) (f_sub Rops) (f_opp Rops) (@eq R).
Proof. rewrite !Rops_z. constructor; intros; cbn; ring. Qed.
