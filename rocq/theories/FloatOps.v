(** * Abstract single precision numbers
    The type of the [float] values and the operations of the code on them. Nothing is
    assumed of the operations here: a result that holds for any of them holds for the
    binary32 arithmetic, with its roundings, infinities and NaN. *)
From Coq Require Import ZArith List Bool.
From Verif Require Import Base ConfigModel.
Import ListNotations.
Local Open Scope Z_scope.

(** [f_dy m k] is the constant [m / 2^k]; [f_lt x y] is [x < y], [f_le x y] is [x <= y] (and
    [y >= x]), [f_eq x y] is [x == y]; [f_floor] is the conversion to int of floorf, [None]
    when the value is not an int; [f_exp2] and [f_log2] are lc3_exp2f and lc3_log2f of
    src/fastmath.h. *)
Record fops (F : Type) := mkFops {
  f_dy : Z -> Z -> F;
  f_add : F -> F -> F; f_sub : F -> F -> F; f_mul : F -> F -> F; f_div : F -> F -> F;
  f_opp : F -> F; f_abs : F -> F; f_max : F -> F -> F;
  f_lt : F -> F -> bool; f_le : F -> F -> bool; f_eq : F -> F -> bool;
  f_floor : F -> option Z;
  f_sqrt : F -> F; f_exp2 : F -> F; f_log2 : F -> F }.
Arguments f_dy {F}. Arguments f_add {F}. Arguments f_sub {F}. Arguments f_mul {F}. Arguments f_div {F}.
Arguments f_opp {F}. Arguments f_abs {F}. Arguments f_max {F}. Arguments f_lt {F}. Arguments f_le {F}.
Arguments f_eq {F}. Arguments f_floor {F}. Arguments f_sqrt {F}. Arguments f_exp2 {F}. Arguments f_log2 {F}.

(** Conversion of an int. *)
Definition f_z {F} (fl : fops F) (z : Z) : F := f_dy fl z 0.

(** Arrays: an access out of the array is [None]. *)
Definition rd {A} (l : list A) (i : Z) : option A :=
  if i <? 0 then None else nth_error l (Z.to_nat i).
Definition wr {A} (l : list A) (i : Z) (v : A) : option (list A) :=
  if inb i (zlen l) then Some (upd l i v) else None.

(** [for (i = a; i < b; i++)] on a state. *)
Fixpoint loop {S} (n : nat) (f : Z -> S -> option S) (i : Z) (s : S) : option S :=
  match n with
  | O => Some s
  | S n => do s <- f i s; loop n f (i + 1) s
  end.
Definition for_ {S} (a b : Z) (f : Z -> S -> option S) (s : S) : option S := loop (Z.to_nat (b - a)) f a s.
(** [for (i = a; i >= b; i--)]. *)
Fixpoint down {S} (n : nat) (f : Z -> S -> option S) (i : Z) (s : S) : option S :=
  match n with
  | O => Some s
  | S n => do s <- f i s; down n f (i - 1) s
  end.
Definition for_down {S} (a b : Z) (f : Z -> S -> option S) (s : S) : option S := down (Z.to_nat (a - b + 1)) f a s.
