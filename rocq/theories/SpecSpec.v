(** * What is expected from the coding of the spectrum *)
From Coq Require Import ZArith List Bool.
From Verif Require Import Base ConfigModel.
Import ListNotations.
Local Open Scope Z_scope.

(** Spectra that can be coded: an even number of coefficients, not more than the
    spectrum has, of 16 bits in magnitude, 24 bits in high resolution. *)
Definition spectrum_ok (dt sr : Z) (xs : list Z) : Prop :=
  zlen xs <= c_ne dt sr /\ Z.even (zlen xs) = true /\
  Forall (fun x => Z.abs x < 2 ^ (if is_hr sr then 24 else 16)) xs.

(** In LSB mode, a pair with a value of 4 or more is coded without its least
    significant bits: magnitudes are rounded down to an even value. *)
Definition large (x0 x1 : Z) : bool := 4 <=? Z.max (Z.abs x0) (Z.abs x1).
Definition even_part (x : Z) : Z := 2 * Z.quot x 2.

Fixpoint without_lsb (lsb : bool) (xs : list Z) : list Z :=
  match xs with
  | x0 :: x1 :: xs =>
      (if lsb && large x0 x1 then [even_part x0; even_part x1] else [x0; x1]) ++ without_lsb lsb xs
  | xs => xs
  end.

(** The seed of the noise generator: sum of the magnitudes (15 bits) weighted by
    their index, on 16 bits. *)
Fixpoint seed_sum (i : Z) (xs : list Z) : Z :=
  match xs with
  | [] => 0
  | x :: xs => Z.abs x mod 32768 * i + seed_sum (i + 1) xs
  end.
Definition seed_of (xs : list Z) : Z := seed_sum 0 xs mod 65536.

(** Bits that restore a coefficient of a large pair: the least significant bit,
    and the sign of [1] or [-1], which was coded as a zero. *)
Definition lsb_bits (x : Z) : list Z :=
  (Z.abs x mod 2) :: (if Z.abs x =? 1 then [if x <? 0 then 1 else 0] else []).

(** The coefficients to restore, with the bits for each one. *)
Fixpoint lsb_stream (xs : list Z) : list (list Z) :=
  match xs with
  | x0 :: x1 :: xs =>
      (if large x0 x1 then [lsb_bits x0; lsb_bits x1] else [[]; []]) ++ lsb_stream xs
  | _ => []
  end.

(** Coefficients are restored in order as long as the [n] bits allow it. *)
Fixpoint restore (n : Z) (bs : list (list Z)) (xs ts : list Z) : list Z :=
  match bs, xs, ts with
  | b :: bs, x :: xs, t :: ts' =>
      if zlen b <=? n then x :: restore (n - zlen b) bs xs ts' else ts
  | _, _, _ => ts
  end.
