(** * What is expected from the bit budget of the spectrum *)
From Coq Require Import ZArith List Bool.
From Verif Require Import Base ConfigModel SideModel.
Import ListNotations.
Local Open Scope Z_scope.

(** Arithmetic coder symbols of a pair of coefficients: one symbol for the two most
    significant bits of both, and an escape for each bit below. *)
Definition pair_symbols (x0 x1 : Z) : Z :=
  let m := Z.max (Z.abs x0) (Z.abs x1) in
  if m <? 4 then 1 else Z.log2 m.
Fixpoint spectrum_symbols (xs : list Z) : Z :=
  match xs with
  | x0 :: x1 :: xs => pair_symbols x0 x1 + spectrum_symbols xs
  | _ => 0
  end.

(** Symbols of a noise shaping filter: its order, and its coefficients. *)
Definition filter_symbols (rc : list Z) : Z := if zlen rc =? 0 then 0 else 1 + zlen rc.
Definition tns_symbols (d : tns_data) : Z := fold_right (fun rc s => filter_symbols rc + s) 0 (t_filters d).

(** Bits set aside for the imprecision of the arithmetic coder, over the 2 bits that its
    termination takes: none up to 160 bytes, 1 up to 320, 2 above; one more in high
    resolution. *)
Definition spare_bits (hr : bool) (nbytes : Z) : Z :=
  (if hr then 1 else 0) + (if nbytes <=? 160 then 0 else if nbytes <=? 320 then 1 else 2).

(** A prefix that keeps all the coefficients that are not zero. *)
Definition keeps_all (n : Z) (xs : list Z) : Prop := Forall (fun x => x = 0) (skipn (Z.to_nat n) xs).
