(** * Bit budget of the spectrum: bit consumption and truncation, src/spec.c
    The coefficients are the quantized integers, as in [SpecModel]. Bits are counted in
    1/2048 of a bit. The C variables are [int]; no sum here leaves its range
    ([C26_counts_bounded]). *)
From Coq Require Import ZArith List Bool.
From Verif Require Import Base Tables BitsModel ConfigModel SideModel SpecModel.
Import ListNotations.
Local Open Scope Z_scope.

(** [lc3_spectrum_bits[lut[k]][s]] *)
Definition spec_bits (lut : Z -> Z) (k s : Z) : Z := znth (znth spectrum_bits (lut k) []) s 0.

(** src/spec.c lines 373-374: escapes; a value has 32 bits at most, [fuel] is larger. *)
Fixpoint nbits_escapes (fuel : nat) (lut : Z -> Z) (m k nbits : Z) : Z * Z :=
  match fuel with
  | O => (nbits, k)
  | S fuel =>
      if m =? 0 then (nbits, k)
      else nbits_escapes fuel lut (shr m 1) (k + 1) (nbits + spec_bits lut (Z.min k 3) 16)
  end.

(** src/spec.c lines 346-394: a pair; [nbits], [nbits_lsb], count [s] of values that are
    not zero, and state. *)
Definition nbits_pair (lut : Z -> Z) (lsb_mode : bool) (state x0 x1 nbits nbits_lsb : Z) : Z * Z * Z * Z :=
  let a := Z.abs x0 in
  let b := Z.abs x1 in
  let s := b2z (negb (a =? 0)) + b2z (negb (b =? 0)) in
  let nbits := nbits + s * 2048 in
  let m := shr (Z.lor a b) 2 in
  let '(nbits, nbits_lsb, a, b, k) :=
    if m =? 0 then (nbits, nbits_lsb, a, b, 0)
    else
      let '(nbits, nbits_lsb) :=
        if lsb_mode then (nbits + (spec_bits lut 0 16 - 2 * 2048), nbits_lsb + (2 + b2z (a =? 1) + b2z (b =? 1)))
        else (nbits, nbits_lsb) in
      let '(nbits, k) := nbits_escapes 33 lut (shr m (b2z lsb_mode)) (b2z lsb_mode) nbits in
      (nbits + k * 2 * 2048, nbits_lsb, shr a k, shr b k, Z.min k 3) in
  (nbits + spec_bits lut k (a + 4 * b), nbits_lsb, s, next_state state k a b).

(** src/spec.c lines 332-396: the loops, on the pairs from the index [i]; returns [n_end],
    [nbits_end] and [nbits_lsb]. *)
Fixpoint nbits_pairs (high lsb_mode : bool) (ne budget i state nbits nbits_lsb n_end nbits_end : Z) (xs : list Z)
  : Z * Z * Z :=
  match xs with
  | x0 :: x1 :: xs =>
      if nbits <=? budget then
        let '(nbits, nbits_lsb, s, state) :=
          nbits_pair (lookup high (half ne i) state) lsb_mode state x0 x1 nbits nbits_lsb in
        let '(n_end, nbits_end) :=
          if negb (s =? 0) && (nbits <=? budget) then (i + 2, nbits) else (n_end, nbits_end) in
        nbits_pairs high lsb_mode ne budget (i + 2) state nbits nbits_lsb n_end nbits_end xs
      else (n_end, nbits_end, nbits_lsb)
  | _ => (n_end, nbits_end, nbits_lsb)
  end.

(** src/spec.c lines 323-410: compute_nbits on the [n] first coefficients [xs]; the count
    [*n] updated, the result, and [*p_lsb_mode]. A budget of 0 is no limit. *)
Definition compute_nbits (dt sr nbytes : Z) (xs : list Z) (nbits_budget : Z) : Z * Z * bool :=
  let '(lsb_mode, high) := resolve_modes sr nbytes in
  let budget := if nbits_budget =? 0 then INT_MAX else nbits_budget * 2048 in
  let '(n_end, nbits_end, nbits_lsb) := nbits_pairs high lsb_mode (c_ne dt sr) budget 0 0 0 0 0 0 xs in
  let lsb := lsb_mode && (budget <? nbits_end + nbits_lsb * 2048) in
  let nbits_end := if INT_MAX <=? budget then nbits_end + nbits_lsb * 2048 else nbits_end in
  (n_end, (nbits_end + 2047) / 2048, lsb).

(** src/sns.c lines 827-830: lc3_sns_get_nbits. *)
Definition sns_nbits : Z := 38.

(** src/spec.c lines 830-835: budget of the spectrum. *)
Definition spec_budget (dt sr nbytes : Z) (pitch : bool) (tns : tns_data) : Z :=
  8 * nbytes - nbits_ac dt sr nbytes - bw_nbits sr - ltpf_nbits pitch - sns_nbits - tns_nbits tns - 8 - 3.
