(** * Analysis of the spectrum by the encoder, in binary32: src/spec.c
    From the coefficients after the noise shapings to the scaled coefficients, the gain index
    and the count of coefficients coded. A conversion of a float out of the range of the
    integer, a signed overflow, or a read out of an array is [None]. *)
From Coq Require Import ZArith List Bool.
From Flocq Require Import Core.Core IEEE754.BinarySingleNaN.
From Verif Require Import Base ConfigModel FloatModel ResidualModel SideModel SpecModel BudgetModel GainModel NoiseModel FloatOps F32Model.
Import ListNotations.
Local Open Scope Z_scope.

(** ** Conversions *)

(** A finite number in units of 2^-149, see [FloatModel]. *)
Definition f32_units (x : f32) : option Z :=
  match x with
  | B754_zero _ => Some 0
  | B754_finite s m e _ => Some ((if s then - Z.pos m else Z.pos m) * 2 ^ (e + 149))
  | _ => None
  end.
Fixpoint all_some {A} (l : list (option A)) : option (list A) :=
  match l with
  | [] => Some []
  | o :: r => do a <- o; do r <- all_some r; Some (a :: r)
  end.
(** Conversion to an [int], toward 0. *)
Definition f32_trunc (x : f32) : option Z := do u <- f32_units x; f32_int (Z.quot u one).
(** roundf, half away from 0, and conversion to an [int]. *)
Definition f32_round (x : f32) : option Z := do u <- f32_units x; f32_int (Z.sgn u * ((2 * Z.abs u + one) / (2 * one))).
(** fminf *)
Definition f32_min (x y : f32) : f32 := if f32_nan x then y else if f32_nan y then x else if Bltb x y then x else y.
Definition c0 : f32 := f32_dy 0 0.
(** An [int] converted to a float. *)
Definition f32_of_int (z : Z) : f32 := f32_dy z 0.
(** src/fastmath.h lines 45-52: lc3_ldexpf; none on an overflow of the representation. *)
Definition ldexp32 (nan : Z) (x : f32) (e : Z) : option f32 :=
  let u := f32_bits nan x in
  if u / 2 ^ 23 mod 256 =? 0 then Some x
  else let s := (if u <? 2 ^ 31 then u else u - 2 ^ 32) + e * 2 ^ 23 in
    if (- 2 ^ 31 <=? s) && (s <? 2 ^ 31) then Some (f32_of_bits (s mod 2 ^ 32)) else None.

(** ** Gains *)

(** src/spec.c lines 65-66: the loops, as [gain_loops]. *)
Fixpoint gain32_loops (fuel : nat) (g_int : Z) (g : f32) : option (Z * f32) :=
  if g_int <? 0 then match fuel with O => None | S f => gain32_loops f (g_int + 28) (Mul g (f32_dy 13421773 27)) end
  else if 28 <=? g_int then match fuel with O => None | S f => gain32_loops f (g_int - 28) (Mul g (f32_dy 10 0)) end
  else Some (g_int, g).
(** src/spec.c lines 47-69: unquantize_gain. *)
Definition gain32 (g_int : Z) : option f32 :=
  do r <- gain32_loops 10 g_int (f32_dy 1 0);
  if inb (fst r) (zlen iq_table) then Some (Mul (snd r) (f32_dy (znth iq_table (fst r) 0) 23)) else None.

(** ** Estimation *)

(** src/spec.c lines 99-106: the regulation of the noise floor. *)
Definition reg_bits (dt sr nbytes : Z) : Z :=
  let c := if dt =? DT_2M5 then -6 else if dt =? DT_10M then (if sr =? SRATE_48K_HR then 2 else 5) else 0 in
  clip ((8 * nbytes * 4) / (125 * (1 + dt)) + c) 6 23.
(** src/spec.c lines 108-115: the sums [m0] and [m1], from the index [k]. *)
Fixpoint centroid (k m0 m1 : f32) (x : list f32) : f32 * f32 :=
  match x with
  | [] => (m0, m1)
  | v :: r => centroid (Add k (f32_dy 1 0)) (Add m0 (Babs v)) (Add m1 (Mul (Babs v) k)) r
  end.
(** src/spec.c lines 117-118: [low_bits]. *)
Definition low_bits (dt : Z) (x : list f32) : option Z :=
  let e5 := f32_dy 2748779 38 in
  let '(m0, m1) := centroid c0 e5 e5 x in
  do m <- f32_round (Div (Mul (f32_dy 13421773 23) m0) (Mul (f32_of_int (1 + dt)) m1));
  cint (8 - Z.min m 8).

(** src/spec.c lines 125-138: the energies of the blocks of 4 coefficients. *)
Fixpoint block_energies (n4 : nat) (x : list f32) : option (list f32) :=
  match n4, x with
  | O, _ => Some []
  | S n4, x0 :: x1 :: x2 :: x3 :: r =>
      do es <- block_energies n4 r; Some (Add (Add (Add (Mul x0 x0) (Mul x1 x1)) (Mul x2 x2)) (Mul x3 x3) :: es)
  | _, _ => None
  end.
(** src/spec.c lines 123, 131-134: the maximum of the squares. *)
Definition square_max (x : list f32) : f32 := fold_left (fun m v => f32_max m (Mul v v)) x c0.

(** src/spec.c lines 141-142: [nf]. *)
Definition noise_floor (nan dt sr nbytes : Z) (x : list f32) (x_max : f32) : option f32 :=
  if is_hr sr then
    do l <- low_bits dt x; do a <- ldexp32 nan x_max (- reg_bits dt sr nbytes);
    Some (Mul a (exp2_32 nan (f32_of_int (- l))))
  else Some c0.
(** src/spec.c lines 140-141, src/fastmath.h line 209: the energies, in dB; lc3_db_q16 takes the
    bits of the square. *)
Definition block_db (nan : Z) (nf e : f32) : option Z :=
  let x := f32_max (Add e nf) (f32_dy 14411519 57) in db_q16 (f32_bits nan (Mul x x)).

(** src/spec.c lines 172, 176: the comparison with the limit of the quantizer. *)
Definition fits32 (sr : Z) (x_max : f32) (g : Z) : bool :=
  match gain32 g with
  | Some a => Bltb x_max (Mul (f32_of_int (if is_hr sr then 32767 * 2 ^ 8 else 32767)) a)
  | None => false
  end.

(** src/spec.c lines 85-184: estimate_gain on the [ne] coefficients [x]. *)
Definition estimate32 (nan dt sr nbytes budget : Z) (off : f32) (g_off : Z) (x : list f32) : option (Z * Z * bool) :=
  let x_max := Bsqrt mode_NE (square_max x) in
  do nf <- noise_floor nan dt sr nbytes x x_max;
  do es <- block_energies (Z.to_nat (c_ne dt sr / 4)) x;
  do db <- all_some (map (block_db nan nf) es);
  do nbits <- f32_trunc (Add (Add (f32_of_int budget) off) (f32_dy 1 1));
  estimate_gain nbits g_off db (fits32 sr x_max) (Beqb x_max c0).

(** ** Quantization *)

(** src/spec.c lines 260, 265-266: the significant coefficients, by pairs. *)
Fixpoint pairs_sig (lim : f32) (x : list f32) : list (bool * bool) :=
  match x with
  | a :: b :: r => (Bleb lim (Babs a), Bleb lim (Babs b)) :: pairs_sig lim r
  | _ => []
  end.
(** src/spec.c lines 245-268: quantize; the scaled coefficients and the count of
    significants. *)
Definition quantize32 (dt sr g_int : Z) (x : list f32) : option (list f32 * Z) :=
  do g_inv <- gain32 (- g_int);
  let x := map (fun v => Mul v g_inv) x in
  let ne := c_ne dt sr in
  Some (x, count_nq ne ne (pairs_sig (if is_hr sr then f32_dy 1 1 else f32_dy 5 3) x)).

(** src/spec.c lines 323-410: compute_nbits on the [n] first coefficients, converted to
    integers (lines 346-348); none if one of them does not fit an [uint32_t]. *)
Definition nbits32 (dt sr nbytes : Z) (x : list f32) (n budget : Z) : option (Z * Z * bool) :=
  do us <- all_some (map f32_units (firstn (Z.to_nat n) x));
  let q := map (quant rnd (is_hr sr)) us in
  if forallb (fun v => Z.abs v <? 2 ^ 32) q then Some (compute_nbits dt sr nbytes q budget) else None.

(** include/lc3_private.h lines 110-113: lc3_spec_analysis. *)
Record spec_state := mkSpecSt { s_off : f32; s_spare : Z }.
Definition spec_init : spec_state := mkSpecSt c0 0.

(** src/spec.c lines 839-841: the offset. *)
Definition next_off (st : spec_state) : f32 :=
  let v := Add (s_off st) (f32_of_int (s_spare st)) in
  let v := f32_min (f32_max v (f32_of_int (-40))) (f32_of_int 40) in
  Add (Mul (f32_dy 13421773 24) (s_off st)) (Mul (f32_dy 13421773 26) v).

(** src/spec.c lines 820-868: lc3_spec_analyze; [x] are the [ne] coefficients of the band. *)
Definition analyze32 (nan dt sr nbytes : Z) (pitch : bool) (tns : tns_data) (st : spec_state) (x : list f32)
  : option (spec_side * list f32 * spec_state) :=
  let budget := spec_budget dt sr nbytes pitch tns in
  let off := next_off st in
  let g_off := gain_offset sr nbytes in
  do est <- estimate32 nan dt sr nbytes budget off g_off x;
  let '(g_int, g_min, reset) := est in
  do q <- quantize32 dt sr g_int x;
  let '(x, nq) := q in
  do b <- nbits32 dt sr nbytes x nq 0;
  let '(nq, nbits, _) := b in
  let st := if reset then mkSpecSt c0 0 else mkSpecSt off (budget - nbits) in
  do g_adj <- adjust_gain dt sr (g_off + g_int) nbits budget (g_off + g_min);
  do q <- (if g_adj =? 0 then Some (x, nq) else quantize32 dt sr g_adj x);
  let '(x, nq) := q in
  do b <- nbits32 dt sr nbytes x nq budget;
  let '(nq, _, lsb) := b in
  Some (mkSide nq lsb (g_int + g_adj + g_off), x, st).

(** src/spec.c lines 820-868 and 882-887: the data of the spectrum in the frame: side data,
    noise factor (estimate_noise) and the [nq] first scaled coefficients, in units of
    2^-149. *)
Definition spectrum32 (nan dt sr bw nbytes : Z) (pitch : bool) (tns : tns_data) (st : spec_state) (x : list f32)
  : option (spec_side * Z * list Z * spec_state) :=
  do r <- analyze32 nan dt sr nbytes pitch tns st x;
  let '(side, x, st) := r in
  do us <- all_some (map f32_units x);
  do nf <- estimate_noise dt bw (is_hr sr) us (q_nq side);
  Some (side, nf, firstn (Z.to_nat (q_nq side)) us, st).
