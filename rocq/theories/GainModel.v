(** * Global gain of the spectrum: src/spec.c, src/fastmath.h
    The spectrum is seen through what the code computes of it on floats: the energies of
    the blocks of 4 coefficients in dB (fixed point, Q16), the comparisons with the limit
    of the quantizer, and the quantized coefficients. The theorems hold for any values of
    these. Signed overflow is [None]. *)
From Coq Require Import ZArith List Bool.
From Verif Require Import Base ConfigModel FloatModel SpecModel BudgetModel.
Import ListNotations.
Local Open Scope Z_scope.

(** src/spec.c lines 33-40: resolve_gain_offset. *)
Definition gain_offset (sr nbytes : Z) : Z :=
  let sr_ind := if is_hr sr then 4 + (sr - SRATE_48K_HR) else sr in
  let g_off := (nbytes * 8) / (10 * (1 + sr_ind)) in
  Z.min (if SRATE_96K_HR <=? sr then 181 else 255) (105 + 5 * (1 + sr_ind) + Z.min g_off 115).

(** ** Energies *)

(** src/fastmath.h lines 173-190: the table of lc3_db_q16. *)
Definition db_table : list (Z * Z) :=
  [(0, 4379); (4379, 4248); (8627, 4125); (12753, 4009);
   (16762, 3899); (20661, 3795); (24456, 3697); (28153, 3603);
   (31755, 3514); (35269, 3429); (38699, 3349); (42047, 3272);
   (45319, 3198); (48517, 3128); (51645, 3061); (54705, 2996);
   (8381, 2934); (11315, 2875); (14190, 2818); (17008, 2763);
   (19772, 2711); (22482, 2660); (25142, 2611); (27754, 2564);
   (30318, 2519); (32837, 2475); (35312, 2433); (37744, 2392);
   (40136, 2352); (42489, 2314); (44803, 2277); (47080, 2241)].

(** src/fastmath.h lines 213-217: lc3_db_q16, from the 32 bits [u] of the float [x*x]. *)
Definition db_q16 (u : Z) : option Z :=
  let e2 := shr u 22 - 2 * 127 in
  let hi := Z.land (shr u 18) 0x1f in
  let lo := Z.land (shr u 2) 0xffff in
  let '(a, b) := znth db_table hi (0, 0) in
  do p <- cint (b * lo); do m <- cint (e2 * 49321); do s <- cint (m + a); cint (s + shr p 16).

(** ** Estimation *)

(** src/spec.c lines 146-148: the constants, fixed point Q16. *)
Definition k_20_28 : Z := 46811.
Definition k_2u7 : Z := 176947.
Definition k_1u4 : Z := 91750.

(** src/spec.c lines 154: the last blocks, below the threshold, are skipped. The blocks are
    in reverse order. *)
Fixpoint skip_low (gn : Z) (es : list Z) : list Z :=
  match es with
  | e :: r => if e <? gn then skip_low gn r else es
  | [] => []
  end.
(** src/spec.c lines 157-161: the cost of a block. *)
Definition block_cost (gn e : Z) : option Z :=
  do e_diff <- cint (e - gn);
  if e_diff <? 0 then Some k_2u7
  else if e_diff <? 43 * 2 ^ 16 then cint (e_diff + 7 * 2 ^ 16)
  else do d2 <- cint (2 * e_diff); cint (d2 - 36 * 2 ^ 16).
(** src/spec.c lines 156-162. *)
Fixpoint sum_costs (gn : Z) (es : list Z) (v : Z) : option Z :=
  match es with
  | [] => Some v
  | e :: r => do c <- block_cost gn e; do v <- cint (v + c); sum_costs gn r v
  end.
(** src/spec.c lines 150-168: the steps of the search; the blocks [es] are those from the
    index [j0] down to 0. *)
Fixpoint search_gain (steps : list Z) (nbits g_int : Z) (es : list Z) : option Z :=
  match steps with
  | [] => Some g_int
  | i :: steps =>
      do gn <- cint ((g_int - i) * k_20_28);
      let es1 := skip_low gn es in
      do v <- sum_costs gn es1 0;
      do lim <- cint (nbits * k_1u4);
      if lim <? v then search_gain steps nbits g_int es1 else search_gain steps nbits (g_int - i) es
  end.
(** src/spec.c lines 174-177: the search of the lower bound; [fits g] is the comparison of
    the limit multiplied by the gain [g] with the maximum of the spectrum. *)
Fixpoint search_min (steps : list Z) (fits : Z -> bool) (g_min : Z) : Z :=
  match steps with
  | [] => g_min
  | i :: steps => search_min steps fits (if fits (g_min - i) then g_min - i else g_min)
  end.
Definition search_steps : list Z := [128; 64; 32; 16; 8; 4; 2; 1].

(** src/spec.c lines 142-184: estimate_gain from its line 142, on the energies [es] of the
    blocks in increasing order, and [x_zero] the comparison of the maximum with 0; returns
    the gain, its lower bound, and [reset_off]. *)
Definition estimate_gain (nbits g_off : Z) (es : list Z) (fits : Z -> bool) (x_zero : bool) : option (Z * Z * bool) :=
  do g_int <- search_gain search_steps nbits (255 - g_off) (rev es);
  let g_min := search_min search_steps fits (255 - g_off) in
  let reset := (g_int <? g_min) || x_zero in
  Some (if reset then g_min else g_int, g_min, reset).

(** ** Adjustment *)

(** src/spec.c lines 205-209: the thresholds. *)
Definition adj_table : list (Z * Z * Z) :=
  [(80, 500, 850); (230, 1025, 1700); (380, 1550, 2550); (530, 2075, 3400); (680, 2600, 4250); (680, 2600, 4250); (830, 3125, 5100)].

(** src/spec.c lines 211-225. *)
Definition adj_delta (sr nbits : Z) : option Z :=
  let '(t0, t1, t2) := znth adj_table sr (0, 0, 0) in
  do dd <-
    (if nbits <? t0 then do d <- cint (3 * (nbits + 48)); Some (d, 48)
     else if nbits <? t1 then
       let n0 := 3 * (t0 + 48) in let range := t1 - t0 in
       do a <- cint (n0 * range); do b <- cint ((nbits - t0) * (t1 - n0)); do d <- cint (a + b); Some (d, 48 * range)
     else Some (Z.min nbits t2, 48));
  let '(d, den) := dd in
  if den =? 0 then None else cint (Z.quot (d + Z.quot den 2) den).

(** src/spec.c lines 199-243: adjust_gain. *)
Definition adjust_gain (dt sr g_idx nbits nbits_budget g_idx_min : Z) : option Z :=
  do delta <- adj_delta sr nbits;
  if is_hr sr && (nbits_budget <? nbits) then
    let factor := 1 + b2z (dt <=? DT_5M) + b2z (dt <=? DT_2M5) * (1 + b2z (520 <=? nbits)) in
    do over <- cint (nbits - nbits_budget); do p <- cint (factor * over);
    if delta =? 0 then None else
    do g_incr <- cint (factor + Z.quot p delta);
    do s <- cint (g_idx + g_incr);
    Some (Z.min s 255 - g_idx)
  else if negb (is_hr sr) && (nbits <? nbits_budget - (delta + 2)) then Some (- b2z (g_idx_min <? g_idx))
  else if negb (is_hr sr) && (nbits_budget <? nbits) then
    Some (b2z (g_idx <? 255) + b2z ((g_idx <? 254) && (nbits_budget + delta <=? nbits)))
  else Some 0.

(** ** Quantization *)

(** src/spec.c lines 262-265: the count of significant coefficients, from the comparisons of
    the coefficients with the threshold, by pairs. *)
Fixpoint count_nq (ne n : Z) (sig : list (bool * bool)) : Z :=
  match sig with
  | [] => n
  | (a, b) :: r => count_nq ne (if a || b then ne else n - 2) r
  end.

(** src/spec.c lines 820-868: lc3_spec_analyze, from the estimation; [q g] are the quantized
    coefficients with the gain [g], up to the count of significants; returns the gain
    index, the count of coefficients coded, and the mode of the least significant bits. *)
Definition spec_analyze (dt sr nbytes nbits_budget nbits : Z) (es : list Z) (fits : Z -> bool) (x_zero : bool) (q : Z -> list Z)
  : option (Z * Z * bool) :=
  let g_off := gain_offset sr nbytes in
  do est <- estimate_gain nbits g_off es fits x_zero;
  let '(g_int, g_min, reset) := est in
  let '(_, nb, _) := compute_nbits dt sr nbytes (q g_int) 0 in
  do g_adj <- adjust_gain dt sr (g_off + g_int) nb nbits_budget (g_off + g_min);
  let '(nq, _, lsb) := compute_nbits dt sr nbytes (q (g_int + g_adj)) nbits_budget in
  Some (g_int + g_adj + g_off, nq, lsb).

(** ** Gains *)

(** src/spec.c lines 52-60: the binary32 values times 2^23. *)
Definition iq_table : list Z := [
  8388608; 9107605; 9888228; 10735759; 11655933; 12654976; 13739648; 14917289; 16195866; 17584032; 19091180; 20727506; 22504084; 24432934; 26527108; 28800776; 31269322; 33949452; 36859296; 40018548; 43448584; 47172608; 51215828; 55605592; 60371608; 65546128; 71164160; 77263720].

(** A positive binary32 number [m * 2^e], of significand [m] on 24 bits at most. *)
Definition pfloat : Type := Z * Z.
(** The product, rounded to nearest; the range of the exponent is not limited. *)
Definition pmul (a b : pfloat) : pfloat :=
  let p := fst a * fst b in let s := f_exp p in (rnd_pos p / 2 ^ s, snd a + snd b + s).

(** src/spec.c lines 65-66, the loops: gain index modulo 28, and power of ten. [None] when
    the fuel is out. *)
Fixpoint gain_loops (fuel : nat) (g_int : Z) (g : pfloat) : option (Z * pfloat) :=
  if g_int <? 0 then match fuel with O => None | S f => gain_loops f (g_int + 28) (pmul g (13421773, -27)) end
  else if 28 <=? g_int then match fuel with O => None | S f => gain_loops f (g_int - 28) (pmul g (10, 0)) end
  else Some (g_int, g).
(** src/spec.c lines 47-69: unquantize_gain. *)
Definition unquantize_gain (g_int : Z) : option pfloat :=
  do r <- gain_loops 10 g_int (1, 0);
  if inb (fst r) (zlen iq_table) then Some (pmul (snd r) (znth iq_table (fst r) 0, -23)) else None.
