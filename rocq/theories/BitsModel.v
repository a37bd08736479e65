(** * Model of the bitstream layer: src/bits.h and src/bits.c
    Definitions only. Offsets replace pointers: [buffer->start] is offset 0,
    [buffer->end] is the length of the buffer list. *)
From Coq Require Import ZArith List Bool.
From Verif Require Import Base.
Import ListNotations.
Local Open Scope Z_scope.

(** Probability model: src/bits.h lines 79-86, 17 pairs (low, range). *)
Definition model := list (Z * Z).
Definition sym_low (m : model) (s : Z) : Z := fst (znth m s (0, 0)).
Definition sym_range (m : model) (s : Z) : Z := snd (znth m s (0, 0)).

(** ** Writing *)

(** Writer context: src/bits.h lines 94-117 in WRITE mode.
    [w_oob]: a byte was written outside of the buffer (never true, see proofs);
    [w_ub]: a shift with a count outside 0..31, or a symbol outside of the model;
    [w_stuck]: a renormalisation loop that does not terminate. *)
Record wst := mkW {
  w_buf : list Z; w_fw : Z; w_bw : Z;
  w_v : Z; w_n : Z;
  w_low : Z; w_range : Z; w_cache : Z; w_carry : Z; w_cc : Z;
  w_oob : bool; w_ub : bool; w_stuck : bool }.

(** Store a byte, [*p = v] with [uint8_t *p]. *)
Definition w_store (w : wst) (i v : Z) : wst :=
  mkW (upd (w_buf w) i (u8 v)) (w_fw w) (w_bw w) (w_v w) (w_n w)
      (w_low w) (w_range w) (w_cache w) (w_carry w) (w_cc w)
      (w_oob w || negb (inb i (zlen (w_buf w)))) (w_ub w) (w_stuck w).

Definition w_set_fw (w : wst) (fw : Z) : wst :=
  mkW (w_buf w) fw (w_bw w) (w_v w) (w_n w) (w_low w) (w_range w)
      (w_cache w) (w_carry w) (w_cc w) (w_oob w) (w_ub w) (w_stuck w).
Definition w_set_bw (w : wst) (bw : Z) : wst :=
  mkW (w_buf w) (w_fw w) bw (w_v w) (w_n w) (w_low w) (w_range w)
      (w_cache w) (w_carry w) (w_cc w) (w_oob w) (w_ub w) (w_stuck w).
Definition w_set_accu (w : wst) (v n : Z) : wst :=
  mkW (w_buf w) (w_fw w) (w_bw w) v n (w_low w) (w_range w)
      (w_cache w) (w_carry w) (w_cc w) (w_oob w) (w_ub w) (w_stuck w).
Definition w_set_ac (w : wst) (low range cache carry cc : Z) : wst :=
  mkW (w_buf w) (w_fw w) (w_bw w) (w_v w) (w_n w) low range
      cache carry cc (w_oob w) (w_ub w) (w_stuck w).
Definition w_flag_ub (w : wst) (b : bool) : wst :=
  mkW (w_buf w) (w_fw w) (w_bw w) (w_v w) (w_n w) (w_low w) (w_range w)
      (w_cache w) (w_carry w) (w_cc w) (w_oob w) (w_ub w || b) (w_stuck w).
Definition w_flag_stuck (w : wst) : wst :=
  mkW (w_buf w) (w_fw w) (w_bw w) (w_v w) (w_n w) (w_low w) (w_range w)
      (w_cache w) (w_carry w) (w_cc w) (w_oob w) (w_ub w) true.

(** src/bits.c lines 35-42: ac_get_range_bits, 1 + log2(range), 0 for 0. *)
Definition range_bits (range : Z) : Z :=
  if range <=? 0 then 0 else 1 + Z.log2 range.

(** src/bits.c lines 49-53: ac_get_pending_bits. *)
Definition pending_bits (range cache cc : Z) : Z :=
  26 - range_bits range + (b2z (0 <=? cache) + cc) * 8.

(** src/bits.c lines 60-75: get_bits_left in WRITE mode (nover is 0).
    The [uintptr_t] comparison computes the signed distance. *)
Definition w_bits_left (w : wst) : Z :=
  8 * (w_bw w - w_fw w) -
  (w_n w + pending_bits (w_range w) (w_cache w) (w_cc w)).

(** src/bits.c lines 80-96: lc3_setup_bits in WRITE mode, on a buffer
    with arbitrary initial contents. *)
Definition w_setup (buf : list Z) : wst :=
  mkW buf 0 (zlen buf) 0 0 0 (2 ^ 24 - 1) (-1) 0 0 false false false.

(** src/bits.c lines 114-117: lc3_get_bits_left. *)
Definition w_get_bits_left (w : wst) : Z := Z.max (w_bits_left w) 0.

(** src/bits.c lines 122-127: lc3_check_bits (WRITE mode, error is false). *)
Definition w_check (w : wst) : Z := if w_bits_left w <? 0 then -1 else 0.

(** src/bits.c lines 147-148: the byte loop of accu_flush. *)
Fixpoint accu_flush_loop (nbytes : nat) (w : wst) : wst :=
  match nbytes with
  | O => w
  | S k =>
      let w := w_set_bw w (w_bw w - 1) in
      let w := w_store w (w_bw w) (Z.land (w_v w) 255) in
      accu_flush_loop k (w_set_accu w (shr (w_v w) 8) (w_n w))
  end.

(** src/bits.c lines 139-152: accu_flush. *)
Definition accu_flush (w : wst) : wst :=
  let nbytes := Z.min (shr (w_n w) 3) (Z.max (w_bw w - w_fw w) 0) in
  let w := w_set_accu w (w_v w) (w_n w - 8 * nbytes) in
  let w := accu_flush_loop (Z.to_nat nbytes) w in
  if 8 <=? w_n w then w_set_accu w (w_v w) 0 else w.

(** src/bits.c lines 159-163: ac_put. *)
Definition ac_put (w : wst) (byte : Z) : wst :=
  if w_fw w <? zlen (w_buf w)
  then w_set_fw (w_store w (w_fw w) byte) (w_fw w + 1)
  else w.

Fixpoint ac_put_n (n : nat) (w : wst) (byte : Z) : wst :=
  match n with O => w | S k => ac_put_n k (ac_put w byte) byte end.

(** src/bits.c lines 170-188: ac_shift. *)
Definition ac_shift (w : wst) : wst :=
  let w :=
    if (w_low w <? 16711680) || negb (w_carry w =? 0) then
      let w1 := if 0 <=? w_cache w
                then ac_put w (w_cache w + w_carry w) else w in
      let w2 := ac_put_n (Z.to_nat (w_cc w)) w1
                  (if w_carry w =? 0 then 255 else 0) in
      w_set_ac w2 (w_low w) (w_range w) (shr (w_low w) 16) 0 0
    else
      w_set_ac w (w_low w) (w_range w) (w_cache w) (w_carry w) (w_cc w + 1) in
  w_set_ac w (Z.land (u32 (shl (w_low w) 8)) (2 ^ 24 - 1)) (w_range w)
    (w_cache w) (w_carry w) (w_cc w).

(** src/bits.c lines 288-294: lc3_ac_write_renorm. The C loop has no bound;
    two rounds are enough for every non-zero range, the flag is set otherwise. *)
Fixpoint w_renorm (fuel : nat) (w : wst) : wst :=
  if w_range w <? 65536 then
    match fuel with
    | O => w_flag_stuck w
    | S k =>
        let w := ac_shift w in
        w_renorm k (w_set_ac w (w_low w) (u32 (shl (w_range w) 8))
                      (w_cache w) (w_carry w) (w_cc w))
    end
  else w.

(** src/bits.h lines 258-273: lc3_put_symbol. *)
Definition put_symbol (w : wst) (m : model) (s : Z) : wst :=
  let w := w_flag_ub w (negb (inb s (zlen m))) in
  let range := shr (w_range w) 10 in
  let low := u32 (w_low w + range * sym_low m s) in
  let w := w_set_ac w (Z.land low (2 ^ 24 - 1)) (u32 (range * sym_range m s))
             (w_cache w) (Z.lor (w_carry w) (shr low 24)) (w_cc w) in
  if w_range w <? 65536 then w_renorm 2 w else w.

(** src/bits.c lines 265-283: lc3_put_bits_generic. *)
Definition put_bits_generic (w : wst) (v n : Z) : wst :=
  let n1 := Z.min (32 - w_n w) n in
  let w := if n1 =? 0 then w
           else w_set_accu w (Z.lor (w_v w) (u32 (shl v (w_n w)))) 32 in
  let w := accu_flush w in
  w_set_accu w (shr v n1) (n - n1).

(** src/bits.h lines 218-229: lc3_put_bits; [v] is unsigned. *)
Definition put_bits (w : wst) (v n : Z) : wst :=
  let v := u32 v in
  if w_n w + n <=? 32
  then w_set_accu (w_flag_ub w (negb (inb (w_n w) 32)))
         (Z.lor (w_v w) (u32 (shl v (w_n w)))) (w_n w + n)
  else put_bits_generic w v n.

(** src/bits.h lines 210-213: lc3_put_bit. *)
Definition put_bit (w : wst) (b : bool) : wst := put_bits w (b2z b) 1.

(** src/bits.c lines 201-219, with low, range and nbits as inputs:
    returns (nbits, low, carry increment). *)
Definition terminate_value (low range : Z) : Z * Z * bool :=
  let nbits := 25 - range_bits range in
  let mask := shr (2 ^ 24 - 1) nbits in
  let val := u32 (low + mask) in
  let high := u32 (low + range) in
  let over_val := negb (shr val 24 =? 0) in
  let over_high := negb (shr high 24 =? 0) in
  let val := Z.ldiff (Z.land val (2 ^ 24 - 1)) mask in
  let high := Z.land high (2 ^ 24 - 1) in
  if Bool.eqb over_val over_high then
    if high <=? val + mask then
      let mask := shr mask 1 in
      let val := Z.ldiff (Z.land (u32 (low + mask)) (2 ^ 24 - 1)) mask in
      (nbits + 1, val, val <? low)
    else (nbits, val, val <? low)
  else (nbits, val, false).

(** src/bits.c lines 196-241: ac_terminate. nbits is between 1 and 9,
    so that the loop of line 223 runs at most once. *)
Definition ac_terminate (w : wst) : wst :=
  let '(nbits, val, c) := terminate_value (w_low w) (w_range w) in
  let w := w_set_ac w val (w_range w) (w_cache w)
             (Z.lor (w_carry w) (b2z c)) (w_cc w) in
  let '(w, nbits) := if 8 <? nbits then (ac_shift w, nbits - 8) else (w, nbits) in
  let w := ac_shift w in
  let end_val := shr (w_cache w) (8 - nbits) in
  let '(w, end_val) :=
    if w_cc w =? 0 then (w, end_val)
    else
      let w := ac_put w (w_cache w) in
      let w := ac_put_n (Z.to_nat (w_cc w - 1)) w 255 in
      let w := w_set_ac w (w_low w) (w_range w) (w_cache w) (w_carry w) 1 in
      (w, if nbits <? 8 then 0 else 255) in
  let w := w_flag_ub w (negb (inb nbits 9)) in
  if w_fw w <? zlen (w_buf w) then
    let w := w_store w (w_fw w)
               (Z.land (znth (w_buf w) (w_fw w) 0) (shr 255 nbits)) in
    w_store w (w_fw w)
      (Z.lor (znth (w_buf w) (w_fw w) 0) (shl end_val (8 - nbits)))
  else w.

(** src/bits.c lines 252-254: padding loop of lc3_flush_bits,
    one round per 32 bits still to be padded. *)
Fixpoint pad_loop (fuel : nat) (n : Z) (w : wst) : wst :=
  match fuel with
  | O => w
  | S k => if 0 <? n then pad_loop k (n - 32) (put_bits w 0 (Z.min n 32)) else w
  end.

(** src/bits.c lines 246-259: lc3_flush_bits. The bound of [pad_loop] is
    the number of rounds of the C loop. *)
Definition flush_bits (w : wst) : wst :=
  let nleft := w_bw w - w_fw w in
  let n := 8 * nleft - w_n w in
  let w := pad_loop (Z.to_nat n) n w in
  let w := accu_flush w in
  ac_terminate w.

(** ** Reading *)

(** Reader context: src/bits.h lines 94-117 in READ mode.
    [r_hw v] is what the machine computes for [v >> 32], undefined in C;
    [r_ub] records that it happened (or another undefined shift),
    [r_oob] a read outside of the buffer or of a table,
    [r_stuck] a renormalisation loop that does not terminate. *)
Record rst := mkR {
  r_buf : list Z; r_fw : Z; r_bw : Z;
  r_v : Z; r_n : Z; r_nover : Z;
  r_low : Z; r_range : Z; r_error : bool;
  r_hw : Z -> Z;
  r_oob : bool; r_ub : bool; r_stuck : bool }.

Definition r_set_fw (r : rst) (fw : Z) : rst :=
  mkR (r_buf r) fw (r_bw r) (r_v r) (r_n r) (r_nover r)
    (r_low r) (r_range r) (r_error r) (r_hw r) (r_oob r) (r_ub r) (r_stuck r).
Definition r_set_bw (r : rst) (bw : Z) : rst :=
  mkR (r_buf r) (r_fw r) bw (r_v r) (r_n r) (r_nover r)
    (r_low r) (r_range r) (r_error r) (r_hw r) (r_oob r) (r_ub r) (r_stuck r).
Definition r_set_accu (r : rst) (v n nover : Z) : rst :=
  mkR (r_buf r) (r_fw r) (r_bw r) v n nover
    (r_low r) (r_range r) (r_error r) (r_hw r) (r_oob r) (r_ub r) (r_stuck r).
Definition r_set_ac (r : rst) (low range : Z) (error : bool) : rst :=
  mkR (r_buf r) (r_fw r) (r_bw r) (r_v r) (r_n r) (r_nover r)
    low range error (r_hw r) (r_oob r) (r_ub r) (r_stuck r).
Definition r_flag_oob (r : rst) (b : bool) : rst :=
  mkR (r_buf r) (r_fw r) (r_bw r) (r_v r) (r_n r) (r_nover r)
    (r_low r) (r_range r) (r_error r) (r_hw r) (r_oob r || b) (r_ub r) (r_stuck r).
Definition r_flag_ub (r : rst) (b : bool) : rst :=
  mkR (r_buf r) (r_fw r) (r_bw r) (r_v r) (r_n r) (r_nover r)
    (r_low r) (r_range r) (r_error r) (r_hw r) (r_oob r) (r_ub r || b) (r_stuck r).
Definition r_flag_stuck (r : rst) : rst :=
  mkR (r_buf r) (r_fw r) (r_bw r) (r_v r) (r_n r) (r_nover r)
    (r_low r) (r_range r) (r_error r) (r_hw r) (r_oob r) (r_ub r) true.

(** Load a byte of the buffer, [*p] with [uint8_t *p]. *)
Definition r_load (r : rst) (i : Z) : Z * rst :=
  (znth (r_buf r) i 0, r_flag_oob r (negb (inb i (zlen (r_buf r))))).

(** src/bits.c lines 60-75: get_bits_left in READ mode
    (cache = -1 and carry_count = 0 in this mode). *)
Definition r_bits_left (r : rst) : Z :=
  8 * ((r_bw r + 4) - (r_fw r - 3)) -
  (r_n r + r_nover r + pending_bits (r_range r) (-1) 0).

(** src/bits.c lines 114-127: lc3_get_bits_left, lc3_check_bits. *)
Definition r_get_bits_left (r : rst) : Z := Z.max (r_bits_left r) 0.
Definition r_check (r : rst) : Z :=
  if (r_bits_left r <? 0) || r_error r then -1 else 0.

(** src/bits.c lines 306-309: ac_get. *)
Definition ac_get (r : rst) : Z * rst :=
  if r_fw r <? zlen (r_buf r)
  then let '(b, r) := r_load r (r_fw r) in (b, r_set_fw r (r_fw r + 1))
  else (0, r).

(** src/bits.c lines 323-326: the byte loop of accu_load. *)
Fixpoint accu_load_loop (nbytes : nat) (r : rst) : rst :=
  match nbytes with
  | O => r
  | S k =>
      let r := r_set_bw r (r_bw r - 1) in
      let '(b, r) := r_load r (r_bw r) in
      accu_load_loop k
        (r_set_accu r (Z.lor (shr (r_v r) 8) (u32 (shl b 24))) (r_n r) (r_nover r))
  end.

(** src/bits.c lines 316-333: accu_load. The shift of line 330 is undefined
    when the count is 32. *)
Definition accu_load (r : rst) : rst :=
  let nbytes := Z.min (shr (r_n r) 3) (r_bw r) in
  let r := r_set_accu r (r_v r) (r_n r - 8 * nbytes) (r_nover r) in
  let r := accu_load_loop (Z.to_nat nbytes) r in
  if 8 <=? r_n r then
    let nover := Z.min (r_nover r + r_n r) 32 in
    if r_n r <? 32
    then r_set_accu r (shr (r_v r) (r_n r)) 0 nover
    else r_flag_ub (r_set_accu r (u32 (r_hw r (r_v r))) 0 nover) true
  else r.

(** src/bits.c lines 80-109: lc3_setup_bits in READ mode. *)
Definition r_setup (hw : Z -> Z) (buf : list Z) : rst :=
  let r := mkR buf 0 (zlen buf) 0 32 0 0 (2 ^ 24 - 1) false hw false false false in
  let '(b0, r) := ac_get r in
  let '(b1, r) := ac_get r in
  let '(b2, r) := ac_get r in
  let r := r_set_ac r (Z.lor (Z.lor (shl b0 16) (shl b1 8)) b2)
             (r_range r) (r_error r) in
  accu_load r.

(** src/bits.c lines 339-364: lc3_get_bits_generic. *)
Definition get_bits_generic (r : rst) (n : Z) : Z * rst :=
  let r := accu_load r in
  let n1 := Z.min (32 - r_n r) n in
  let v := Z.land (shr (r_v r) (r_n r)) (2 ^ n1 - 1) in
  let r := r_flag_ub r (negb (inb (r_n r) 32 && inb n1 32)) in
  let r := r_set_accu r (r_v r) (r_n r + n1) (r_nover r) in
  let n2 := n - n1 in
  if n2 =? 0 then (v, r)
  else
    let r := accu_load r in
    let v2 := Z.land (shr (r_v r) (r_n r)) (2 ^ n2 - 1) in
    let r := r_flag_ub r (negb (inb (r_n r) 32 && inb n2 32)) in
    (Z.lor v (u32 (shl v2 n1)), r_set_accu r (r_v r) (r_n r + n2) (r_nover r)).

(** src/bits.h lines 242-253: lc3_get_bits. *)
Definition get_bits (r : rst) (n : Z) : Z * rst :=
  if r_n r + n <=? 32 then
    let v := Z.land (shr (r_v r) (r_n r)) (2 ^ n - 1) in
    let r := r_flag_ub r (negb (inb (r_n r) 32 && inb n 32)) in
    (v, r_set_accu r (r_v r) (r_n r + n) (r_nover r))
  else get_bits_generic r n.

(** src/bits.h lines 234-237: lc3_get_bit. *)
Definition get_bit (r : rst) : Z * rst := get_bits r 1.

(** src/bits.c lines 369-375: lc3_ac_read_renorm. The C loop has no bound;
    two rounds are enough for every non-zero range, the flag is set otherwise. *)
Fixpoint r_renorm (fuel : nat) (r : rst) : rst :=
  if r_range r <? 65536 then
    match fuel with
    | O => r_flag_stuck r
    | S k =>
        let '(b, r) := ac_get r in
        r_renorm k (r_set_ac r
          (Z.land (Z.lor (u32 (shl (r_low r) 8)) b) (2 ^ 24 - 1))
          (u32 (shl (r_range r) 8)) (r_error r))
    end
  else r.

(** src/bits.h lines 290-298: the symbol search, [low] against [range * low_s]. *)
Definition search_symbol (low range : Z) (m : model) : Z :=
  let lt s := low <? range * sym_low m s in
  if lt 16 then
    let s := 8 in
    let s := s - (if lt s then 4 else -4) in
    let s := s - (if lt s then 2 else -2) in
    let s := s - (if lt s then 1 else -1) in
    s - b2z (lt s)
  else 16.

(** src/bits.h lines 278-307: lc3_get_symbol. *)
Definition get_symbol (r : rst) (m : model) : Z * rst :=
  let range := Z.land (shr (r_range r) 10) 65535 in
  let error := r_error r || (shl range 10 <=? r_low r) in
  let low := if error then 0 else r_low r in
  let s := search_symbol low range m in
  let r := r_flag_oob r (negb (inb s (zlen m))) in
  let r := r_set_ac r (u32 (low - range * sym_low m s))
             (u32 (range * sym_range m s)) error in
  (s, if r_range r <? 65536 then r_renorm 2 r else r).
