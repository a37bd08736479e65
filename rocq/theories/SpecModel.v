(** * Coding of the quantized spectrum
    The coefficients are the quantized integers: a coefficient [q] stands for a
    float whose magnitude [a] (src/spec.c lines 437-438) is [Z.abs q] and whose
    sign test [x < 0] is [q <? 0]. Float values are in the residual model. *)
From Coq Require Import ZArith List Bool.
From Verif Require Import Base Tables BitsModel ConfigModel.
Import ListNotations.
Local Open Scope Z_scope.

(** src/spec.c lines 304-312: resolve_modes; LSB mode allowed, high rate. *)
Definition resolve_modes (sr nbytes : Z) : bool * bool :=
  let sr_ind := if is_hr sr then 4 + (sr - SRATE_48K_HR) else sr in
  ((20 * (3 + sr_ind) <=? nbytes) && (sr <? SRATE_96K_HR),
   (20 * (1 + sr_ind) <? nbytes) && (sr <? SRATE_96K_HR)).

Definition high_rate (sr nbytes : Z) : bool := snd (resolve_modes sr nbytes).

(** src/spec.c lines 431-434: half of the spectrum of the index [i]: the first
    loop on [i] goes to [(ne + 2) >> 1], the second one further. *)
Definition half (ne i : Z) : Z := if i <? shr (ne + 2) 1 then 0 else 1.

(** lc3_spectrum_lookup [high_rate] [h] [state] [k]: index of the model. *)
Definition lookup (high : bool) (h state k : Z) : Z :=
  znth (znth (znth (znth spectrum_lookup (b2z high) []) h []) state []) k 0.

(** [lut] stands for [lut_coeff[state]]: the index of a model for each [k]. *)
Definition spec_model (lut : Z -> Z) (k : Z) : model := znth spectrum_models (lut k) [].

(** src/spec.c line 471: update of the context. *)
Definition next_nibble (k a b : Z) : Z := if 1 <? k then 12 + k else 1 + (a + b) * (k + 1).
Definition next_state (state k a b : Z) : Z := u8 (shl state 4 + next_nibble k a b).

(** ** Writing *)

(** src/spec.c lines 455-460: least significant bits, with their escapes. A
    value has 32 bits at most; [fuel] is larger than this. *)
Fixpoint put_escapes (fuel : nat) (w : wst) (lut : Z -> Z) (a b m k : Z) : wst * Z :=
  match fuel with
  | O => (w, k)
  | S fuel =>
      if m =? 0 then (w, k)
      else
        let w := put_bits w (Z.land (shr a k) 1) 1 in
        let w := put_bits w (Z.land (shr b k) 1) 1 in
        let w := put_symbol w (spec_model lut (Z.min k 3)) 16 in
        put_escapes fuel w lut a b (shr m 1) (k + 1)
  end.

(** src/spec.c lines 436-471: a pair of coefficients. Returns the state. *)
Definition put_pair (w : wst) (lut : Z -> Z) (lsb : bool) (state x0 x1 : Z) : wst * Z :=
  let a := Z.abs x0 in
  let b := Z.abs x1 in
  let m := shr (Z.lor a b) 2 in
  let '(w, a, b, sh, k) :=
    if m =? 0 then (w, a, b, 0, 0)
    else
      let w := if lsb then put_symbol w (spec_model lut 0) 16 else w in
      let '(w, k) := put_escapes 33 w lut a b (shr m (b2z lsb)) (b2z lsb) in
      (w, shr a (b2z lsb), shr b (b2z lsb), k - b2z lsb, Z.min k 3) in
  let w := if a =? 0 then w else put_bits w (b2z (x0 <? 0)) 1 in
  let w := if b =? 0 then w else put_bits w (b2z (x1 <? 0)) 1 in
  let a := shr a sh in
  let b := shr b sh in
  let w := put_symbol w (spec_model lut k) (a + 4 * b) in
  (w, next_state state k a b).

(** src/spec.c lines 431-473: the pairs, from the index [i]. *)
Fixpoint put_pairs (high lsb : bool) (ne i state : Z) (w : wst) (xs : list Z) : wst :=
  match xs with
  | x0 :: x1 :: xs =>
      let '(w, state) := put_pair w (lookup high (half ne i) state) lsb state x0 x1 in
      put_pairs high lsb ne (i + 2) state w xs
  | _ => w
  end.

(** src/spec.c lines 419-474: put_quantized; [xs] are the [nq] first
    coefficients, [nq] even. *)
Definition put_quantized (w : wst) (dt sr nbytes : Z) (xs : list Z) (lsb : bool) : wst :=
  put_pairs (high_rate sr nbytes) lsb (c_ne dt sr) 0 0 w xs.

(** ** Reading *)

(** Symbol of the model [lut[k]]; accesses out of the tables are recorded:
    4 entries in [lut], 64 models. *)
Definition get_spec_symbol (r : rst) (lut : Z -> Z) (k : Z) : Z * rst :=
  get_symbol (r_flag_oob r (negb (inb k 4 && inb (lut k) 64))) (spec_model lut k).

(** src/spec.c lines 531-537: escapes. The loop is bounded by [max_shl], which is
    less than [fuel]. Returns (u, v, k, shl, s). *)
Fixpoint get_escapes (fuel : nat) (r : rst) (lut : Z -> Z) (max_shl u v k sh s : Z)
  : (Z * Z * Z * Z * Z) * rst :=
  match fuel with
  | O => ((u, v, k, sh, s), r)
  | S fuel =>
      if (16 <=? s) && (sh <? max_shl) then
        let '(bu, r) := get_bit r in
        let '(bv, r) := get_bit r in
        let k := k + b2z (k <? 3) in
        let '(s, r) := get_spec_symbol r lut k in
        get_escapes fuel r lut max_shl (Z.lor u (shl bu sh)) (Z.lor v (shl bv sh)) k (sh + 1) s
      else ((u, v, k, sh, s), r)
  end.

(** src/spec.c lines 549-550: value with its sign. *)
Definition get_signed (r : rst) (u : Z) : Z * rst :=
  if u =? 0 then (u, r)
  else let '(b, r) := get_bit r in (if b =? 0 then u else - u, r).

(** src/spec.c lines 514-559: a pair; [None] is the return value -1. *)
Definition get_pair (r : rst) (lut : Z -> Z) (max_shl : Z) (lsb : bool) (state : Z)
  : option (Z * Z * Z) * rst :=
  let '(s, r) := get_spec_symbol r lut 0 in
  let '((k, sh, s), r) :=
    if lsb && (16 <=? s)
    then let '(s, r) := get_spec_symbol r lut 1 in ((1, 1, s), r)
    else ((0, 0, s), r) in
  let '((u, v, k, sh, s), r) := get_escapes 32 r lut max_shl 0 0 k sh s in
  if 16 <=? s then (None, r)
  else
    let a := s mod 4 in
    let b := s / 4 in
    let '(x0, r) := get_signed r (Z.lor u (shl a sh)) in
    let '(x1, r) := get_signed r (Z.lor v (shl b sh)) in
    (Some (x0, x1, next_state state k a b), r).

(** src/spec.c lines 552-553: contribution of a pair to the noise seed. *)
Definition add_seed (seed i x0 x1 : Z) : Z :=
  Z.land (seed + Z.land (Z.abs x0) 32767 * i + Z.land (Z.abs x1) 32767 * (i + 1)) 65535.

(** src/spec.c lines 509-562: [n] pairs from the index [i]; the accesses to the
    row [lut_coeff[state]] of 256 entries are recorded. *)
Fixpoint get_pairs (n : nat) (high lsb : bool) (max_shl ne i state seed : Z) (r : rst)
  : option (list Z * Z) * rst :=
  match n with
  | O => (Some ([], seed), r)
  | S n =>
      let r := r_flag_oob r (negb (inb state 256)) in
      let '(o, r) := get_pair r (lookup high (half ne i) state) max_shl lsb state in
      match o with
      | None => (None, r)
      | Some (x0, x1, state) =>
          let '(o, r) := get_pairs n high lsb max_shl ne (i + 2) state (add_seed seed i x0 x1) r in
          (option_map (fun '(xs, seed) => (x0 :: x1 :: xs, seed)) o, r)
      end
  end.

(** src/spec.c lines 497-565: get_quantized; coefficients and noise seed. *)
Definition get_quantized (r : rst) (dt sr nbytes nq : Z) (lsb : bool)
  : option (list Z * Z) * rst :=
  get_pairs (Z.to_nat (nq / 2)) (high_rate sr nbytes) lsb (if is_hr sr then 22 else 14)
    (c_ne dt sr) 0 0 0 r.

(** ** Least significant bits *)

(** src/spec.c lines 649-659: LSB, and sign when the value is 1; returns the count
    of bits that remain. The count of the C code goes on decreasing below 0. *)
Definition put_lsb1 (w : wst) (nbits x : Z) : wst * Z :=
  let a := Z.abs x in
  let w := if 0 <? nbits then put_bits w (Z.land a 1) 1 else w in
  let nbits := nbits - 1 in
  if a =? 1 then (if 0 <? nbits then put_bits w (b2z (x <? 0)) 1 else w, nbits - 1)
  else (w, nbits).

(** src/spec.c lines 637-661: put_lsb, on the [n] coefficients. *)
Fixpoint put_lsb (w : wst) (nbits : Z) (xs : list Z) : wst :=
  match xs with
  | x0 :: x1 :: xs =>
      if nbits <=? 0 then w
      else if shr (Z.lor (Z.abs x0) (Z.abs x1)) 2 =? 0 then put_lsb w nbits xs
      else
        let '(w, nbits) := put_lsb1 w nbits x0 in
        let '(w, nbits) := put_lsb1 w nbits x1 in
        put_lsb w nbits xs
  | _ => w
  end.

(** src/spec.c lines 680-688 and 690-698: LSB of the coefficient [x] of index [i];
    returns the value, the count of bits that remain and the seed. *)
Definition get_lsb1 (r : rst) (nbits x i seed : Z) : (Z * Z * Z) * rst :=
  if 0 <? nbits then
    let nbits := nbits - 1 in
    let '(b, r) := get_bit r in
    if b =? 0 then ((x, nbits, seed), r)
    else if negb (x =? 0) then
      ((x + (if x <? 0 then -1 else 1), nbits, Z.land (seed + i) 65535), r)
    else if 0 <? nbits then
      let '(s, r) := get_bit r in
      ((if s =? 0 then 1 else -1, nbits - 1, Z.land (seed + i) 65535), r)
    else ((x, nbits - 1, seed), r)
  else ((x, nbits - 1, seed), r).

(** src/spec.c lines 670-700: get_lsb, from the index [i]. *)
Fixpoint get_lsb (r : rst) (nbits : Z) (xs : list Z) (i seed : Z) : (list Z * Z) * rst :=
  match xs with
  | x0 :: x1 :: xs =>
      if nbits <=? 0 then ((x0 :: x1 :: xs, seed), r)
      else if Z.max (Z.abs x0) (Z.abs x1) <? 4 then
        let '((ys, seed), r) := get_lsb r nbits xs (i + 2) seed in
        ((x0 :: x1 :: ys, seed), r)
      else
        let '((y0, nbits, seed), r) := get_lsb1 r nbits x0 i seed in
        let '((y1, nbits, seed), r) := get_lsb1 r nbits x1 (i + 1) seed in
        let '((ys, seed), r) := get_lsb r nbits xs (i + 2) seed in
        ((y0 :: y1 :: ys, seed), r)
  | xs => ((xs, seed), r)
  end.
