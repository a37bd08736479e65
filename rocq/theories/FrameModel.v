(** * The whole bitstream of a frame
    The float coefficients are integers in units of 2^-149 ([FloatModel]); the gain
    and the noise substitution, which follow in lc3_spec_decode, are not there. *)
From Coq Require Import ZArith List Bool.
From Verif Require Import Base BitsModel ConfigModel SideModel SpecModel FloatModel ResidualModel.
Import ListNotations.
Local Open Scope Z_scope.

(** src/lc3.c lines 38-45 (struct side_data), with what lc3_spec_encode codes: the
    noise factor [f_nf] (result of estimate_noise) and [f_x], the [nq] first scaled
    coefficients. *)
Record frame := mkFrame {
  f_bw : Z; f_side : spec_side; f_tns : tns_data; f_pitch : bool; f_sns : sns_data;
  f_ltpf : ltpf_data; f_nf : Z; f_x : list Z }.

(** Quantized coefficients. *)
Definition f_q (sr : Z) (f : frame) : list Z := map (quant rnd (is_hr sr)) (f_x f).

(** src/lc3.c lines 350-361 and src/spec.c lines 887-897: all that precedes the
    residual or the least significant bits; src/spec.c lines 775-778: noise factor. *)
Definition put_main (w : wst) (dt sr nbytes : Z) (f : frame) : wst :=
  let w := put_bw w sr (f_bw f) in
  let w := put_spec_side w dt sr (f_side f) in
  let w := put_tns w (f_tns f) in
  let w := put_bit w (b2z (f_pitch f)) in
  let w := put_sns w (f_sns f) in
  let w := if f_pitch f then put_ltpf w (f_ltpf f) else w in
  let w := put_bits w (f_nf f) 3 in
  put_quantized w dt sr nbytes (f_q sr f) (q_lsb (f_side f)).

(** src/lc3.c lines 337-363: encode, before lc3_flush_bits; src/spec.c lines 899-904. *)
Definition put_frame (w : wst) (dt sr nbytes : Z) (f : frame) : wst :=
  let w := put_main w dt sr nbytes f in
  let nbits_left := w_get_bits_left w in
  if q_lsb (f_side f) then put_lsb w nbits_left (f_q sr f)
  else put_residual rnd w nbits_left (is_hr sr) (f_x f).

Definition encode (buf : list Z) (dt sr : Z) (f : frame) : list Z :=
  w_buf (flush_bits (put_frame (w_setup buf) dt sr (zlen buf) f)).

(** What the decoder extracts: the long term postfilter data are there with a pitch
    only; [d_x] are the [nq] coefficients, [d_seed] the seed of the noise generator. *)
Record decoded := mkDecoded {
  d_bw : Z; d_side : spec_side; d_tns : tns_data; d_sns : sns_data;
  d_ltpf : option ltpf_data; d_nf : Z; d_x : list Z; d_seed : Z }.

(** src/lc3.c lines 598-599. *)
Definition get_pitch (r : rst) (p : Z) : option ltpf_data * rst :=
  if p =? 0 then (None, r) else let '(l, r) := get_ltpf r in (Some l, r).

(** src/spec.c lines 937-943: noise factor and coefficients; lines 785-788: 3 bits. *)
Definition get_coeffs (r : rst) (dt sr nbytes : Z) (s : spec_side) : option (Z * list Z * Z) * rst :=
  let '(nf, r) := get_bits r 3 in
  let '(o, r) := get_quantized r dt sr nbytes (q_nq s) (q_lsb s) in
  (option_map (fun '(ts, seed) => (nf, ts, seed)) o, r).

(** src/lc3.c lines 584-605 and src/spec.c lines 937-943; the coefficients are those
    of get_quantized. [None] is a negative return. *)
Definition get_main (lf_first : bool) (r : rst) (dt sr nbytes : Z) : option decoded * rst :=
  let '(ret, bw, r) := get_bw r sr in
  if ret <? 0 then (None, r)
  else
    let '(ret, s, r) := get_spec_side r dt sr in
    if ret <? 0 then (None, r)
    else
      let '(tns, r) := get_tns r dt bw nbytes in
      match tns with
      | None => (None, r)
      | Some tns =>
          let '(p, r) := get_bit r in
          let '(sns, r) := get_sns lf_first r in
          match sns with
          | None => (None, r)
          | Some sns =>
              let '(l, r) := get_pitch r p in
              let '(o, r) := get_coeffs r dt sr nbytes s in
              (option_map (fun '(nf, ts, seed) => mkDecoded bw s tns sns l nf ts seed) o, r)
          end
      end.

Definition d_set_x (d : decoded) (xs : list Z) (seed : Z) : decoded :=
  mkDecoded (d_bw d) (d_side d) (d_tns d) (d_sns d) (d_ltpf d) (d_nf d) xs seed.

(** src/spec.c lines 945-950. *)
Definition get_tail (n : Z) (sr : Z) (d : decoded) (r : rst) : decoded * rst :=
  if q_lsb (d_side d) then
    let '((xs, seed), r) := get_lsb r n (d_x d) 0 (d_seed d) in
    (d_set_x d (map (fun q => q * one) xs) seed, r)
  else
    let '(xs, r) := get_residual rnd r n (is_hr sr) (map (fun q => q * one) (d_x d)) in
    (d_set_x d xs (d_seed d), r).

(** src/lc3.c lines 571-610: decode; [None] is a negative return. *)
Definition get_frame (lf_first : bool) (r : rst) (dt sr nbytes : Z) : option decoded * rst :=
  let '(o, r) := get_main lf_first r dt sr nbytes in
  match o with
  | None => (None, r)
  | Some d =>
      let '(d, r) := get_tail (r_get_bits_left r) sr d r in
      (if r_check r <? 0 then None else Some d, r)
  end.

Definition decode (lf_first : bool) (hw : Z -> Z) (data : list Z) (dt sr : Z) : option decoded :=
  fst (get_frame lf_first (r_setup hw data) dt sr (zlen data)).
