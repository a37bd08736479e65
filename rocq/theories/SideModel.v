(** * Side data of a frame: bandwidth, LTPF, SNS, TNS, spectrum side data *)
From Coq Require Import ZArith List Bool.
From Verif Require Import Base Tables BitsModel ConfigModel.
Import ListNotations.
Local Open Scope Z_scope.

(** src/bits.h lines 210-213: lc3_put_bit. *)
Definition put_bit (w : wst) (v : Z) : wst := put_bits w v 1.

(** ** Bandwidth *)

(** src/bwdet.c lines 125-128: lc3_bwdet_get_nbits. *)
Definition bw_nbits (sr : Z) : Z :=
  if is_hr sr then 0 else b2z (0 <? sr) + b2z (1 <? sr) + b2z (3 <? sr).

(** src/bwdet.c lines 133-139: lc3_bwdet_put_bw. *)
Definition put_bw (w : wst) (sr bw : Z) : wst :=
  if 0 <? bw_nbits sr then put_bits w bw (bw_nbits sr) else w.

(** src/bwdet.c lines 144-155: lc3_bwdet_get_bw; returned value, bandwidth. *)
Definition get_bw (r : rst) (sr : Z) : Z * Z * rst :=
  let '(bw, r) := if bw_nbits sr <=? 0 then (sr, r) else get_bits r (bw_nbits sr) in
  if sr <? bw then (-1, sr, r) else (0, bw, r).

(** ** Long Term Postfilter *)

Record ltpf_data := mkLtpf { l_active : Z; l_pitch : Z }.

(** src/ltpf.c lines 941-944: lc3_ltpf_get_nbits. *)
Definition ltpf_nbits (pitch : bool) : Z := 1 + 10 * b2z pitch.

(** src/ltpf.c lines 949-954: lc3_ltpf_put_data. *)
Definition put_ltpf (w : wst) (d : ltpf_data) : wst :=
  let w := put_bit w (l_active d) in put_bits w (l_pitch d) 9.

(** src/ltpf.c lines 959-964: lc3_ltpf_get_data. *)
Definition get_ltpf (r : rst) : ltpf_data * rst :=
  let '(a, r) := get_bit r in
  let '(p, r) := get_bits r 9 in
  (mkLtpf a p, r).

(** ** Spectral Noise Shaping *)

(** src/sns.h lines 29-34: struct lc3_sns_data; the booleans are 0 or 1. *)
Record sns_data := mkSns {
  s_lfcb : Z; s_hfcb : Z; s_shape : Z; s_gain : Z;
  s_idx_a : Z; s_ls_a : Z; s_idx_b : Z; s_ls_b : Z }.

(** src/sns.c lines 835-871: lc3_sns_put_data. *)
Definition put_sns (w : wst) (d : sns_data) : wst :=
  let w := put_bits w (s_lfcb d) 5 in
  let w := put_bits w (s_hfcb d) 5 in
  let shape_msb := shr (s_shape d) 1 in
  let w := put_bit w shape_msb in
  let submode := Z.land (s_shape d) 1 in
  if shape_msb =? 0 then
    let mux_high := if submode =? 0 then 2 * (s_idx_b d + 1) + s_ls_b d
                    else Z.land (s_gain d) 1 in
    let mux_code := mux_high * 2390004 + s_idx_a d in
    let w := put_bits w (shr (s_gain d) submode) 1 in
    let w := put_bits w (s_ls_a d) 1 in
    put_bits w mux_code 25
  else
    let mux_code := if submode =? 0 then s_idx_a d
                    else 15158272 + 2 * s_idx_a d + Z.land (s_gain d) 1 in
    let w := put_bits w (shr (s_gain d) submode) 2 in
    let w := put_bits w (s_ls_a d) 1 in
    put_bits w mux_code 24.

(** src/sns.c lines 877-930: lc3_sns_get_data. [None] is the return value -1.
    The C initialiser list of lines 881-884 calls lc3_get_bits twice in an order
    the C standard does not specify: [lf_first] is the order the compiler chose. *)
Definition get_sns (lf_first : bool) (r : rst) : option sns_data * rst :=
  let '(c1, r) := get_bits r 5 in
  let '(c2, r) := get_bits r 5 in
  let lfcb := if lf_first then c1 else c2 in
  let hfcb := if lf_first then c2 else c1 in
  let '(shape_msb, r) := get_bit r in
  let '(gain, r) := get_bits r (1 + shape_msb) in
  let '(ls_a, r) := get_bit r in
  let '(mux, r) := get_bits r (25 - shape_msb) in
  if shape_msb =? 0 then
    if 2390004 * 14 <=? mux then (None, r)
    else
      let idx_a := mux mod 2390004 in
      let mux := mux / 2390004 in
      if 2 <=? mux then
        (Some (mkSns lfcb hfcb 0 gain idx_a ls_a ((mux - 2) / 2) ((mux - 2) mod 2)), r)
      else
        (Some (mkSns lfcb hfcb 1 (shl gain 1 + mux mod 2) idx_a ls_a 0 0), r)
  else
    if 15158272 + 1549824 <=? mux then (None, r)
    else if mux <? 15158272 then
      (Some (mkSns lfcb hfcb 2 gain mux ls_a 0 0), r)
    else
      let mux := mux - 15158272 in
      (Some (mkSns lfcb hfcb 3 (shl gain 1 + mux mod 2) (mux / 2) ls_a 0 0), r).

(** ** Temporal Noise Shaping *)

(** src/tns.h lines 30-35: struct lc3_tns_data. A filter is the list of its
    [rc_order] coefficients. *)
Record tns_data := mkTns { t_weighting : bool; t_filters : list (list Z) }.

(** src/tns.c lines 32-35: resolve_lpc_weighting. *)
Definition resolve_lpc_weighting (dt nbytes : Z) : bool := nbytes * 8 <? 120 * (1 + dt).

(** src/tns.c lines 401 and 490. *)
Definition tns_nfilters (dt bw : Z) : nat :=
  if (DT_5M <=? dt) && (SRATE_32K <=? bw) then 2%nat else 1%nat.

Definition tns_order_model (lpcw : bool) : model := znth tns_order_models (b2z lpcw) [].
Definition tns_coeff_model (i : Z) : model := znth tns_coeffs_models i [].

(** src/tns.c lines 478-480: coefficients, from the index [i]. *)
Fixpoint put_tns_coeffs (w : wst) (i : Z) (rc : list Z) : wst :=
  match rc with
  | [] => w
  | c :: rc => put_tns_coeffs (put_symbol w (tns_coeff_model i) (8 + c)) (i + 1) rc
  end.

(** src/tns.c lines 468-481: one filter. *)
Definition put_tns_filter (lpcw : bool) (w : wst) (rc : list Z) : wst :=
  let w := put_bits w (b2z (0 <? zlen rc)) 1 in
  if zlen rc <=? 0 then w
  else put_tns_coeffs (put_symbol w (tns_order_model lpcw) (zlen rc - 1)) 0 rc.

(** src/tns.c lines 466-482: lc3_tns_put_data. *)
Definition put_tns (w : wst) (d : tns_data) : wst :=
  fold_left (put_tns_filter (t_weighting d)) (t_filters d) w.

(** src/tns.c lines 504-506: [n] coefficients, from the index [i]. *)
Fixpoint get_tns_coeffs (n : nat) (r : rst) (i : Z) : list Z * rst :=
  match n with
  | O => ([], r)
  | S n =>
      let '(s, r) := get_symbol r (tns_coeff_model i) in
      let '(rc, r) := get_tns_coeffs n r (i + 1) in
      (s - 8 :: rc, r)
  end.

(** src/tns.c lines 493-507: the filters that remain; [None] is the return -1. *)
Fixpoint get_tns_filters (nf : nat) (dt : Z) (lpcw : bool) (r : rst)
  : option (list (list Z)) * rst :=
  match nf with
  | O => (Some [], r)
  | S nf =>
      let '(b, r) := get_bit r in
      if b =? 0 then
        let '(fs, r) := get_tns_filters nf dt lpcw r in
        (option_map (cons []) fs, r)
      else
        let '(s, r) := get_symbol r (tns_order_model lpcw) in
        let order := b + s in
        if (dt <=? DT_5M) && (4 <? order) then (None, r)
        else
          let '(rc, r) := get_tns_coeffs (Z.to_nat order) r 0 in
          let '(fs, r) := get_tns_filters nf dt lpcw r in
          (option_map (cons rc) fs, r)
  end.

(** src/tns.c lines 487-510: lc3_tns_get_data. *)
Definition get_tns (r : rst) (dt bw nbytes : Z) : option tns_data * rst :=
  let lpcw := resolve_lpc_weighting dt nbytes in
  let '(fs, r) := get_tns_filters (tns_nfilters dt bw) dt lpcw r in
  (option_map (mkTns lpcw) fs, r).

(** src/tns.c lines 442-461: lc3_tns_get_nbits. *)
Definition tns_filter_nbits (lpcw : bool) (rc : list Z) : Z :=
  let n := 2048 + (if 0 <? zlen rc
                   then znth (znth tns_order_bits (b2z lpcw) []) (zlen rc - 1) 0 else 0) in
  let n := fold_left (fun n '(i, c) => n + znth (znth tns_coeffs_bits (Z.of_nat i) []) (8 + c) 0)
             (combine (seq 0 (length rc)) rc) n in
  shr (n + 2047) 11.
Definition tns_nbits (d : tns_data) : Z :=
  fold_left (fun n rc => n + tns_filter_nbits (t_weighting d) rc) (t_filters d) 0.

(** ** Spectrum side data *)

Record spec_side := mkSide { q_nq : Z; q_lsb : bool; q_gidx : Z }.

(** src/spec.c lines 800-804: get_nbits_nq. *)
Definition nbits_nq (dt sr : Z) : Z :=
  let ne := c_ne dt sr in
  4 + b2z (32 <? ne) + b2z (64 <? ne) + b2z (128 <? ne) + b2z (256 <? ne) + b2z (512 <? ne).

(** src/spec.c lines 811-815: get_nbits_ac. *)
Definition nbits_ac (dt sr nbytes : Z) : Z :=
  nbits_nq dt sr + 3 + b2z (is_hr sr) + Z.min ((nbytes - 1) / 160) 2.

(** src/spec.c lines 873-882: lc3_spec_put_side. *)
Definition put_spec_side (w : wst) (dt sr : Z) (d : spec_side) : wst :=
  let w := put_bits w (Z.max (shr (q_nq d) 1) 1 - 1) (nbits_nq dt sr) in
  let w := put_bits w (b2z (q_lsb d)) 1 in
  put_bits w (q_gidx d) 8.

(** src/spec.c lines 914-925: lc3_spec_get_side; returned value, data. *)
Definition get_spec_side (r : rst) (dt sr : Z) : Z * spec_side * rst :=
  let '(n, r) := get_bits r (nbits_nq dt sr) in
  let nq := shl (n + 1) 1 in
  let '(l, r) := get_bit r in
  let '(g, r) := get_bits r 8 in
  if c_ne dt sr <? nq then (-1, mkSide (c_ne dt sr) (negb (l =? 0)) g, r)
  else (0, mkSide nq (negb (l =? 0)) g, r).
