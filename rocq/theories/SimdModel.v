(** * The kernels of the pitch analysis for ARM: src/ltpf_arm.h and src/ltpf_neon.h
    The instructions are those of the architecture: they wrap, without an overflow in the sense
    of C. Accesses out of an array, and 32-bit accesses that are not aligned, are [None]; an
    array starts on an aligned address. *)
From Coq Require Import ZArith List Bool.
From Verif Require Import Base ConfigModel SideModel LtpfTables LtpfModel FrontModel SimdTables.
Import ListNotations.
Local Open Scope Z_scope.

(** ** SIMD of 32 bits (ARMv6 and ARMv7-M) *)

(** Two 16-bit integers of a register, low and high; the load of a register. *)
Definition h2 : Type := Z * Z.
Definition rd2 (l : list Z) (p : Z) : M h2 :=
  let* _ := assertm (Z.even p) in
  let* lo := rdm l p in let* hi := rdm l (p + 1) in ret (lo, hi).
(** SMLAD, SMLALD, SMLALDX and PKHBT (src/ltpf_arm.h lines 25-30). *)
Definition smlad (a b : h2) (v : Z) : Z := i32 (v + fst a * fst b + snd a * snd b).
Definition smlald (a b : h2) (v : Z) : Z := i64 (v + fst a * fst b + snd a * snd b).
Definition smlaldx (a b : h2) (v : Z) : Z := i64 (v + fst a * snd b + snd a * fst b).
Definition pkhbt (a b : h2) : h2 := (fst a, snd b).

(** src/ltpf_arm.h lines 59-67 and 90-108: [n] products of pairs accumulated from [un]; the
    indices are those of the 16-bit integers. *)
Fixpoint arm_fir (n : nat) (x : list Z) (px : Z) (h : list Z) (ph un : Z) : M Z :=
  match n with
  | O => ret un
  | S n =>
      let* a := rd2 x px in let* b := rd2 h ph in
      arm_fir n x (px + 2) h (ph + 2) (smlad a b un)
  end.

(** src/ltpf_arm.h lines 48-72 ([step] 5, [w] 40 / p, [row] 48 / p) and 79-113 ([step] 15, [w]
    120 / p, [row] 128 / p); [px] is the index of [x - w] (in pairs). *)
Fixpoint arm_resample (n : nat) (p step w row : Z) (h : list Z) (hp : Z * Z) (x : list Z) (px : Z) (y : list Z) (py i : Z)
  : M (list Z * (Z * Z)) :=
  match n with
  | O => ret (y, hp)
  | S n =>
      let* un := arm_fir (Z.to_nat (1 + w)) x (px + 2 * (i / (2 * p))) h (2 * ((i mod (2 * p)) * row)) 0 in
      let* r := filter_hp50 hp un in
      let* t := m32 (fst r + 32768) in
      let* v := m16 (shr t 16) in
      let* y := wrm y py v in
      arm_resample n p step w row h (snd r) x px y (py + 1) (i + step)
  end.

(** src/ltpf_arm.h lines 120-452 and src/ltpf.c lines 413-424: the resampler of each rate; the
    portable one at 96 kHz. *)
Definition arm_resample_12k8 (sr : Z) (hp : Z * Z) (x : list Z) (px : Z) (y : list Z) (py n : Z) : M (list Z * (Z * Z)) :=
  if sr =? SRATE_96K_HR then resample_12k8 sr hp x px y py n
  else
    let* r := rdm [(8, 5, 40 / 8, 48 / 8, arm_h_8k); (4, 5, 40 / 4, 48 / 4, arm_h_16k); (8, 15, 120 / 8, 128 / 8, arm_h_24k);
                   (2, 5, 40 / 2, 48 / 2, arm_h_32k); (4, 15, 120 / 4, 128 / 4, arm_h_48k); (4, 15, 120 / 4, 128 / 4, arm_h_48k)] sr in
    let '(p, step, w, row, h) := r in
    arm_resample (Z.to_nat n) p step w row h hp x (px - 2 * w) y py 0.

(** src/ltpf_arm.h lines 478-488: the two sums; [n] turns of the inner loop. *)
Fixpoint arm_dots (n : nat) (a : list Z) (pa : Z) (b : list Z) (pb : Z) (b1 : h2) (v0 v1 : Z) : M (Z * Z) :=
  match n with
  | O => ret (v0, v1)
  | S n =>
      let* ax := rd2 a pa in let* b0 := rd2 b pb in
      let v0 := smlald ax b0 v0 in
      let v1 := smlaldx ax (pkhbt b0 b1) v1 in
      let* ax := rd2 a (pa + 2) in let* b1 := rd2 b (pb + 2) in
      let v0 := smlald ax b1 v0 in
      let v1 := smlaldx ax (pkhbt b1 b0) v1 in
      arm_dots n a (pa + 4) b (pb + 4) b1 v0 v1
  end.

(** ** NEON (AArch64) *)

(** Registers of four 16-bit or 32-bit integers, and of two 64-bit ones. *)
Definition q4 : Type := Z * Z * Z * Z.
Definition vld1 (l : list Z) (p : Z) : M q4 :=
  let* a := rdm l p in let* b := rdm l (p + 1) in let* c := rdm l (p + 2) in let* d := rdm l (p + 3) in ret (a, b, c, d).
Definition vmlal (u a b : q4) : q4 :=
  let '(u0, u1, u2, u3) := u in let '(a0, a1, a2, a3) := a in let '(b0, b1, b2, b3) := b in
  (i32 (u0 + a0 * b0), i32 (u1 + a1 * b1), i32 (u2 + a2 * b2), i32 (u3 + a3 * b3)).
Definition vmull (a b : q4) : q4 := vmlal (0, 0, 0, 0) a b.
Definition vaddvq_s32 (u : q4) : Z := let '(u0, u1, u2, u3) := u in i32 (u0 + u1 + u2 + u3).
Definition vpadalq (v : Z * Z) (u : q4) : Z * Z := let '(u0, u1, u2, u3) := u in (i64 (fst v + (u0 + u1)), i64 (snd v + (u2 + u3))).
Definition vaddvq_s64 (v : Z * Z) : Z := i64 (fst v + snd v).
(** VEXT: the elements [k] to [k] + 3 of [a] followed by [b]. *)
Definition vext (a b : q4) (k : Z) : q4 :=
  let '(a0, a1, a2, a3) := a in let '(b0, b1, b2, b3) := b in
  if k =? 1 then (a1, a2, a3, b0) else if k =? 2 then (a2, a3, b0, b1) else (a3, b0, b1, b2).

(** src/ltpf_neon.h lines 65-69, 110-114 and 173-177: [n] products accumulated. *)
Fixpoint neon_fir (n : nat) (x : list Z) (px : Z) (h : list Z) (ph : Z) (un : q4) : M q4 :=
  match n with
  | O => ret un
  | S n =>
      let* a := vld1 x px in let* b := vld1 h ph in
      neon_fir n x (px + 4) h (ph + 4) (vmlal un a b)
  end.

(** src/ltpf_neon.h lines 58-73 ([n4] 5, [sh] 2, [step] 5), 88-119 ([n4] 10, [sh] 1) and 167-181
    ([n4] 15, [sh] 2, [step] 15); the mask is 2^sh - 1. [px] is the index of [x] minus one less than
    4 n4. *)
Fixpoint neon_resample (n : nat) (n4 sh step : Z) (h : list (list Z)) (hp : Z * Z) (x : list Z) (px : Z) (y : list Z) (py i : Z)
  : M (list Z * (Z * Z)) :=
  match n with
  | O => ret (y, hp)
  | S n =>
      let* hn := rdm h (Z.land i (2 ^ sh - 1)) in
      let* a := vld1 x (px + shr i sh) in let* b := vld1 hn 0 in
      let* un := neon_fir (Z.to_nat (n4 - 1)) x (px + shr i sh + 4) hn 4 (vmull a b) in
      let* r := filter_hp50 hp (vaddvq_s32 un) in
      let* t := m32 (fst r + 32768) in
      let* v := m16 (shr t 16) in
      let* y := wrm y py v in
      neon_resample n n4 sh step h (snd r) x px y (py + 1) (i + step)
  end.

(** src/ltpf.c lines 413-424: the portable resamplers at 8, 24 and 96 kHz. *)
Definition neon_resample_12k8 (sr : Z) (hp : Z * Z) (x : list Z) (px : Z) (y : list Z) (py n : Z) : M (list Z * (Z * Z)) :=
  if sr =? SRATE_16K then neon_resample (Z.to_nat n) 5 2 5 neon_h_16k hp x (px - (20 - 1)) y py 0
  else if sr =? SRATE_32K then neon_resample (Z.to_nat n) 10 1 5 neon_h_32k hp x (px - (40 - 1)) y py 0
  else if (sr =? SRATE_48K) || (sr =? SRATE_48K_HR) then neon_resample (Z.to_nat n) 15 2 15 neon_h_48k hp x (px - (60 - 1)) y py 0
  else resample_12k8 sr hp x px y py n.

(** src/ltpf_neon.h lines 199-209: [n] turns of the loop. *)
Fixpoint neon_dot_acc (n : nat) (a : list Z) (pa : Z) (b : list Z) (pb : Z) (v : Z * Z) : M (Z * Z) :=
  match n with
  | O => ret v
  | S n =>
      let* a0 := vld1 a pa in let* b0 := vld1 b pb in
      let* a1 := vld1 a (pa + 4) in let* b1 := vld1 b (pb + 4) in
      let v := vpadalq v (vmlal (vmull a0 b0) a1 b1) in
      let* a0 := vld1 a (pa + 8) in let* b0 := vld1 b (pb + 8) in
      let* a1 := vld1 a (pa + 12) in let* b1 := vld1 b (pb + 12) in
      let v := vpadalq v (vmlal (vmull a0 b0) a1 b1) in
      neon_dot_acc n a (pa + 16) b (pb + 16) v
  end.

(** src/ltpf_neon.h lines 238-264: [n] turns of the inner loop, for the four sums. *)
Definition sums4 : Type := (Z * Z) * (Z * Z) * (Z * Z) * (Z * Z).
Fixpoint neon_dots (n : nat) (a : list Z) (pa : Z) (b : list Z) (pb : Z) (b0 : q4) (v : sums4) : M sums4 :=
  match n with
  | O => ret v
  | S n =>
      let '(v0, v1, v2, v3) := v in
      let b1 := b0 in
      let* b0 := vld1 b pb in let* ax := vld1 a pa in
      let u0 := vmull ax b0 in
      let u1 := vmull ax (vext b1 b0 3) in
      let u2 := vmull ax (vext b1 b0 2) in
      let u3 := vmull ax (vext b1 b0 1) in
      let b1 := b0 in
      let* b0 := vld1 b (pb + 4) in let* ax := vld1 a (pa + 4) in
      let u0 := vmlal u0 ax b0 in
      let u1 := vmlal u1 ax (vext b1 b0 3) in
      let u2 := vmlal u2 ax (vext b1 b0 2) in
      let u3 := vmlal u3 ax (vext b1 b0 1) in
      neon_dots n a (pa + 8) b (pb + 8) b0 (vpadalq v0 u0, vpadalq v1 u1, vpadalq v2 u2, vpadalq v3 u3)
  end.

Section floats.
  Context {F : Type} (zero : F) (add sub mul div : F -> F -> F) (sqrt : F -> F) (lt le : F -> F -> bool)
    (ofz lit : Z -> F).

  (** The end of the sums: src/ltpf_arm.h lines 490-491, src/ltpf_neon.h lines 211-212 and 266-269. *)
  Definition to_float (v : Z) : M F :=
    let* t := m64 (v + 32) in
    let* v32 := m32 (shr t 6) in
    ret (ofz v32).

  (** src/ltpf_arm.h lines 467-498: the loop on the pairs; [nc] values. The shift of line 476 puts
      the integer in the high half. *)
  Fixpoint arm_pairs (fuel : nat) (nc : Z) (a : list Z) (pa : Z) (b : list Z) (pb n : Z) : M (list F) :=
    match fuel with
    | O => None
    | S fuel =>
        if 2 <=? nc then
          let* bm := rdm b (pb - 1) in
          let* v := arm_dots (Z.to_nat (4 * shr n 4)) a pa b pb (0, bm) 0 0 in
          let* y0 := to_float (fst v) in
          let* y1 := to_float (snd v) in
          let* y := arm_pairs fuel (nc - 2) a pa b (pb - 2) n in
          ret (y0 :: y1 :: y)
        else if 0 <? nc then let* d := dot ofz a pa b pb n in ret [d]
        else ret []
    end.
  (** src/ltpf_arm.h lines 459-465: the portable dot product when [b] is not aligned. *)
  Definition arm_correlate (nc : nat) (a : list Z) (pa : Z) (b : list Z) (pb n : Z) : M (list F) :=
    if Z.odd pb then
      let* d := dot ofz a pa b pb n in
      let* y := arm_pairs (S nc) (Z.of_nat nc - 1) a pa b (pb - 1) n in
      ret (d :: y)
    else arm_pairs (S nc) (Z.of_nat nc) a pa b pb n.

  (** src/ltpf_neon.h lines 195-213. *)
  Definition neon_dot (a : list Z) (pa : Z) (b : list Z) (pb n : Z) : M F :=
    let* v := neon_dot_acc (Z.to_nat (shr n 4)) a pa b pb (0, 0) in
    to_float (vaddvq_s64 v).

  (** src/ltpf_neon.h lines 226-274. *)
  Fixpoint neon_rest (nc : nat) (a : list Z) (pa : Z) (b : list Z) (pb n : Z) : M (list F) :=
    match nc with
    | O => ret []
    | S nc => let* d := neon_dot a pa b pb n in let* r := neon_rest nc a pa b (pb - 1) n in ret (d :: r)
    end.
  Fixpoint neon_correlate (nc : nat) (a : list Z) (pa : Z) (b : list Z) (pb n : Z) : M (list F) :=
    match nc with
    | S (S (S (S nc))) =>
        let* b0 := vld1 b (pb - 4) in
        let* v := neon_dots (Z.to_nat (2 * shr n 4)) a pa b pb b0 ((0, 0), (0, 0), (0, 0), (0, 0)) in
        let '(v0, v1, v2, v3) := v in
        let* y0 := to_float (vaddvq_s64 v0) in
        let* y1 := to_float (vaddvq_s64 v1) in
        let* y2 := to_float (vaddvq_s64 v2) in
        let* y3 := to_float (vaddvq_s64 v3) in
        let* y := neon_correlate nc a pa b (pb - 4) n in
        ret (y0 :: y1 :: y2 :: y3 :: y)
    | _ => neon_rest nc a pa b pb n
    end.
End floats.

(** ** The analysis with the kernels as parameters *)

(** The functions of src/ltpf.c that call resample_12k8, dot and correlate, as in FrontModel.v:
    the preprocessor chooses the kernels (src/ltpf.c lines 36-175, 302-388, 437 and 459). *)
Section kernels.
  Context {F : Type} (zero : F) (add sub mul div : F -> F -> F) (sqrt : F -> F) (lt le : F -> F -> bool)
    (ofz lit : Z -> F)
    (k_res : Z -> Z * Z -> list Z -> Z -> list Z -> Z -> Z -> M (list Z * (Z * Z)))
    (k_dot : list Z -> Z -> list Z -> Z -> Z -> M F)
    (k_cor : nat -> list Z -> Z -> list Z -> Z -> Z -> M (list F)).

  (** src/ltpf.c lines 600-604. *)
  Definition norm_corr_k (x : list Z) (px p1 n : Z) (rm : F) : M F :=
    if le rm zero then ret zero
    else let* a := k_dot x px x px n in let* b := k_dot x p1 x p1 n in ret (div rm (sqrt (mul a b))).

  (** src/ltpf.c lines 582-611. *)
  Definition detect_pitch_k (old_tc : Z) (x : list Z) (px n : Z) : M (bool * Z * Z) :=
    let r0 := 17 in let nr := 98 in
    let k0 := Z.max 0 (old_tc - 4) in
    let nk := Z.min (nr - 1) (old_tc + 4) - k0 + 1 in
    let* r := k_cor (Z.to_nat nr) x px x (px - r0) n in
    let* t1 := argmax_weighted add mul lt ofz r nr (div (lit (-500000000000000000)) (ofz (nr - 1))) in
    let* t2 := argmax lt r k0 nk in
    let '(t1, rm1) := t1 in
    let '(t2, rm2) := t2 in
    let t2 := k0 + t2 in
    let* nc1 := norm_corr_k x px (px - (r0 + t1)) n rm1 in
    let* nc2 := norm_corr_k x px (px - (r0 + t2)) n rm2 in
    let t1sel := le nc2 (mul (lit 850000000000000000) nc1) in
    let tc := if t1sel then t1 else t2 in
    ret (lt (lit 600000000000000000) (if t1sel then nc1 else nc2), r0 + tc, tc).

  (** src/ltpf.c lines 622-656. *)
  Definition refine_pitch_k (x : list Z) (px n tc : Z) : M (Z * Z) :=
    let r0 := Z.max 32 (2 * tc - 4) in
    let nr := Z.min 228 (2 * tc + 4) - r0 + 1 in
    let* _ := assertm (nr + 8 <=? 17) in
    let* r := k_cor (Z.to_nat (nr + 8)) x px x (px - (r0 - 4)) n in
    let* m := argmax lt r 4 nr in
    let e := r0 + fst m in
    let p := e - (r0 - 4) in
    let* dm := interpolate_corr zero add mul lit r p 0 in
    let* f := refine_loop zero add mul lt lit 3 r p e 1 0 dm in
    ret (pitch_out e f).

  (** src/ltpf.c lines 661-737: lc3_ltpf_analyse; [px] is the index of [x[0]] in [x]; the
      data has the content [d0] before the call. *)
  Definition ltpf_analyse_k (dt sr : Z) (st : @analysis F) (x : list Z) (px : Z) (d0 : ltpf_data)
    : M (bool * @analysis F * ltpf_data) :=
    let n12 := (1 + dt) * 32 in
    let* x12 := shift_down (n_x12k8 st) n12 in
    let p12 := 384 - n12 in
    let* r := k_res sr (n_hp st) x px x12 p12 n12 in
    let '(x12, hp) := r in
    let p12 := p12 - (if dt =? DT_7M5 then 44 else 24) in
    let n6 := shr n12 1 in
    let* x6 := shift_down (n_x6k4 st) n6 in
    let p6 := 178 - n6 in
    let* x6 := resample_6k4 (Z.to_nat n6) x12 (p12 - 1) x6 p6 in
    let '(p12, p6, n12, n6) :=
      if dt =? DT_2M5 then (p12 - n12, p6 - n6, n12 + n12, n6 + n6) else (p12, p6, n12, n6) in
    let* r := detect_pitch_k (n_tc st) x6 p6 n6 in
    let '(present, tc, new_tc) := r in
    let* r := (
      if present : bool then
        let* pi := refine_pitch_k x12 p12 n12 tc in
        let '(pitch, idx) := pi in
        let* u := interpolate x12 p12 n12 0 in
        let* v := interpolate x12 (p12 - shr pitch 2) n12 (Z.land pitch 3) in
        let* a := k_dot u 0 v 0 n12 in let* b := k_dot u 0 u 0 n12 in let* c := k_dot v 0 v 0 n12 in
        ret (pitch, idx, div a (sqrt (mul b c)))
      else ret (0, l_pitch d0, zero)) in
    let '(pitch, idx, nc) := r in
    let active :=
      if n_active st then
        let pitch_diff := Z.max pitch (n_pitch st) - Z.min pitch (n_pitch st) in
        let nc_diff := sub nc (n_nc0 st) in
        negb (is_hr sr) && present &&
          (lt (lit 900000000000000000) nc ||
           lt (lit 840000000000000000) nc && (pitch_diff <? 8) && lt (lit (-100000000000000000)) nc_diff)
      else
        negb (is_hr sr) && present &&
          (((dt =? DT_10M) || lt (lit 940000000000000000) (n_nc1 st)) &&
           (lt (lit 940000000000000000) (n_nc0 st) && lt (lit 940000000000000000) nc)) in
    ret (present, mkAna active pitch nc (n_nc0 st) hp x12 x6 new_tc, mkLtpf (b2z active) idx).
  (** src/lc3.c lines 190-277, the stores of the load functions to [xt], and lines 302-308,
      start of analyze: attack flag, presence of a pitch, postfilter data, new state. *)
  Definition front_frame_k (dt srp : Z) (bypass : bool) (st : front F) (k : call) (d0 : ltpf_data)
    : M (bool * bool * ltpf_data * front F) :=
    let ns := c_ns dt srp in
    let nt := c_nt srp in
    let* _ := assertm ((zlen (k_pcm k) =? ns) && (zlen (f_xt st) =? nt + ns)) in
    let xt := firstn (Z.to_nat nt) (f_xt st) ++ k_pcm k in
    let* a := attdet_run dt srp (k_nbytes k) (f_att st) xt nt in
    let* l := (if bypass then ret (false, f_ltpf st, d0)
               else ltpf_analyse_k dt srp (f_ltpf st) xt nt d0) in
    let '(pp, ltpf, d) := l in
    let xt := firstn (Z.to_nat nt) (skipn (Z.to_nat ns) xt) ++ skipn (Z.to_nat nt) xt in
    ret (fst a, pp, d, mkFront (snd a) ltpf xt).

  (** Successive calls; the data of each frame starts from any content. *)
  Fixpoint front_run_k (dt srp : Z) (bypass : bool) (st : front F) (ks : list (call * ltpf_data))
    : M (list outcome * front F) :=
    match ks with
    | [] => ret ([], st)
    | (k, d0) :: ks =>
        let* r := front_frame_k dt srp bypass st k d0 in
        let '(att, pp, d, st) := r in
        let* r := front_run_k dt srp bypass st ks in
        ret (mkOut att pp d (n_pitch (f_ltpf st)) :: fst r, snd r)
    end.
End kernels.

(** Runs of the time domain analysis with the kernels of ARM: the dot product is the portable
    one with SIMD of 32 bits (src/ltpf_arm.h defines no dot). *)
Section runs.
  Context {F : Type} (zero : F) (add sub mul div : F -> F -> F) (sqrt : F -> F) (lt le : F -> F -> bool)
    (ofz lit : Z -> F).
  Definition front_run_arm := front_run_k zero add sub mul div sqrt lt le ofz lit arm_resample_12k8 (dot ofz) (arm_correlate ofz).
  Definition front_run_neon := front_run_k zero add sub mul div sqrt lt le ofz lit neon_resample_12k8 (neon_dot ofz) (neon_correlate ofz).
End runs.
