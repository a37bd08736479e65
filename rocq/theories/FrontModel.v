(** * Time domain analysis of the encoder: src/attdet.c and the analysis of src/ltpf.c
    A computation is [None] on an access out of an array. Otherwise it has a result and a
    flag, true when a signed operation overflowed or a conversion changed a value; the
    value is then the two's complement one. Floats are any type with any operations. *)
From Coq Require Import ZArith List Bool.
From Verif Require Import Base ConfigModel SideModel LtpfTables LtpfModel.
Import ListNotations.
Local Open Scope Z_scope.

Definition M (A : Type) : Type := option (A * bool).
Definition ret {A} (a : A) : M A := Some (a, false).
Definition bindm {A B} (m : M A) (f : A -> M B) : M B :=
  match m with
  | Some (a, o) => match f a with Some (b, o') => Some (b, o || o') | None => None end
  | None => None
  end.
Notation "'let*' x := m 'in' e" := (bindm m (fun x => e))
  (at level 200, x pattern, m at level 100, e at level 200).

(** Results on 16, 32 and 64 bits. *)
Definition i64 (x : Z) : Z := (x + 2 ^ 63) mod 2 ^ 64 - 2 ^ 63.
Definition m16 (x : Z) : M Z := Some (i16 x, negb (i16 x =? x)).
Definition m32 (x : Z) : M Z := Some (i32 x, negb (i32 x =? x)).
Definition m64 (x : Z) : M Z := Some (i64 x, negb (i64 x =? x)).

Definition rdm {A} (l : list A) (i : Z) : M A := option_map (fun v => (v, false)) (rd l i).
Definition wrm {A} (l : list A) (i : Z) (v : A) : M (list A) := option_map (fun l => (l, false)) (wr l i v).
Definition assertm (b : bool) : M unit := if b then ret tt else None.

(** ** Attack detector *)

(** include/lc3_private.h lines 90-93: struct lc3_attdet_analysis. *)
Record attdet_state := mkAtt { at_en1 : Z; at_an1 : Z; at_patt : Z }.

(** src/attdet.c lines 31-39. *)
Definition attdet_enabled (dt sr nbytes : Z) : bool :=
  let '(lo, hi) := znth (znth [[(61, 149); (75, 149)]; [(81, INT_MAX); (100, INT_MAX)]] (dt - DT_7M5) []) (sr - SRATE_32K) (0, 0) in
  negb ((dt <? DT_7M5) || (sr <? SRATE_32K) || is_hr sr || (nbytes <? lo) || (hi <? nbytes)).

(** Mean of the [d] samples from index [p], src/attdet.c lines 50-55 and 63-68: [d] is 2
    with a shift of 1, or 3 with a shift of 2. *)
Definition mean (x : list Z) (d p : Z) : M Z :=
  let* a := rdm x p in let* b := rdm x (p + 1) in
  if d =? 2 then let* s := m32 (a + b) in m16 (shr s 1)
  else let* c := rdm x (p + 2) in let* s := m32 (a + b) in let* s := m32 (s + c) in m16 (shr s 2).

(** src/attdet.c lines 54-58 and 67-71: [n] steps of the filter from index [p]. *)
Fixpoint att_energy (n : nat) (x : list Z) (d p xn2 xn1 e : Z) : M (Z * Z) :=
  match n with
  | O => ret (e, p)
  | S n =>
      let* xn := mean x d p in
      let* t := m32 (3 * xn - 4 * xn1) in
      let* t := m32 (t + 1 * xn2) in
      let* xf := m16 (shr t 3) in
      let* q := m32 (xf * xf) in
      let* e := m32 (e + shr q 5) in
      att_energy n x d (p + d) xn1 xn e
  end.

(** src/attdet.c lines 46-74: energies of the blocks; [d] samples are 40 steps. *)
Fixpoint att_blocks (nblk : nat) (x : list Z) (d p : Z) : M (list Z) :=
  match nblk with
  | O => ret []
  | S nblk =>
      let* xn2 := mean x d (p - 2 * d) in
      let* xn1 := mean x d (p - d) in
      let* ep := att_energy 40 x d p xn2 xn1 0 in
      let* es := att_blocks nblk x d (snd ep) in
      ret (fst ep :: es)
  end.

(** src/attdet.c lines 80-89, on the blocks from [i]. *)
Fixpoint att_detect (es : list Z) (i en1 an1 p_att : Z) : M (Z * Z * Z) :=
  match es with
  | [] => ret (en1, an1, p_att)
  | e :: es =>
      let a := Z.max (shr an1 2) en1 in
      let* t := m32 (a + shr a 4) in
      att_detect es (i + 1) e a (if t <? shr e 3 then i + 1 else p_att)
  end.

(** src/attdet.c lines 25-96: lc3_attdet_run; [p] is the index of [x[0]]. *)
Definition attdet_run (dt sr nbytes : Z) (st : attdet_state) (x : list Z) (p : Z) : M (bool * attdet_state) :=
  if negb (attdet_enabled dt sr nbytes) then ret (false, st)
  else
    let nblk := 4 - b2z (dt =? DT_7M5) in
    let* es := att_blocks (Z.to_nat nblk) x (if sr =? SRATE_32K then 2 else 3) p in
    let* r := att_detect es 0 (at_en1 st) (at_an1 st) 0 in
    let '(en1, an1, p_att) := r in
    ret ((1 + shr nblk 1 <=? at_patt st) || (0 <? p_att), mkAtt en1 an1 p_att).

(** ** Resampling *)

(** src/ltpf.c lines 184-197: filter_hp50. *)
Definition hp_a1 : Z := -2110217691.
Definition hp_a2 : Z := 1037111617.
Definition hp_b1 : Z := -2110535566.
Definition hp_b2 : Z := 1055267782.
Definition filter_hp50 (s : Z * Z) (xn : Z) : M (Z * (Z * Z)) :=
  let '(s1, s2) := s in
  let* t := m64 (s1 + xn * hp_b2) in
  let* yn := m32 (shr t 30) in
  let* t := m64 (s2 + xn * hp_b1) in
  let* s1 := m64 (t - yn * hp_a1) in
  let* s2 := m64 (xn * hp_b2 - yn * hp_a2) in
  ret (yn, (s1, s2)).

(** src/ltpf.c lines 225-236 and 271-287: [n] products accumulated from [un]; the inner
    loop is unrolled by 10 or 15, a divisor of the width. *)
Fixpoint fir (n : nat) (x : list Z) (px : Z) (h : list Z) (ph un : Z) : M Z :=
  match n with
  | O => ret un
  | S n =>
      let* a := rdm x px in
      let* b := rdm h ph in
      let* q := m32 (a * b) in
      let* un := m32 (un + q) in
      fir n x (px + 1) h (ph + 1) un
  end.

(** src/ltpf.c lines 213-241 and 258-291: resample_x64k_12k8 ([step] 5) and
    resample_x192k_12k8 ([step] 15); [px] is the index of [x - (w - 1)]. *)
Fixpoint resample (n : nat) (p step w : Z) (h : list Z) (hp : Z * Z) (x : list Z) (px : Z) (y : list Z) (py i : Z)
  : M (list Z * (Z * Z)) :=
  match n with
  | O => ret (y, hp)
  | S n =>
      let* un := fir (Z.to_nat w) x (px + i / p) h ((i mod p) * w) 0 in
      let* r := filter_hp50 hp un in
      let* t := m32 (fst r + 32768) in
      let* v := m16 (shr t 16) in
      let* y := wrm y py v in
      resample n p step w h (snd r) x px y (py + 1) (i + step)
  end.

(** src/ltpf.c lines 303-388 and 413-424: resample_12k8, by rate. *)
Definition resampler (sr : Z) : M (Z * Z * Z * list Z) :=
  rdm [(8, 5, 2 * (40 / 8), h_8k); (4, 5, 2 * (40 / 4), h_16k); (8, 15, 2 * (120 / 8), h_24k); (2, 5, 2 * (40 / 2), h_32k);
       (4, 15, 2 * (120 / 4), h_48k); (4, 15, 2 * (120 / 4), h_48k); (2, 15, 2 * (120 / 2), h_96k)] sr.
Definition resample_12k8 (sr : Z) (hp : Z * Z) (x : list Z) (px : Z) (y : list Z) (py n : Z) : M (list Z * (Z * Z)) :=
  let* r := resampler sr in
  let '(p, step, w, h) := r in
  resample (Z.to_nat n) p step w h hp x (px - (w - 1)) y py 0.

(** src/ltpf.c lines 398-406: resample_6k4; [px] is the index of [x[-1]]. *)
Fixpoint resample_6k4 (n : nat) (x : list Z) (px : Z) (y : list Z) (py : Z) : M (list Z) :=
  match n with
  | O => ret y
  | S n =>
      let* x0 := rdm x px in let* xm1 := rdm x (px - 1) in let* x1 := rdm x (px + 1) in
      let* xm2 := rdm x (px - 2) in let* x2 := rdm x (px + 2) in
      let* t := m32 (x0 * 18477 + (xm1 + x1) * 15424) in
      let* t := m32 (t + (xm2 + x2) * 8105) in
      let* v := m16 (shr t 16) in
      let* y := wrm y py v in
      resample_6k4 n x (px + 2) y (py + 1)
  end.

(** ** Pitch analysis *)

(** src/ltpf.c lines 438-446: accumulation of dot. *)
Fixpoint dot_acc (n : nat) (a : list Z) (pa : Z) (b : list Z) (pb v : Z) : M Z :=
  match n with
  | O => ret v
  | S n =>
      let* x := rdm a pa in let* y := rdm b pb in
      let* q := m32 (x * y) in
      let* v := m64 (v + q) in
      dot_acc n a (pa + 1) b (pb + 1) v
  end.

(** src/ltpf.c lines 518-520: h4_q15. *)
Definition h4_q15 : list (list Z) :=
  [[6877; 19121; 6877; 0]; [3506; 18025; 11000; 220]; [1300; 15048; 15048; 1300]; [220; 11000; 18025; 3506]].

(** src/ltpf.c lines 525-540, interpolate: [n] samples, from [x1] at index [px] and the
    previous [x2], [x3]. The four steps of the unrolled loop only rotate the variables. *)
Fixpoint interpolate_loop (n : nat) (x : list Z) (px : Z) (h : list Z) (x1 x2 x3 : Z) : M (list Z) :=
  match n with
  | O => ret []
  | S n =>
      let* x0 := rdm x (px + 1) in
      let* h0 := rdm h 0 in let* h1 := rdm h 1 in let* h2 := rdm h 2 in let* h3 := rdm h 3 in
      let* t := m32 (x0 * h0 + x1 * h1) in
      let* t := m32 (t + x2 * h2) in
      let* t := m32 (t + x3 * h3) in
      let* v := m16 (shr t 15) in
      let* y := interpolate_loop n x (px + 1) h x0 x1 x2 in
      ret (v :: y)
  end.

(** src/ltpf.c lines 516-541: interpolate into an array of 128 samples. *)
Definition interpolate (x : list Z) (px n d : Z) : M (list Z) :=
  let* _ := assertm ((n <=? 128) && (n mod 4 =? 0)) in
  let* h := rdm h4_q15 d in
  let* x3 := rdm x (px - 2) in let* x2 := rdm x (px - 1) in let* x1 := rdm x px in
  interpolate_loop (Z.to_nat n) x px h x1 x2 x3.

Section floats.
  Context {F : Type} (zero : F) (add sub mul div : F -> F -> F) (sqrt : F -> F) (lt le : F -> F -> bool)
    (ofz lit : Z -> F).

  (** src/ltpf.c lines 438-448: dot. *)
  Definition dot (a : list Z) (pa : Z) (b : list Z) (pb n : Z) : M F :=
    let* v := dot_acc (Z.to_nat (16 * (n / 16))) a pa b pb 0 in
    let* t := m64 (v + 32) in
    let* v32 := m32 (shr t 6) in
    ret (ofz v32).

  (** src/ltpf.c lines 460-465: correlate, the vector of [nc] values. *)
  Fixpoint correlate (nc : nat) (a : list Z) (pa : Z) (b : list Z) (pb n : Z) : M (list F) :=
    match nc with
    | O => ret []
    | S nc => let* d := dot a pa b pb n in let* r := correlate nc a pa b (pb - 1) n in ret (d :: r)
    end.

  (** src/ltpf.c lines 474-484: argmax on [r + off]; [n] more values from index [i]. *)
  Fixpoint argmax_loop (n : nat) (r : list F) (off i arg : Z) (mx : F) : M (Z * F) :=
    match n with
    | O => ret (arg, mx)
    | S n =>
        let* v := rdm r (off + i) in
        if lt mx v then argmax_loop n r off (i + 1) i v else argmax_loop n r off (i + 1) arg mx
    end.
  Definition argmax (r : list F) (off n : Z) : M (Z * F) :=
    let* v := rdm r off in argmax_loop (Z.to_nat (n - 1)) r off 1 0 v.

  (** src/ltpf.c lines 493-507: argmax_weighted. *)
  Fixpoint argmax_weighted_loop (n : nat) (r : list F) (w_incr : F) (i arg : Z) (mx xw_max w : F) : M (Z * F) :=
    match n with
    | O => ret (arg, mx)
    | S n =>
        let* v := rdm r i in
        if lt xw_max (mul v w) then argmax_weighted_loop n r w_incr (i + 1) i v (mul v w) (add w w_incr)
        else argmax_weighted_loop n r w_incr (i + 1) arg mx xw_max (add w w_incr)
    end.
  Definition argmax_weighted (r : list F) (n : Z) (w_incr : F) : M (Z * F) :=
    let* v := rdm r 0 in argmax_weighted_loop (Z.to_nat (n - 1)) r w_incr 1 0 v v (add (ofz 1) w_incr).

  (** src/ltpf.c lines 551-560: h4, decimal values times 10^18; the first row has 7 values,
      the last is zero. *)
  Definition h4 : list (list Z) :=
    [[15357277000000000; -47296324600000000; 83578857300000000; 898638285000000000;
      83578857300000000; -47296324600000000; 15357277000000000; 0];
     [2745471650000000; 4598334490000000; -75440463600000000; 817488686000000000;
      330182571000000000; -105835916000000000; 28682340500000000; -2874561160000000];
     [-3001251030000000; 29503850300000000; -130305021000000000; 603297008000000000;
      603297008000000000; -130305021000000000; 29503850300000000; -3001251030000000];
     [-2874561160000000; 28682340500000000; -105835916000000000; 330182571000000000;
      817488686000000000; -75440463600000000; 4598334490000000; 2745471650000000]].

  (** [x[j] * h[k]] *)
  Definition tap (r : list F) (p j : Z) (h : list Z) (k : Z) : M F :=
    let* a := rdm r (p + j) in let* b := rdm h k in ret (mul a (lit b)).

  (** src/ltpf.c lines 549-571: interpolate_corr; [p] is the index of [x[0]] in [r]. *)
  Definition interpolate_corr (r : list F) (p d : Z) : M F :=
    let* h := rdm h4 (Z.rem (4 + d) 4) in
    let* y := (if d <? 0 then tap r p (-4) h 0 else if 0 <? d then tap r p 4 h 7 else ret zero) in
    let o := if d <? 0 then 1 else 0 in
    let* a := tap r p (-3) h o in let* b := tap r p (-2) h (o + 1) in let s := add a b in
    let* c := tap r p (-1) h (o + 2) in let s := add s c in
    let* c := tap r p 0 h (o + 3) in let s := add s c in
    let* c := tap r p 1 h (o + 4) in let s := add s c in
    let* c := tap r p 2 h (o + 5) in let s := add s c in
    let* c := tap r p 3 h (o + 6) in let s := add s c in
    ret (add y s).

  (** Normalised correlation, src/ltpf.c lines 600-604: zero when [rm] is not positive. *)
  Definition norm_corr (x : list Z) (px p1 n : Z) (rm : F) : M F :=
    if le rm zero then ret zero
    else let* a := dot x px x px n in let* b := dot x p1 x p1 n in ret (div rm (sqrt (mul a b))).

  (** src/ltpf.c lines 582-611: detect_pitch; returns the presence of a pitch, [*tc] and the
      new [ltpf->tc]. [r] has 98 values. *)
  Definition detect_pitch (old_tc : Z) (x : list Z) (px n : Z) : M (bool * Z * Z) :=
    let r0 := 17 in let nr := 98 in
    let k0 := Z.max 0 (old_tc - 4) in
    let nk := Z.min (nr - 1) (old_tc + 4) - k0 + 1 in
    let* r := correlate (Z.to_nat nr) x px x (px - r0) n in
    let* t1 := argmax_weighted r nr (div (lit (-500000000000000000)) (ofz (nr - 1))) in
    let* t2 := argmax r k0 nk in
    let '(t1, rm1) := t1 in
    let '(t2, rm2) := t2 in
    let t2 := k0 + t2 in
    let* nc1 := norm_corr x px (px - (r0 + t1)) n rm1 in
    let* nc2 := norm_corr x px (px - (r0 + t2)) n rm2 in
    let t1sel := le nc2 (mul (lit 850000000000000000) nc1) in
    let tc := if t1sel then t1 else t2 in
    ret (lt (lit 600000000000000000) (if t1sel then nc1 else nc2), r0 + tc, tc).

  (** src/ltpf.c lines 634-648: search of the fraction, [i] from 1 to 3. *)
  Fixpoint refine_loop (n : nat) (r : list F) (p e i f : Z) (dm : F) : M Z :=
    match n with
    | O => ret f
    | S n =>
        if (127 <=? e) && (negb (Z.land i 1 =? 0) || (157 <=? e)) then refine_loop n r p e (i + 1) f dm
        else
          let* d := interpolate_corr r p i in
          let '(f, dm) := if lt dm d then (i, d) else (f, dm) in
          if 32 <? e then
            let* d := interpolate_corr r p (- i) in
            let '(f, dm) := if lt dm d then (- i, d) else (f, dm) in
            refine_loop n r p e (i + 1) f dm
          else refine_loop n r p e (i + 1) f dm
    end.

  (** src/ltpf.c lines 622-656: refine_pitch; returns the pitch and the index. *)
  Definition refine_pitch (x : list Z) (px n tc : Z) : M (Z * Z) :=
    let r0 := Z.max 32 (2 * tc - 4) in
    let nr := Z.min 228 (2 * tc + 4) - r0 + 1 in
    let* _ := assertm (nr + 8 <=? 17) in
    let* r := correlate (Z.to_nat (nr + 8)) x px x (px - (r0 - 4)) n in
    let* m := argmax r 4 nr in
    let e := r0 + fst m in
    let p := e - (r0 - 4) in
    let* dm := interpolate_corr r p 0 in
    let* f := refine_loop 3 r p e 1 0 dm in
    ret (pitch_out e f).

  (** include/lc3_private.h lines 99-109: struct lc3_ltpf_analysis. *)
  Record analysis := mkAna { n_active : bool; n_pitch : Z; n_nc0 : F; n_nc1 : F; n_hp : Z * Z;
                             n_x12k8 : list Z; n_x6k4 : list Z; n_tc : Z }.

  (** memmove of the elements from [n] to the start of an array. *)
  Definition shift_down (l : list Z) (n : Z) : M (list Z) :=
    let* _ := assertm ((0 <=? n) && (n <=? zlen l)) in
    ret (skipn (Z.to_nat n) l ++ skipn (Z.to_nat (zlen l - n)) l).

  (** src/ltpf.c lines 661-737: lc3_ltpf_analyse; [px] is the index of [x[0]] in [x]; the
      data has the content [d0] before the call. *)
  Definition ltpf_analyse (dt sr : Z) (st : analysis) (x : list Z) (px : Z) (d0 : ltpf_data)
    : M (bool * analysis * ltpf_data) :=
    let n12 := (1 + dt) * 32 in
    let* x12 := shift_down (n_x12k8 st) n12 in
    let p12 := 384 - n12 in
    let* r := resample_12k8 sr (n_hp st) x px x12 p12 n12 in
    let '(x12, hp) := r in
    let p12 := p12 - (if dt =? DT_7M5 then 44 else 24) in
    let n6 := shr n12 1 in
    let* x6 := shift_down (n_x6k4 st) n6 in
    let p6 := 178 - n6 in
    let* x6 := resample_6k4 (Z.to_nat n6) x12 (p12 - 1) x6 p6 in
    let '(p12, p6, n12, n6) :=
      if dt =? DT_2M5 then (p12 - n12, p6 - n6, n12 + n12, n6 + n6) else (p12, p6, n12, n6) in
    let* r := detect_pitch (n_tc st) x6 p6 n6 in
    let '(present, tc, new_tc) := r in
    let* r := (
      if present : bool then
        let* pi := refine_pitch x12 p12 n12 tc in
        let '(pitch, idx) := pi in
        let* u := interpolate x12 p12 n12 0 in
        let* v := interpolate x12 (p12 - shr pitch 2) n12 (Z.land pitch 3) in
        let* a := dot u 0 v 0 n12 in let* b := dot u 0 u 0 n12 in let* c := dot v 0 v 0 n12 in
        ret (pitch, idx, div a (sqrt (mul b c)))
      else ret (0, l_pitch d0, zero)) in
    let '(pitch, idx, nc) := r in
    let active :=
      if n_active st then
        let pitch_diff := Z.max pitch (n_pitch st) - Z.min pitch (n_pitch st) in
        let nc_diff := sub nc (n_nc0 st) in
        negb (is_hr sr) && present &&
          (lt (lit 900000000000000000) nc ||
           lt (lit 840000000000000000) nc && (pitch_diff <? 8) && lt (lit (-100000000000000000)) nc_diff)
      else
        negb (is_hr sr) && present &&
          (((dt =? DT_10M) || lt (lit 940000000000000000) (n_nc1 st)) &&
           (lt (lit 940000000000000000) (n_nc0 st) && lt (lit 940000000000000000) nc)) in
    ret (present, mkAna active pitch nc (n_nc0 st) hp x12 x6 new_tc, mkLtpf (b2z active) idx).
End floats.

(** ** Temporal part of a frame *)

(** Fields of struct lc3_encoder that the temporal analysis owns, include/lc3_private.h lines
    121-132; [f_xt] are the [nt + ns] samples of 16 bits at the start of [x]. *)
Record front {F : Type} := mkFront { f_att : attdet_state; f_ltpf : @analysis F; f_xt : list Z }.
Arguments front : clear implicits.
Arguments mkFront {F}.

(** A call: size of the frame and samples of the frame, on 16 bits. *)
Record call := mkCall { k_nbytes : Z; k_pcm : list Z }.

(** What a call passes on: attack flag, presence of a pitch, postfilter data; and the pitch
    that the state keeps, in quarters of a sample at 12.8 kHz. *)
Record outcome := mkOut { o_att : bool; o_present : bool; o_data : ltpf_data; o_pitch : Z }.

Section frames.
  Context {F : Type} (zero : F) (add sub mul div : F -> F -> F) (sqrt : F -> F) (lt le : F -> F -> bool)
    (ofz lit : Z -> F).

  (** src/lc3.c lines 190-277, the stores of the load functions to [xt], and lines 302-308,
      start of analyze: attack flag, presence of a pitch, postfilter data, new state. *)
  Definition front_frame (dt srp : Z) (bypass : bool) (st : front F) (k : call) (d0 : ltpf_data)
    : M (bool * bool * ltpf_data * front F) :=
    let ns := c_ns dt srp in
    let nt := c_nt srp in
    let* _ := assertm ((zlen (k_pcm k) =? ns) && (zlen (f_xt st) =? nt + ns)) in
    let xt := firstn (Z.to_nat nt) (f_xt st) ++ k_pcm k in
    let* a := attdet_run dt srp (k_nbytes k) (f_att st) xt nt in
    let* l := (if bypass then ret (false, f_ltpf st, d0)
               else ltpf_analyse zero add sub mul div sqrt lt le ofz lit dt srp (f_ltpf st) xt nt d0) in
    let '(pp, ltpf, d) := l in
    let xt := firstn (Z.to_nat nt) (skipn (Z.to_nat ns) xt) ++ skipn (Z.to_nat nt) xt in
    ret (fst a, pp, d, mkFront (snd a) ltpf xt).

  (** src/lc3.c lines 401-413: state after the setup. *)
  Definition front_init (dt srp : Z) : front F :=
    mkFront (mkAtt 0 0 0)
      (mkAna false 0 zero zero (0, 0) (repeat 0 384) (repeat 0 178) 0)
      (repeat 0 (Z.to_nat (c_nt srp + c_ns dt srp))).

  (** Successive calls; the data of each frame starts from any content. *)
  Fixpoint front_run (dt srp : Z) (bypass : bool) (st : front F) (ks : list (call * ltpf_data))
    : M (list outcome * front F) :=
    match ks with
    | [] => ret ([], st)
    | (k, d0) :: ks =>
        let* r := front_frame dt srp bypass st k d0 in
        let '(att, pp, d, st) := r in
        let* r := front_run dt srp bypass st ks in
        ret (mkOut att pp d (n_pitch (f_ltpf st)) :: fst r, snd r)
    end.
End frames.
