(** * NEON kernels of the transform: src/mdct_neon.h
    Selected on AArch64 in place of fft_5, fft_bf3 and fft_bf2 of src/mdct.c. The carrier
    [F] and its operations are parameters, as in [MdctModel]; [fma a b c] and [fms a b c]
    are the fused operations [a + b * c] and [a - b * c] of one lane, with their own
    rounding. *)
From Coq Require Import ZArith List Bool.
From Verif Require Import Base ConfigModel MdctModel.
Import ListNotations.
Local Open Scope Z_scope.

Section Neon.
Context {F : Type} (f0 : F) (add sub mul : F -> F -> F) (opp : F -> F) (fma fms : F -> F -> F -> F).

(** ** Vectors
    float32x2_t, and float32x4_t as its low and high halves: the operations of 128 bits
    used by src/mdct_neon.h work on each half as the ones of 64 bits. *)
Definition v2 : Type := F * F.
Definition v4 : Type := v2 * v2.

(** vadd_f32, vsub_f32, vneg_f32, vfma_f32, vfms_f32: each lane. *)
Definition vadd (a b : v2) : v2 := (add (fst a) (fst b), add (snd a) (snd b)).
Definition vsub (a b : v2) : v2 := (sub (fst a) (fst b), sub (snd a) (snd b)).
Definition vneg (a : v2) : v2 := (opp (fst a), opp (snd a)).
Definition vfma (a b c : v2) : v2 := (fma (fst a) (fst b) (fst c), fma (snd a) (snd b) (snd c)).
Definition vfms (a b c : v2) : v2 := (fms (fst a) (fst b) (fst c), fms (snd a) (snd b) (snd c)).
(** vrev64_f32: the lanes swapped. vtrn1_f32, vtrn2_f32: the even, the odd lanes of the two operands. *)
Definition vrev64 (a : v2) : v2 := (snd a, fst a).
Definition vtrn1 (a b : v2) : v2 := (fst a, fst b).
Definition vtrn2 (a b : v2) : v2 := (snd a, snd b).

(** The same on the four lanes. *)
Definition q1 (f : v2 -> v2) (a : v4) : v4 := (f (fst a), f (snd a)).
Definition q2 (f : v2 -> v2 -> v2) (a b : v4) : v4 := (f (fst a) (fst b), f (snd a) (snd b)).
Definition q3 (f : v2 -> v2 -> v2 -> v2) (a b c : v4) : v4 := (f (fst a) (fst b) (fst c), f (snd a) (snd b) (snd c)).
Definition vaddq := q2 vadd.
Definition vsubq := q2 vsub.
Definition vnegq := q1 vneg.
Definition vfmaq := q3 vfma.
Definition vfmsq := q3 vfms.
Definition vrev64q := q1 vrev64.
Definition vtrn1q := q2 vtrn1.
Definition vtrn2q := q2 vtrn2.

(** vld1_f32 and vld1q_f32 at the complex [i] of a buffer; vst1_f32 and vst1q_f32. *)
Definition vld1 (b : list F) (i : Z) : option v2 := rdc f0 b i.
Definition vld1q (b : list F) (i : Z) : option v4 := do l <- rdc f0 b i; do h <- rdc f0 b (i + 1); Some (l, h).
Definition vst1 (b : list F) (i : Z) (v : v2) : option (list F) := wrc b i v.
Definition vst1q (b : list F) (i : Z) (v : v4) : option (list F) := do b <- wrc b i (fst v); wrc b (i + 1) (snd v).
(** vld1_f32 and vld1q_f32 in a table of complex numbers. *)
Definition tld1 (t : list (@cpx F)) (i : Z) : option v2 := rdt t i.
Definition tld1q (t : list (@cpx F)) (i : Z) : option v4 := do l <- rdt t i; do h <- rdt t (i + 1); Some (l, h).
(** vld2_f32 and vld2q_f32 in a table of pairs of complex numbers: the floats are
    de-interleaved, the real parts go to [val[0]] and the imaginary ones to [val[1]]. *)
Definition unzip (w : @cpx F * @cpx F) : v2 * v2 := ((fst (fst w), fst (snd w)), (snd (fst w), snd (snd w))).
Definition tld2 (t : list (@cpx F * @cpx F)) (i : Z) : option (v2 * v2) := do w <- rdt t i; Some (unzip w).
Definition tld2q (t : list (@cpx F * @cpx F)) (i : Z) : option (v4 * v4) :=
  do l <- rdt t i; do h <- rdt t (i + 1);
  Some ((fst (unzip l), fst (unzip h)), (snd (unzip l), snd (unzip h))).

(** ** Kernels *)

(** src/mdct_neon.h lines 36-50: the constants; [sin1] and [sin2] have the opposite sign
    of those of src/mdct.c in their first lane, the same value in their second one. *)
Definition dup2 (v : v2) : v4 := (v, v).
Definition cos1q (K : @fft5_consts F) : v4 := dup2 (k_cos1 K, k_cos1 K).
Definition cos2q (K : @fft5_consts F) : v4 := dup2 (k_cos2 K, k_cos2 K).
Definition sin1q (K : @fft5_consts F) : v4 := dup2 (opp (k_sin1 K), k_sin1 K).
Definition sin2q (K : @fft5_consts F) : v4 := dup2 (opp (k_sin2 K), k_sin2 K).

(** src/mdct_neon.h lines 33-100: neon_fft_5. The loop takes two transforms at a time. *)
Definition neon_fft_5 (K : @fft5_consts F) (x y : list F) (n : Z) : option (list F) :=
  let cos1q := cos1q K in let cos2q := cos2q K in let sin1q := sin1q K in let sin2q := sin2q K in
  for_ ((n + 1) / 2) (fun k y => let i := 2 * k in
    do x0 <- vld1q x (i + 0 * n); do x1 <- vld1q x (i + 1 * n); do x2 <- vld1q x (i + 2 * n);
    do x3 <- vld1q x (i + 3 * n); do x4 <- vld1q x (i + 4 * n);
    let s14 := vaddq x1 x4 in
    let s23 := vaddq x2 x3 in
    let d14 := vrev64q (vsubq x1 x4) in
    let d23 := vrev64q (vsubq x2 x3) in
    let y0 := vaddq x0 (vaddq s14 s23) in
    let y4 := vfmaq x0 s14 cos1q in
    let y4 := vfmaq y4 s23 cos2q in
    let y1 := vfmaq y4 d14 sin1q in
    let y1 := vfmaq y1 d23 sin2q in
    let y4 := vfmsq y4 d14 sin1q in
    let y4 := vfmsq y4 d23 sin2q in
    let y3 := vfmaq x0 s14 cos2q in
    let y3 := vfmaq y3 s23 cos1q in
    let y2 := vfmaq y3 d14 sin2q in
    let y2 := vfmsq y2 d23 sin1q in
    let y3 := vfmsq y3 d14 sin2q in
    let y3 := vfmaq y3 d23 sin1q in
    let p := 10 * k in
    do y <- vst1 y (p + 0) (fst y0); do y <- vst1 y (p + 1) (fst y1); do y <- vst1 y (p + 2) (fst y2);
    do y <- vst1 y (p + 3) (fst y3); do y <- vst1 y (p + 4) (fst y4);
    do y <- vst1 y (p + 5) (snd y0); do y <- vst1 y (p + 6) (snd y1); do y <- vst1 y (p + 7) (snd y2);
    do y <- vst1 y (p + 8) (snd y3); vst1 y (p + 9) (snd y4)) y.

(** src/mdct_neon.h lines 148-153, repeated on lines 156-161 and 164-169: one output of a
    pair. *)
Definition bf3_yq (x0 x1 x2 x1r x2r : v4) (wn : v4 * v4) : v4 :=
  let yn := vfmaq x0 x1 (vtrn1q (fst wn) (fst wn)) in
  let yn := vfmaq yn x1r (vtrn1q (snd wn) (snd wn)) in
  let yn := vfmaq yn x2 (vtrn2q (fst wn) (fst wn)) in
  vfmaq yn x2r (vtrn2q (snd wn) (snd wn)).
(** src/mdct_neon.h lines 188-193, repeated on lines 196-201 and 204-209. *)
Definition bf3_y (x0 x1 x2 x1r x2r : v2) (wn : v2 * v2) : v2 :=
  let yn := vfma x0 x1 (vtrn1 (fst wn) (fst wn)) in
  let yn := vfma yn x1r (vtrn1 (snd wn) (snd wn)) in
  let yn := vfma yn x2 (vtrn2 (fst wn) (fst wn)) in
  vfma yn x2r (vtrn2 (snd wn) (snd wn)).

(** src/mdct_neon.h lines 113-214: neon_fft_bf3. The pointers on [x] advance along the
    loops, they are [i * n3 + 2 * j] complex numbers after their first value. *)
Definition neon_fft_bf3 (tw : @bf3_twiddles F) (x y : list F) (n : Z) : option (list F) :=
  let n3 := t_n3 tw in let w := t_t3 tw in
  for_ n (fun i y =>
    let row := i * (3 * n3) in
    do y <- for_ (n3 / 2) (fun j y =>
      let p := i * n3 + 2 * j in
      do x0 <- vld1q x p; do x1 <- vld1q x (n * n3 + p); do x2 <- vld1q x (n * n3 + n * n3 + p);
      let x1r := vtrn1q (vrev64q (vnegq x1)) x1 in
      let x2r := vtrn1q (vrev64q (vnegq x2)) x2 in
      do wn <- tld2q w (2 * j);
      do y <- vst1q y (row + 2 * j) (bf3_yq x0 x1 x2 x1r x2r wn);
      do wn <- tld2q w (n3 + 2 * j);
      do y <- vst1q y (row + n3 + 2 * j) (bf3_yq x0 x1 x2 x1r x2r wn);
      do wn <- tld2q w (n3 + n3 + 2 * j);
      vst1q y (row + n3 + n3 + 2 * j) (bf3_yq x0 x1 x2 x1r x2r wn)) y;
    if Z.odd n3 then
      let j := n3 / 2 in
      let p := i * n3 + 2 * j in
      do x0 <- vld1 x p; do x1 <- vld1 x (n * n3 + p); do x2 <- vld1 x (n * n3 + n * n3 + p);
      let x1r := vtrn1 (vrev64 (vneg x1)) x1 in
      let x2r := vtrn1 (vrev64 (vneg x2)) x2 in
      do wn <- tld2 w (2 * j);
      do y <- vst1 y (row + 2 * j) (bf3_y x0 x1 x2 x1r x2r wn);
      do wn <- tld2 w (n3 + 2 * j);
      do y <- vst1 y (row + n3 + 2 * j) (bf3_y x0 x1 x2 x1r x2r wn);
      do wn <- tld2 w (n3 + n3 + 2 * j);
      vst1 y (row + n3 + n3 + 2 * j) (bf3_y x0 x1 x2 x1r x2r wn)
    else Some y) y.

(** src/mdct_neon.h lines 227-288: neon_fft_bf2. *)
Definition neon_fft_bf2 (tw : @bf2_twiddles F) (x y : list F) (n : Z) : option (list F) :=
  let n2 := t_n2 tw in
  for_ n (fun i y =>
    let row := i * (2 * n2) in
    do y <- for_ (n2 / 2) (fun j y =>
      let p := i * n2 + 2 * j in
      do x0 <- vld1q x p; do x1 <- vld1q x (n * n2 + p);
      let x1r := vtrn1q (vrev64q (vnegq x1)) x1 in
      do w <- tld1q (t_t2 tw) (2 * j);
      let w_re := vtrn1q w w in let w_im := vtrn2q w w in
      let y0 := vfmaq x0 x1 w_re in
      let y0 := vfmaq y0 x1r w_im in
      do y <- vst1q y (row + 2 * j) y0;
      let y1 := vfmsq x0 x1 w_re in
      let y1 := vfmsq y1 x1r w_im in
      vst1q y (row + n2 + 2 * j) y1) y;
    if Z.odd n2 then
      let j := n2 / 2 in
      let p := i * n2 + 2 * j in
      do x0 <- vld1 x p; do x1 <- vld1 x (n * n2 + p);
      let x1r := vtrn1 (vrev64 (vneg x1)) x1 in
      do w <- tld1 (t_t2 tw) (2 * j);
      let w_re := vtrn1 w w in let w_im := vtrn2 w w in
      let y0 := vfma x0 x1 w_re in
      let y0 := vfma y0 x1r w_im in
      do y <- vst1 y (row + 2 * j) y0;
      let y1 := vfms x0 x1 w_re in
      let y1 := vfms y1 x1r w_im in
      vst1 y (row + n2 + 2 * j) y1
    else Some y) y.

(** ** Transform *)

(** src/mdct.c lines 168-194: fft, with the kernels [k5], [k3] and [k2]. *)
Definition fft_with (k5 : @fft5_consts F -> list F -> list F -> Z -> option (list F))
    (k3 : @bf3_twiddles F -> list F -> list F -> Z -> option (list F))
    (k2 : @bf2_twiddles F -> list F -> list F -> Z -> option (list F))
    (T : @fft_tables F) (n : Z) (y0 y1 : list F) : option (bool * (list F * list F)) :=
  let n := n / 5 in
  do y1 <- k5 (ft_5 T) y0 y1 n;
  do s <- while (Z.to_nat n) (fun '(n, _, _) => negb (Z.land n (n - 1) =? 0))
    (fun '(n, i3, (is1, (cur, other))) =>
       do tw <- rdt (ft_bf3 T) i3;
       do other <- k3 tw cur other (n / 3);
       Some (n / 3, i3 + 1, (negb is1, (other, cur)))) (n, 0, (true, (y1, y0)));
  let '(n, i3, r) := s in
  do s <- while (Z.to_nat n) (fun '(n, _, _) => 1 <? n)
    (fun '(n, i2, (is1, (cur, other))) =>
       do row <- rdt (ft_bf2 T) i2; do tw <- rdt row i3;
       do other <- k2 tw cur other (n / 2);
       Some (n / 2, i2 + 1, (negb is1, (other, cur)))) (n, 0, r);
  Some (snd s).
Definition neon_fft := fft_with neon_fft_5 neon_fft_bf3 neon_fft_bf2.

(** src/mdct.c lines 430-450: lc3_mdct_forward; the other steps of the transform have no
    NEON version. *)
Definition neon_mdct_forward (T : @fft_tables F) (rot : @mdct_rot F) (ns nd : Z) (win : list F) (ns_dst : Z) (scale : F)
    (x d y buf : list F) : option (list F * list F) :=
  do r <- mdct_window f0 add sub mul ns nd win x d buf; let '(d, u) := r in
  do u <- mdct_pre_fft f0 add sub mul opp rot None u;
  do r <- neon_fft T (ns / 2) u y; let '(in_y, (cur, other)) := r in
  do y <- (if in_y : bool then mdct_post_fft f0 add sub mul rot None cur else mdct_post_fft f0 add sub mul rot (Some cur) other);
  do y <- (if ns =? ns_dst then Some y else rescale f0 mul y ns_dst scale);
  Some (d, y).

(** src/mdct.c lines 455-475: lc3_mdct_inverse. *)
Definition neon_mdct_inverse (T : @fft_tables F) (rot : @mdct_rot F) (ns nd : Z) (win : list F) (ns_src : Z) (scale : F)
    (src : option (list F)) (d y buf : list F) : option (list F * list F) :=
  do y <- imdct_pre_fft f0 add sub mul opp rot src y;
  do r <- neon_fft T (ns / 2) y buf; let '(in_buf, (cur, other)) := r in
  do u <- (if in_buf : bool then imdct_post_fft f0 add sub mul rot None cur else imdct_post_fft f0 add sub mul rot (Some cur) other);
  let y := if in_buf : bool then other else cur in
  do u <- (if ns =? ns_src then Some u else rescale f0 mul u ns scale);
  imdct_window f0 add sub mul ns nd win u d y.

End Neon.
