(** * Low delay modified discrete cosine transform: src/mdct.c
    The carrier [F] of the samples and its operations are parameters: the model is the
    same for the [float] of the C code, up to the rounding of the operations, and for the
    real numbers. The code is the generic one, src/mdct_neon.h is in MdctNeonModel.v. *)
From Coq Require Import ZArith List Bool.
From Verif Require Import Base ConfigModel.
Import ListNotations.
Local Open Scope Z_scope.

Section Mdct.
Context {F : Type} (f0 : F) (add sub mul : F -> F -> F) (opp : F -> F).

(** A value of struct lc3_complex, src/common.h lines 135-138. *)
Definition cpx : Type := F * F.

(** ** Memory
    Buffers of floats; an access out of the buffer is [None]. The array of complex on a
    buffer has its real and imaginary parts interleaved. *)
Definition at_ (b : list F) (i : Z) : F := nth (Z.to_nat i) b f0.
Definition rd (b : list F) (i : Z) : option F := if inb i (zlen b) then Some (at_ b i) else None.
Definition wr (b : list F) (i : Z) (v : F) : option (list F) := if inb i (zlen b) then Some (upd b i v) else None.
Definition rdc (b : list F) (i : Z) : option cpx := do re <- rd b (2 * i); do im <- rd b (2 * i + 1); Some (re, im).
Definition wrc (b : list F) (i : Z) (v : cpx) : option (list F) := do b <- wr b (2 * i) (fst v); wr b (2 * i + 1) (snd v).
(** Tables. *)
Definition rdt {A} (t : list A) (i : Z) : option A := if i <? 0 then None else nth_error t (Z.to_nat i).

(** Loops, on a state: count known, or condition. *)
Fixpoint loop {S} (k : nat) (f : Z -> S -> option S) (i : Z) (s : S) : option S :=
  match k with
  | O => Some s
  | S k => do s <- f i s; loop k f (i + 1) s
  end.
Definition for_ {S} (n : Z) (f : Z -> S -> option S) (s : S) : option S := loop (Z.to_nat n) f 0 s.
(** [None] when the fuel is out, that never happens: proved. *)
Fixpoint while {S} (fuel : nat) (c : S -> bool) (f : S -> option S) (s : S) : option S :=
  if c s then match fuel with O => None | S fuel => do s <- f s; while fuel c f s end
  else Some s.

(** ** FFT *)

(** The constants of fft_5, src/mdct.c lines 39-43. *)
Record fft5_consts := mkK5 { k_cos1 : F; k_cos2 : F; k_sin1 : F; k_sin2 : F }.

(** src/mdct.c lines 46-82: the outputs of fft_5. *)
Definition fft5_out (K : fft5_consts) (x0 x1 x2 x3 x4 : cpx) (r : Z) : cpx :=
  let s14re := add (fst x1) (fst x4) in let s14im := add (snd x1) (snd x4) in
  let d14re := sub (fst x1) (fst x4) in let d14im := sub (snd x1) (snd x4) in
  let s23re := add (fst x2) (fst x3) in let s23im := add (snd x2) (snd x3) in
  let d23re := sub (fst x2) (fst x3) in let d23im := sub (snd x2) (snd x3) in
  let c1 := k_cos1 K in let c2 := k_cos2 K in let s1 := k_sin1 K in let s2 := k_sin2 K in
  if r =? 0 then
    (add (add (fst x0) s14re) s23re, add (add (snd x0) s14im) s23im)
  else if r =? 1 then
    (sub (add (sub (add (fst x0) (mul s14re c1)) (mul d14im s1)) (mul s23re c2)) (mul d23im s2),
     add (add (add (add (snd x0) (mul s14im c1)) (mul d14re s1)) (mul s23im c2)) (mul d23re s2))
  else if r =? 2 then
    (add (add (sub (add (fst x0) (mul s14re c2)) (mul d14im s2)) (mul s23re c1)) (mul d23im s1),
     sub (add (add (add (snd x0) (mul s14im c2)) (mul d14re s2)) (mul s23im c1)) (mul d23re s1))
  else if r =? 3 then
    (sub (add (add (add (fst x0) (mul s14re c2)) (mul d14im s2)) (mul s23re c1)) (mul d23im s1),
     add (add (sub (add (snd x0) (mul s14im c2)) (mul d14re s2)) (mul s23im c1)) (mul d23re s1))
  else
    (add (add (add (add (fst x0) (mul s14re c1)) (mul d14im s1)) (mul s23re c2)) (mul d23im s2),
     sub (add (sub (add (snd x0) (mul s14im c1)) (mul d14re s1)) (mul s23im c2)) (mul d23re s2)).

(** src/mdct.c lines 35-84: fft_5. *)
Definition fft_5 (K : fft5_consts) (x y : list F) (n : Z) : option (list F) :=
  for_ n (fun i y =>
    do x0 <- rdc x i; do x1 <- rdc x (i + 1 * n); do x2 <- rdc x (i + 2 * n);
    do x3 <- rdc x (i + 3 * n); do x4 <- rdc x (i + 4 * n);
    let out := fft5_out K x0 x1 x2 x3 x4 in
    do y <- wrc y (5 * i) (out 0); do y <- wrc y (5 * i + 1) (out 1); do y <- wrc y (5 * i + 2) (out 2);
    do y <- wrc y (5 * i + 3) (out 3); wrc y (5 * i + 4) (out 4)) y.

(** src/tables.h lines 96-98: lc3_fft_bf3_twiddles, lc3_fft_bf2_twiddles, lc3_mdct_rot_def. *)
Record bf3_twiddles := mkBf3 { t_n3 : Z; t_t3 : list (cpx * cpx) }.
Record bf2_twiddles := mkBf2 { t_n2 : Z; t_t2 : list cpx }.
Record mdct_rot := mkRot { r_n4 : Z; r_w : list cpx }.

(** src/mdct.c lines 108-121: one output of fft_bf3. *)
Definition bf3_out (x0 x1 x2 : cpx) (w : cpx * cpx) : cpx :=
  let '(wa, wb) := w in
  (sub (add (sub (add (fst x0) (mul (fst x1) (fst wa))) (mul (snd x1) (snd wa))) (mul (fst x2) (fst wb))) (mul (snd x2) (snd wb)),
   add (add (add (add (snd x0) (mul (snd x1) (fst wa))) (mul (fst x1) (snd wa))) (mul (snd x2) (fst wb))) (mul (fst x2) (snd wb))).

(** src/mdct.c lines 94-126: fft_bf3. *)
Definition fft_bf3 (tw : bf3_twiddles) (x y : list F) (n : Z) : option (list F) :=
  let n3 := t_n3 tw in
  for_ n (fun i y => for_ n3 (fun j y =>
    do x0 <- rdc x (i * n3 + j); do x1 <- rdc x (n * n3 + (i * n3 + j)); do x2 <- rdc x (2 * (n * n3) + (i * n3 + j));
    do w0 <- rdt (t_t3 tw) j; do w1 <- rdt (t_t3 tw) (n3 + j); do w2 <- rdt (t_t3 tw) (2 * n3 + j);
    do y <- wrc y (i * (3 * n3) + j) (bf3_out x0 x1 x2 w0);
    do y <- wrc y (i * (3 * n3) + n3 + j) (bf3_out x0 x1 x2 w1);
    wrc y (i * (3 * n3) + 2 * n3 + j) (bf3_out x0 x1 x2 w2)) y) y.

(** src/mdct.c lines 150-154: the outputs of fft_bf2. *)
Definition bf2_out (x0 x1 w : cpx) (r : Z) : cpx :=
  if r =? 0 then
    (sub (add (fst x0) (mul (fst x1) (fst w))) (mul (snd x1) (snd w)),
     add (add (snd x0) (mul (snd x1) (fst w))) (mul (fst x1) (snd w)))
  else
    (add (sub (fst x0) (mul (fst x1) (fst w))) (mul (snd x1) (snd w)),
     sub (sub (snd x0) (mul (snd x1) (fst w))) (mul (fst x1) (snd w))).

(** src/mdct.c lines 136-157: fft_bf2. *)
Definition fft_bf2 (tw : bf2_twiddles) (x y : list F) (n : Z) : option (list F) :=
  let n2 := t_n2 tw in
  for_ n (fun i y => for_ n2 (fun j y =>
    do x0 <- rdc x (i * n2 + j); do x1 <- rdc x (n * n2 + (i * n2 + j));
    do w <- rdt (t_t2 tw) j;
    do y <- wrc y (i * (2 * n2) + j) (bf2_out x0 x1 w 0);
    wrc y (i * (2 * n2) + n2 + j) (bf2_out x0 x1 w 1)) y) y.

(** The tables lc3_fft_twiddles_bf3 and lc3_fft_twiddles_bf2, src/tables.c lines 155-156
    and 609-615. *)
Record fft_tables := mkFft { ft_5 : fft5_consts; ft_bf3 : list bf3_twiddles; ft_bf2 : list (list bf2_twiddles) }.

(** src/mdct.c lines 168-194: fft. The state is the count [n], the index [i3] or [i2], the
    buffer [y[is]] that holds the current values, and the other one. The buffer [y1] is
    the first one written; the input [x] is in [y0], as the callers do. The boolean of the
    result tells that it is in [y1]. *)
Definition fft_state : Type := Z * Z * (bool * (list F * list F)).
Definition fft (T : fft_tables) (n : Z) (y0 y1 : list F) : option (bool * (list F * list F)) :=
  let n := n / 5 in
  do y1 <- fft_5 (ft_5 T) y0 y1 n;
  do s <- while (Z.to_nat n) (fun '(n, _, _) => negb (Z.land n (n - 1) =? 0))
    (fun '(n, i3, (is1, (cur, other))) =>
       do tw <- rdt (ft_bf3 T) i3;
       do other <- fft_bf3 tw cur other (n / 3);
       Some (n / 3, i3 + 1, (negb is1, (other, cur)))) (n, 0, (true, (y1, y0)));
  let '(n, i3, r) := s in
  do s <- while (Z.to_nat n) (fun '(n, _, _) => 1 <? n)
    (fun '(n, i2, (is1, (cur, other))) =>
       do row <- rdt (ft_bf2 T) i2; do tw <- rdt row i3;
       do other <- fft_bf2 tw cur other (n / 2);
       Some (n / 2, i2 + 1, (negb is1, (other, cur)))) (n, 0, r);
  Some (snd s).

(** ** Windowing before the transform *)

(** The pointers of mdct_window, as indexes of their arrays. *)
Record win_state := mkWin
  { p_x0 : Z; p_x1 : Z; p_w0 : Z; p_w1 : Z; p_w2 : Z; p_w3 : Z; p_y0 : Z; p_y1 : Z; p_d0 : Z; p_d1 : Z;
    m_d : list F; m_y : list F }.

(** src/mdct.c lines 222-223, repeated on lines 225-226. *)
Definition win_step1 (win x : list F) (s : win_state) : option win_state :=
  do a <- rd (m_d s) (p_d0 s); do wa <- rd win (p_w0 s);
  do b <- rd x (p_x1 s - 1); do wb <- rd win (p_w1 s - 1);
  do y <- wr (m_y s) (p_y0 s - 1) (sub (mul a wa) (mul b wb));
  do c <- rd x (p_x0 s); do d <- wr (m_d s) (p_d0 s) c; do wc <- rd win (p_w2 s);
  do y <- wr y (p_y1 s) (mul c wc);
  Some (mkWin (p_x0 s + 1) (p_x1 s - 1) (p_w0 s + 1) (p_w1 s - 1) (p_w2 s + 1) (p_w3 s)
          (p_y0 s - 1) (p_y1 s + 1) (p_d0 s + 1) (p_d1 s) d y).

(** src/mdct.c lines 230-231, repeated on lines 233-234. *)
Definition win_step2 (win x : list F) (s : win_state) : option win_state :=
  do a <- rd (m_d s) (p_d0 s); do wa <- rd win (p_w0 s);
  do b <- rd (m_d s) (p_d1 s - 1); do wb <- rd win (p_w1 s - 1);
  do y <- wr (m_y s) (p_y0 s - 1) (sub (mul a wa) (mul b wb));
  do c <- rd x (p_x0 s); do d <- wr (m_d s) (p_d0 s) c; do wc <- rd win (p_w2 s);
  do e <- rd x (p_x1 s - 1); do d <- wr d (p_d1 s - 1) e; do we <- rd win (p_w3 s - 1);
  do y <- wr y (p_y1 s) (add (mul c wc) (mul e we));
  Some (mkWin (p_x0 s + 1) (p_x1 s - 1) (p_w0 s + 1) (p_w1 s - 1) (p_w2 s + 1) (p_w3 s - 1)
          (p_y0 s - 1) (p_y1 s + 1) (p_d0 s + 1) (p_d1 s - 1) d y).

(** src/mdct.c lines 207-236: mdct_window; the delayed samples and the windowed ones. *)
Definition mdct_window (ns nd : Z) (win x d y : list F) : option (list F * list F) :=
  let fuel := Z.to_nat ns in
  do s <- while fuel (fun s => 0 <? p_x1 s) (fun s => do s <- win_step1 win x s; win_step1 win x s)
    (mkWin (ns - nd) (ns - nd) 0 ns ns (ns + nd) (ns / 2) (ns / 2) 0 nd d y);
  do s <- while fuel (fun s => p_x0 s <? p_x1 s) (fun s => do s <- win_step2 win x s; win_step2 win x s)
    (mkWin (p_x0 s) (p_x1 s + ns) (p_w0 s) (p_w1 s) (p_w2 s) (p_w3 s) (p_y0 s) (p_y1 s) (p_d0 s) (p_d1 s) (m_d s) (m_y s));
  Some (m_d s, m_y s).

(** ** Rotations
    The functions work on one buffer, or from an input to an output buffer: [src] is the
    input buffer, absent when it is the output one. *)
Definition inp (src : option (list F)) (b : list F) : list F := match src with Some x => x | None => b end.

(** Pointers x0, x1, w0 = y0, w1 = y1 (lines 250-252, 312-315), and the output buffer. *)
Definition rot_state : Type := Z * Z * Z * Z * list F.

(** src/mdct.c lines 245-266: mdct_pre_fft. *)
Definition mdct_pre_fft (rot : mdct_rot) (src : option (list F)) (y : list F) : option (list F) :=
  let n4 := r_n4 rot in
  do s <- while (Z.to_nat n4) (fun '(x0, x1, _, _, _) => x0 <? x1)
    (fun '(x0, x1, k0, k1, y) =>
       do uw <- rdt (r_w rot) k0; do a <- rd (inp src y) (x1 - 1); do b <- rd (inp src y) x0;
       let u := (add (mul (opp a) (fst uw)) (mul b (snd uw)), add (mul b (fst uw)) (mul a (snd uw))) in
       do vw <- rdt (r_w rot) (k1 - 1); do c <- rd (inp src y) (x1 - 2); do d <- rd (inp src y) (x0 + 1);
       let v := (add (mul (opp c) (snd vw)) (mul d (fst vw)), sub (mul (opp d) (snd vw)) (mul c (fst vw))) in
       do y <- wrc y k0 u; do y <- wrc y (k1 - 1) v;
       Some (x0 + 2, x1 - 2, k0 + 1, k1 - 1, y)) (0, 2 * n4, 0, n4, y);
  Some (snd s).

(** src/mdct.c lines 275-296: mdct_post_fft; the pointers x0 = w0, x1 = w1, y0 and y1. *)
Definition mdct_post_fft (rot : mdct_rot) (src : option (list F)) (y : list F) : option (list F) :=
  let n4 := r_n4 rot in let n8 := n4 / 2 in
  do s <- while (Z.to_nat n4) (fun '(_, _, _, y1, _) => 0 <? y1)
    (fun '(k0, k1, y0, y1, y) =>
       do x0 <- rdc (inp src y) k0; do x1 <- rdc (inp src y) k1; do w0 <- rdt (r_w rot) k0; do w1 <- rdt (r_w rot) k1;
       let u0 := add (mul (snd x0) (snd w0)) (mul (fst x0) (fst w0)) in
       let u1 := sub (mul (fst x1) (snd w1)) (mul (snd x1) (fst w1)) in
       let v0 := sub (mul (fst x0) (snd w0)) (mul (snd x0) (fst w0)) in
       let v1 := add (mul (snd x1) (snd w1)) (mul (fst x1) (fst w1)) in
       do y <- wr y y0 u0; do y <- wr y (y0 + 1) u1; do y <- wr y (y1 - 1) v0; do y <- wr y (y1 - 2) v1;
       Some (k0 + 1, k1 - 1, y0 + 2, y1 - 2, y)) (n8, n8 - 1, n4, n4, y);
  Some (snd s).

(** src/mdct.c lines 307-328: imdct_pre_fft. *)
Definition imdct_pre_fft (rot : mdct_rot) (src : option (list F)) (y : list F) : option (list F) :=
  let n4 := r_n4 rot in
  do s <- while (Z.to_nat n4) (fun '(x0, x1, _, _, _) => x0 <? x1)
    (fun '(x0, x1, k0, k1, y) =>
       do u0 <- rd (inp src y) x0; do u1 <- rd (inp src y) (x1 - 1);
       do v0 <- rd (inp src y) (x0 + 1); do v1 <- rd (inp src y) (x1 - 2);
       do uw <- rdt (r_w rot) k0; do vw <- rdt (r_w rot) (k1 - 1);
       do y <- wrc y k0 (sub (mul (opp u0) (fst uw)) (mul u1 (snd uw)), add (mul (opp u1) (fst uw)) (mul u0 (snd uw)));
       do y <- wrc y (k1 - 1) (sub (mul (opp v1) (fst vw)) (mul v0 (snd vw)), add (mul (opp v0) (fst vw)) (mul v1 (snd vw)));
       Some (x0 + 2, x1 - 2, k0 + 1, k1 - 1, y)) (0, 2 * n4, 0, n4, y);
  Some (snd s).

(** src/mdct.c lines 339-359: imdct_post_fft; the pointers x0 = w0, x1 = w1, y0 and y1. *)
Definition imdct_post_fft (rot : mdct_rot) (src : option (list F)) (y : list F) : option (list F) :=
  let n4 := r_n4 rot in
  do s <- while (Z.to_nat n4) (fun '(k0, k1, _, _, _) => k0 <? k1)
    (fun '(k0, k1, y0, y1, y) =>
       do uz <- rdc (inp src y) k0; do vz <- rdc (inp src y) (k1 - 1);
       do uw <- rdt (r_w rot) k0; do vw <- rdt (r_w rot) (k1 - 1);
       do y <- wr y y0 (sub (mul (fst uz) (snd uw)) (mul (snd uz) (fst uw)));
       do y <- wr y (y1 - 1) (add (mul (fst uz) (fst uw)) (mul (snd uz) (snd uw)));
       do y <- wr y (y1 - 2) (sub (mul (fst vz) (snd vw)) (mul (snd vz) (fst vw)));
       do y <- wr y (y0 + 1) (add (mul (fst vz) (fst vw)) (mul (snd vz) (snd vw)));
       Some (k0 + 1, k1 - 1, y0 + 2, y1 - 2, y)) (0, n4, 0, 2 * n4, y);
  Some (snd s).

(** ** Windowing after the inverse transform *)

(** The pointers of imdct_window; those in the delay buffer are prefixed. *)
Record iwin_state := mkIwin
  { q_x : Z; q_w0 : Z; q_w1 : Z; q_w2 : Z; q_dx0 : Z; q_dx1 : Z; q_y0 : Z; q_y1 : Z; q_dy2 : Z; q_dy3 : Z;
    q_d : list F; q_y : list F }.

(** src/mdct.c lines 385, 388: the output on the left. *)
Definition iwin_left (win x : list F) (s : iwin_state) : option iwin_state :=
  do a <- rd (q_d s) (q_dx0 s - 1); do b <- rd x (q_x s); do w <- rd win (q_w1 s);
  do y <- wr (q_y s) (q_y0 s - 1) (sub a (mul b w));
  Some (mkIwin (q_x s) (q_w0 s) (q_w1 s + 1) (q_w2 s) (q_dx0 s - 1) (q_dx1 s) (q_y0 s - 1) (q_y1 s) (q_dy2 s) (q_dy3 s) (q_d s) y).
(** src/mdct.c lines 386, 389, 393, 394: the output on the right. *)
Definition iwin_right (win x : list F) (s : iwin_state) : option iwin_state :=
  do a <- rd (q_d s) (q_dx1 s); do b <- rd x (q_x s); do w <- rd win (q_w0 s - 1);
  do y <- wr (q_y s) (q_y1 s) (add a (mul b w));
  Some (mkIwin (q_x s + 1) (q_w0 s - 1) (q_w1 s) (q_w2 s) (q_dx0 s) (q_dx1 s + 1) (q_y0 s) (q_y1 s + 1) (q_dy2 s) (q_dy3 s) (q_d s) y).
(** src/mdct.c lines 398, 401: the output, without delayed sample. *)
Definition iwin_out (win x : list F) (s : iwin_state) : option iwin_state :=
  do b <- rd x (q_x s); do w <- rd win (q_w0 s - 1); do y <- wr (q_y s) (q_y1 s) (mul b w);
  Some (mkIwin (q_x s) (q_w0 s - 1) (q_w1 s) (q_w2 s) (q_dx0 s) (q_dx1 s) (q_y0 s) (q_y1 s + 1) (q_dy2 s) (q_dy3 s) (q_d s) y).
(** src/mdct.c lines 399, 402, 407, 410: the end of the delay buffer. *)
Definition iwin_dend (win x : list F) (s : iwin_state) : option iwin_state :=
  do b <- rd x (q_x s); do w <- rd win (q_w2 s); do d <- wr (q_d s) (q_dy2 s - 1) (mul b w);
  Some (mkIwin (q_x s + 1) (q_w0 s) (q_w1 s) (q_w2 s + 1) (q_dx0 s) (q_dx1 s) (q_y0 s) (q_y1 s) (q_dy2 s - 1) (q_dy3 s) d (q_y s)).
(** src/mdct.c lines 406, 409: the start of the delay buffer. *)
Definition iwin_dstart (win x : list F) (s : iwin_state) : option iwin_state :=
  do b <- rd x (q_x s); do w <- rd win (q_w0 s - 1); do d <- wr (q_d s) (q_dy3 s) (mul b w);
  Some (mkIwin (q_x s) (q_w0 s - 1) (q_w1 s) (q_w2 s) (q_dx0 s) (q_dx1 s) (q_y0 s) (q_y1 s) (q_dy2 s) (q_dy3 s + 1) d (q_y s)).

(** src/mdct.c lines 367-412: imdct_window; the delayed samples and the output ones. *)
Definition imdct_window (ns nd : Z) (win x d y : list F) : option (list F * list F) :=
  let n4 := ns / 2 in let fuel := Z.to_nat ns in
  let two f g s := do s <- f s; do s <- g s; do s <- f s; g s in
  do s <- while fuel (fun s => 0 <? q_y0 s) (two (iwin_left win x) (iwin_right win x))
    (mkIwin 0 (3 * n4) (3 * n4) 0 (nd - n4) (nd - n4) (nd - n4) (nd - n4) nd 0 d y);
  do s <- while fuel (fun s => q_y1 s <? nd) (fun s => do s <- iwin_right win x s; iwin_right win x s) s;
  do s <- while fuel (fun s => q_y1 s <? 2 * n4) (two (iwin_out win x) (iwin_dend win x)) s;
  do s <- while fuel (fun s => q_dy3 s <? q_dy2 s) (two (iwin_dstart win x) (iwin_dend win x)) s;
  Some (q_d s, q_y s).

(** ** The transforms *)

(** src/mdct.c lines 419-425: rescale. *)
Definition rescale (x : list F) (n : Z) (f : F) : option (list F) :=
  for_ (n / 4) (fun i x =>
    do a <- rd x (4 * i); do x <- wr x (4 * i) (mul a f);
    do a <- rd x (4 * i + 1); do x <- wr x (4 * i + 1) (mul a f);
    do a <- rd x (4 * i + 2); do x <- wr x (4 * i + 2) (mul a f);
    do a <- rd x (4 * i + 3); wr x (4 * i + 3) (mul a f)) x.

(** src/tables.h line 70 and src/mdct.c lines 438, 463: floats of the local buffer. *)
Definition MAX_NS : Z := 960.

(** src/mdct.c lines 430-450: lc3_mdct_forward, for the sample rate index [sr] of the
    transform; [scale] is the factor of line 449. The local buffer, not initialized, is
    [buf]; [y] is the output buffer, the samples [x] can be in it. Returns the delayed
    samples and the output. *)
Definition mdct_forward (T : fft_tables) (rot : mdct_rot) (ns nd : Z) (win : list F) (ns_dst : Z) (scale : F)
    (x d y buf : list F) : option (list F * list F) :=
  do r <- mdct_window ns nd win x d buf; let '(d, u) := r in
  do u <- mdct_pre_fft rot None u;
  do r <- fft T (ns / 2) u y; let '(in_y, (cur, other)) := r in
  do y <- (if in_y : bool then mdct_post_fft rot None cur else mdct_post_fft rot (Some cur) other);
  do y <- (if ns =? ns_dst then Some y else rescale y ns_dst scale);
  Some (d, y).

(** src/mdct.c lines 455-475: lc3_mdct_inverse. The coefficients are in the output buffer,
    or in [src]. *)
Definition mdct_inverse (T : fft_tables) (rot : mdct_rot) (ns nd : Z) (win : list F) (ns_src : Z) (scale : F)
    (src : option (list F)) (d y buf : list F) : option (list F * list F) :=
  do y <- imdct_pre_fft rot src y;
  do r <- fft T (ns / 2) y buf; let '(in_buf, (cur, other)) := r in
  do u <- (if in_buf : bool then imdct_post_fft rot None cur else imdct_post_fft rot (Some cur) other);
  let y := if in_buf : bool then other else cur in
  do u <- (if ns =? ns_src then Some u else rescale u ns scale);
  imdct_window ns nd win u d y.

End Mdct.
