(** * Long term postfilter of the decoder
    The floats are any type with any operations: nothing depends on their semantics.
    Pointers in the memory of the decoder are indexes of the list [mem]; accesses are
    checked, [None] is an access out of an array or a signed overflow. *)
From Coq Require Import ZArith List Bool.
From Verif Require Import Base ConfigModel SideModel.
Import ListNotations.
Local Open Scope Z_scope.

(** Checked accesses: an element, a write, a range of [n] elements. *)
Definition rd {A} (l : list A) (i : Z) : option A :=
  if i <? 0 then None else nth_error l (Z.to_nat i).
Definition wr {A} (l : list A) (i : Z) (v : A) : option (list A) :=
  if inb i (zlen l) then Some (upd l i v) else None.
Definition rdn {A} (l : list A) (i n : Z) : option (list A) :=
  if (0 <=? i) && (0 <=? n) && (i + n <=? zlen l) then Some (firstn (Z.to_nat n) (skipn (Z.to_nat i) l))
  else None.

(** ** Pitch *)

(** src/ltpf.c lines 861-865: pitch from the index of the bitstream, in quarters of
    sample at 12.8 kHz. *)
Definition index_pitch (p_idx : Z) : Z :=
  if 440 <=? p_idx then shl (p_idx - 283) 2
  else if 380 <=? p_idx then shl (shr p_idx 1 - 63) 2 + shl (Z.land p_idx 1) 1
  else shl (shr p_idx 2 + 32) 2 + Z.land p_idx 3.

(** src/ltpf.c lines 650-655, end of refine_pitch: the pitch and the index of the
    bitstream, from the integer [e] and the quarters [f] found by the search. *)
Definition pitch_out (e f : Z) : Z * Z :=
  let neg := b2z (f <? 0) in
  let e := e - neg in
  let f := f + 4 * neg in
  (4 * e + f,
   if e <? 127 then 4 * e + f - 128 else if e <? 157 then 2 * e + shr f 1 + 126 else e + 283).

(** src/ltpf.c line 867: in quarters of sample at the output rate. *)
Definition scaled_pitch (sr p_idx : Z) : option Z :=
  do a <- cmul (index_pitch p_idx) (c_ns DT_10M sr);
  do b <- cadd a 64;
  cdiv b 128.

(** src/ltpf.c lines 869-876: index of the gain. *)
Definition gain_index (dt sr nbytes : Z) : option Z :=
  do a <- cmul nbytes 8;
  do b <- cmul a (1 + DT_10M);
  do n <- cdiv b (1 + dt);
  do n <- (if dt =? DT_2M5 then do m <- cmul 6 n; do m <- cadd m 5; cdiv m 10 else Some n);
  do n <- (if dt =? DT_5M then csub n 160 else Some n);
  do q <- cdiv n 80;
  Some (Z.max q (3 + sr) - (3 + sr)).

Section floats.
  Context {F : Type} (zero : F) (add sub mul div : F -> F -> F) (ofz : Z -> F).

  (** Loops on [k] of src/ltpf.c lines 785-789 and 803-807: [n] iterations,
      [u[pos k] op= v * c[base + k]]. *)
  Fixpoint acc (n : nat) (op : F -> F -> F) (c : list F) (pos : Z -> Z) (base : Z) (v : F) (k : Z) (u : list F)
    : option (list F) :=
    match n with
    | O => Some u
    | S n =>
        do uk <- rd u (pos k);
        do ck <- rd c (base + k);
        do u <- wr u (pos k) (op uk (mul v ck));
        acc n op c pos base v (k + 1) u
    end.

  (** src/ltpf.c lines 778-790: previous samples. [x0p] is the index of [x0] in [x0m];
      [y] is the index in the ring from [xh] to [y_end]. *)
  Fixpoint preload (n : nat) (mem : list F) (xh y_end : Z) (x0m : list F) (x0p : Z) (c : list F) (w : Z)
    (j y : Z) (u : list F) : option (list F * Z) :=
    match n with
    | O => Some (u, y)
    | S n =>
        do u <- wr u j zero;
        do yi <- rd mem y;
        do xi <- rd x0m (x0p + j);
        do u <- acc (Z.to_nat (j + 1)) sub c (fun k => j - k) 0 yi 0 u;
        do u <- acc (Z.to_nat (j + 1)) add c (fun k => j - k) w xi 0 u;
        preload n mem xh y_end x0m x0p c w (j + 1) (if y <? y_end then y + 1 else xh) u
    end.

  (** src/ltpf.c lines 796-812: the loops on [i] and [j] in one. *)
  Fixpoint filter (n : nat) (xh y_end : Z) (c : list F) (w : Z) (g_incr : F)
    (j x y : Z) (g : F) (u mem : list F) : option (list F) :=
    match n with
    | O => Some mem
    | S n =>
        do yi <- rd mem y;
        do xi <- rd mem x;
        do u <- acc (Z.to_nat w) sub c (fun k => (j + (w - 1) - k) mod w) 0 yi 0 u;
        do u <- acc (Z.to_nat w) add c (fun k => (j + (w - 1) - k) mod w) w xi 0 u;
        do uj <- rd u j;
        do mem <- wr mem x (sub xi (mul g uj));
        do u <- wr u j zero;
        filter n xh y_end c w g_incr (if j + 1 <? w then j + 1 else 0) (x + 1)
          (if y <? y_end then y + 1 else xh) (add g g_incr) u mem
    end.

  (** src/ltpf.c lines 748 and 761-813: synthesize_template. The size of [u] is 24, not
      initialised; the last block of [w] samples is complete. *)
  Definition synthesize_template (u0 mem : list F) (xh nh lag : Z) (x0m : list F) (x0p x n : Z)
    (c : list F) (w fade : Z) : option (list F) :=
    let g := ofz (b2z (fade <=? 0)) in
    let g_incr := div (ofz (b2z (0 <? fade) - b2z (fade <? 0))) (ofz n) in
    let lag := lag + shr w 1 in
    let y := if x - xh <? lag then x + (nh - lag) else x - lag in
    let y_end := xh + nh - 1 in
    do uy <- preload (Z.to_nat (w - 1)) mem xh y_end x0m x0p c w 0 y u0;
    let '(u, y) := uy in
    do u <- wr u (w - 1) zero;
    filter (Z.to_nat (w * ((n + w - 1) / w))) xh y_end c w g_incr 0 x y g u mem.

  (** src/ltpf.c lines 821-851: synthesize, width of the filter for each rate. *)
  Definition filter_width (sr : Z) : option Z := rd [4; 4; 6; 8; 12] sr.

  (** include/lc3_private.h lines 144-148: struct lc3_ltpf_synthesis. *)
  Record ltpf_state := mkLtpfState { t_active : bool; t_pitch : Z; t_c : list F; t_x : list F }.

  (** Constants 0.4f, 0.05f and 0.85f; tables lc3_ltpf_cden and lc3_ltpf_cnum. *)
  Context (k04 k005 k085 : F) (cden cnum : list (list (list F))).

  (** src/ltpf.c lines 883-887. *)
  Fixpoint coefs (n : nat) (sr w pitch g_idx : Z) (active : bool) (i : Z) (c : list F) : option (list F) :=
    match n with
    | O => Some c
    | S n =>
        let g := if active then sub k04 (mul k005 (ofz g_idx)) else zero in
        do rows <- rd cden sr;
        do row <- rd rows (Z.land pitch 3);
        do d <- rd row ((w - 1) - i);
        do c <- wr c i (mul g d);
        do rows <- rd cnum sr;
        do row <- rd rows (Z.min g_idx 3);
        do d <- rd row ((w - 1) - i);
        do c <- wr c (w + i) (mul (mul k085 g) d);
        coefs n sr w pitch g_idx active (i + 1) c
    end.

  (** memcpy of the [n] elements [v] at the start of the array [l]. *)
  Definition put_head (l v : list F) : option (list F) :=
    if zlen v <=? zlen l then Some (v ++ skipn (length v) l) else None.

  (** src/ltpf.c lines 853-931: lc3_ltpf_synthesize; [data] is [None] for NULL. The local
      arrays are not initialised: [c0] and [u0]. *)
  Definition ltpf_synthesize (c0 u0 : list F) (dt sr nbytes : Z) (st : ltpf_state) (data : option ltpf_data)
    (mem : list F) (xh x : Z) : option (list F * ltpf_state) :=
    let nh := c_ns dt sr + c_nh dt sr in
    let p_idx := match data with Some d => l_pitch d | None => 0 end in
    do pitch <- scaled_pitch sr p_idx;
    do g_idx <- gain_index dt sr nbytes;
    let active := match data with Some d => negb (l_active d =? 0) && (g_idx <? 4) | None => false end in
    let w := Z.max 4 (shr (ns_4m sr) 4) in
    do c <- coefs (Z.to_nat w) sr w pitch g_idx active 0 c0;
    let ns := c_ns dt sr in
    let nt := ns / (1 + dt) in
    do x0_0 <- rdn (t_x st) 0 (w - 1);
    do xs <- rdn mem (x + ns - (w - 1)) (w - 1);
    do tx <- put_head (t_x st) xs;
    do x0_1 <- (if active then rdn mem (x + nt - (w - 1)) (w - 1) else Some []);
    do fw <- filter_width sr;
    do mem <- (
      if negb (t_active st) && active then
        synthesize_template u0 mem xh nh (Z.quot pitch 4) x0_0 0 x nt c fw 1
      else if t_active st && negb active then
        synthesize_template u0 mem xh nh (Z.quot (t_pitch st) 4) x0_0 0 x nt (t_c st) fw (-1)
      else if t_active st && active && (t_pitch st =? pitch) then
        synthesize_template u0 mem xh nh (Z.quot pitch 4) x0_0 0 x nt c fw 0
      else if t_active st && active then
        do mem <- synthesize_template u0 mem xh nh (Z.quot (t_pitch st) 4) x0_0 0 x nt (t_c st) fw (-1);
        synthesize_template u0 mem xh nh (Z.quot pitch 4) mem
          ((if x <=? xh then x + nh else x) - (w - 1)) x nt c fw 1
      else Some mem);
    do mem <- (
      if active && (nt <? ns) then
        synthesize_template u0 mem xh nh (Z.quot pitch 4) x0_1 0 (x + nt) (ns - nt) c fw 0
      else Some mem);
    do cs <- rdn c 0 (2 * w);
    do tc <- put_head (t_c st) cs;
    Some (mem, mkLtpfState active pitch tc tx).

  (** A frame to synthesize: its size, its postfilter data (NULL on a loss or without
      pitch, src/lc3.c lines 652-654), its samples and the content of the areas
      [xd] and [xg] of the decoder at this time. *)
  Record frame_in := mkFrameIn { r_nbytes : Z; r_data : option ltpf_data; r_xs : list F; r_rest : list F }.

  (** The memory when the inverse transform has written the samples of the frame at [x]
      (src/lc3.c lines 637-650): the ring is the [nh] first elements. *)
  Definition put_window (mem : list F) (nh x : Z) (f : frame_in) : option (list F) :=
    if (0 <=? x) && (x + zlen (r_xs f) <=? nh) && (nh <=? zlen mem) then
      Some (firstn (Z.to_nat x) mem ++ r_xs f ++
            firstn (Z.to_nat (nh - (x + zlen (r_xs f)))) (skipn (Z.to_nat (x + zlen (r_xs f))) mem) ++ r_rest f)
    else None.

  (** src/lc3.c lines 618-672: synthesize (from line 652) and complete, for the successive
      frames of a decoder without high-resolution. The samples of a frame are the [ns] of
      the window (lines 765-768). *)
  Fixpoint postfilter (c0 u0 : list F) (d : dec_cfg) (st : ltpf_state) (mem : list F) (fr : list frame_in)
    : option (list (list F)) :=
    match fr with
    | [] => Some []
    | f :: fr =>
        let ns := c_ns (d_dt d) (d_srp d) in
        do mem <- put_window mem (ns + c_nh (d_dt d) (d_srp d)) (d_xs d) f;
        do r <- ltpf_synthesize c0 u0 (d_dt d) (d_srp d) (r_nbytes f) st (r_data f) mem (d_xh d) (d_xs d);
        let '(mem, st) := r in
        do out <- rdn mem (d_xs d) ns;
        do outs <- postfilter c0 u0 (complete d) st mem fr;
        Some (out :: outs)
    end.

  (** src/lc3.c lines 695-729: state after the setup of a decoder whose buffer has [n]
      elements. *)
  Definition ltpf_init : ltpf_state := mkLtpfState false 0 (repeat zero 24) (repeat zero 12).
  Definition mem_init (n : Z) : list F := repeat zero (Z.to_nat n).
End floats.
