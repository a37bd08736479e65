(** * Specification of the long term postfilter, on unbounded streams of samples
    A stream gives a sample for every time (in samples at the output rate, the first
    sample of the first frame has time 0). There is no ring buffer, no pointer and no
    accumulator here. *)
From Coq Require Import ZArith List Bool.
Import ListNotations.
Local Open Scope Z_scope.

(** Pitch lag of an index of the bitstream, in quarters of sample at 12.8 kHz: from 32 by
    quarters, from 127 by halves, from 157 by integers. *)
Definition lag_of_index (i : Z) : Z :=
  if i <? 380 then 4 * 32 + i else if i <? 440 then 4 * 127 + 2 * (i - 380) else 4 * 157 + 4 * (i - 440).

(** The same lag in quarters of sample at [hz], to the nearest. *)
Definition lag_at (hz i : Z) : Z := (2 * (lag_of_index i * hz) + 12800) / (2 * 12800).

Section floats.
  Context {F : Type} (zero : F) (add sub mul div : F -> F -> F) (ofz : Z -> F).

  Definition stream := Z -> F.

  (** First [n] of the [w] terms of the filter at time [t]: [y] is the stream filtered so
      far, [x] the stream to filter; [lag] is the delay of the first term. *)
  Fixpoint taps (n : nat) (w lag : Z) (c : Z -> F) (y x : stream) (t : Z) : F :=
    match n with
    | O => zero
    | S n =>
        let k := Z.of_nat n in
        add (sub (taps n w lag c y x t) (mul (y (t - lag + k)) (c k)))
            (mul (x (t - (w - 1) + k)) (c (w + k)))
    end.

  (** Gain applied to sample [i] when it starts from [g] and grows by [d]. *)
  Definition gain (g d : F) (i : nat) : F := Nat.iter i (fun g => add g d) g.

  (** Filtering of the [n] samples from time [t0]. *)
  Fixpoint filtered (n : nat) (t0 w lag : Z) (c : Z -> F) (g d : F) (x y : stream) : stream :=
    match n with
    | O => y
    | S n =>
        let y := filtered n t0 w lag c g d x y in
        let t := t0 + Z.of_nat n in
        fun s => if s =? t then sub (x t) (mul (gain g d n) (taps (Z.to_nat w) w lag c y x t)) else y s
    end.

  (** Parameters of a frame: activity, lag in quarters of sample, coefficients. *)
  Record params := mkParams { f_active : bool; f_lag : Z; f_coef : Z -> F }.

  (** The fading modes, on [n] samples. *)
  Definition fade_in (n t0 w : Z) (p : params) : stream -> stream -> stream :=
    filtered (Z.to_nat n) t0 w (f_lag p / 4 + w / 2) (f_coef p) (ofz 0) (div (ofz 1) (ofz n)).
  Definition fade_out (n t0 w : Z) (p : params) : stream -> stream -> stream :=
    filtered (Z.to_nat n) t0 w (f_lag p / 4 + w / 2) (f_coef p) (ofz 1) (div (ofz (-1)) (ofz n)).
  Definition constant (n t0 w : Z) (p : params) : stream -> stream -> stream :=
    filtered (Z.to_nat n) t0 w (f_lag p / 4 + w / 2) (f_coef p) (ofz 1) (div (ofz 0) (ofz n)).
  Definition copied (n t0 : Z) (x y : stream) : stream :=
    fun s => if (t0 <=? s) && (s <? t0 + n) then x s else y s.

  (** One frame of [ns] samples from time [t0]: the [nt] first samples are the transition
      from the parameters [p] of the previous frame to [q]. When the lag changes, the
      transition is filtered twice. *)
  Definition frame (ns nt w t0 : Z) (p q : params) (x y : stream) : stream :=
    let y :=
      match f_active p, f_active q with
      | false, true => fade_in nt t0 w q x y
      | true, false => fade_out nt t0 w p x y
      | true, true =>
          if f_lag p =? f_lag q then constant nt t0 w q x y
          else fade_in nt t0 w q (fade_out nt t0 w p x y) y
      | false, false => copied nt t0 x y
      end in
    if f_active q then constant (ns - nt) (t0 + nt) w q x y else copied (ns - nt) (t0 + nt) x y.

  (** ** Parameters from the bitstream *)

  (** Duration of a frame: 1 to 4 times 2.5 ms. [nbytes] is its size. Index of the gain:
      0 for the strongest, 4 and more disable the filter. *)
  Definition gain_level (quarters rate_idx nbytes : Z) : Z :=
    let bits := 8 * nbytes * 4 / quarters in
    let bits := if quarters =? 1 then (6 * bits + 5) / 10 else if quarters =? 2 then bits - 160 else bits in
    Z.max 0 (bits / 80 - (3 + rate_idx)).

  (** Width of the filter: a quarter of millisecond, at least 4 samples. *)
  Definition width (hz : Z) : Z := Z.max 4 (hz / 4000).

  (** Tables of the coefficients, by rate, by fraction of lag or gain, and constants 0.4,
      0.05, 0.85. *)
  Context (k04 k005 k085 : F) (den num : Z -> Z -> Z -> F).

  Definition frame_params (quarters rate_idx hz nbytes : Z) (data : option (bool * Z)) : params :=
    let l := gain_level quarters rate_idx nbytes in
    let w := width hz in
    match data with
    | Some (true, i) =>
        let g := sub k04 (mul k005 (ofz l)) in
        mkParams (l <? 4) (lag_at hz i)
          (fun k => if k <? w then mul g (den rate_idx (lag_at hz i mod 4) (w - 1 - k))
                    else mul (mul k085 g) (num rate_idx (Z.min l 3) (w - 1 - (k - w))))
    | Some (false, i) => mkParams false (lag_at hz i) (fun _ => zero)
    | None => mkParams false 0 (fun _ => zero)
    end.

  (** Stream of samples of the frames, before the filter: zero outside. *)
  Definition input (ns : Z) (fr : list (list F)) : stream :=
    fun t => if t <? 0 then zero else nth (Z.to_nat (t mod ns)) (nth (Z.to_nat (t / ns)) fr []) zero.

  (** All frames, from silence; [fr] lists their sizes and data. *)
  Fixpoint output (quarters rate_idx hz : Z) (x : stream) (fr : list (Z * option (bool * Z))) : stream * params :=
    match fr with
    | [] => (fun _ => zero, mkParams false 0 (fun _ => zero))
    | (nbytes, data) :: fr =>
        (* most recent frame first *)
        let '(y, p) := output quarters rate_idx hz x fr in
        let ns := quarters * (hz / 400) in
        let q := frame_params quarters rate_idx hz nbytes data in
        (frame ns (hz / 400) (width hz) (Z.of_nat (length fr) * ns) p q x y, q)
    end.
End floats.
