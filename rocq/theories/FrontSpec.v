(** * Specification of the attack detector and of the resampling, on a stream of samples
    In unbounded integers, with divisions rounded down, as sections 3.3.6 and 3.3.9 of
    the LC3 specification describe them. *)
From Coq Require Import ZArith List Bool.
From Verif Require Import Base.
Import ListNotations.
Local Open Scope Z_scope.

(** Samples by time; all samples before the start are zero. *)
Definition stream := Z -> Z.
Definition stream_of (frames : list (list Z)) : stream := fun t => if t <? 0 then 0 else nth (Z.to_nat t) (concat frames) 0.

(** Sum of [f] at [n] indexes from [k]. *)
Fixpoint sum (n : nat) (f : Z -> Z) (k : Z) : Z :=
  match n with O => 0 | S n => f k + sum n f (k + 1) end.

(** Signal at 16 kHz: groups of 2 (32 kHz) or 3 (48 kHz) samples, divided by 2 or 4. *)
Definition group (hz : Z) : Z := if hz =? 32000 then 2 else 3.
Definition decimated (hz : Z) (x : stream) (k : Z) : Z :=
  sum (Z.to_nat (group hz)) x (group hz * k) / (if hz =? 32000 then 2 else 4).

(** High-pass filter, and energy of the block [b] of 40 values (2.5 ms). *)
Definition highpass (m : stream) (k : Z) : Z := (3 * m k - 4 * m (k - 1) + m (k - 2)) / 8.
Definition energy (hz : Z) (x : stream) (b : Z) : Z :=
  sum 40 (fun k => highpass (decimated hz x) k * highpass (decimated hz x) k / 32) (40 * b).

(** Envelope at a block, from the envelope and the energy of the block before. *)
Definition envelope (a e : Z) : Z := Z.max (a / 4) e.

(** An attack in a block: 8 times over the envelope, with a margin. *)
Definition attack (a e : Z) : bool := a + a / 16 <? e / 8.

(** Attacks at successive blocks of energies [es]; [a] and [e] are of the block before. *)
Fixpoint attacks (a e : Z) (es : list Z) : list bool :=
  match es with [] => [] | e' :: es => attack (envelope a e) e' :: attacks (envelope a e) e' es end.
Fixpoint last_block (a e : Z) (es : list Z) : Z * Z :=
  match es with [] => (a, e) | e' :: es => last_block (envelope a e) e' es end.

(** Sizes of frames (bytes) for which the detector works. *)
Definition sizes (hr : bool) (dt_us hz : Z) : option (Z * Z) :=
  if hr then None else
  if dt_us =? 7500 then (if hz =? 32000 then Some (61, 149) else if hz =? 48000 then Some (75, 149) else None) else
  if dt_us =? 10000 then (if hz =? 32000 then Some (81, 2147483647) else if hz =? 48000 then Some (100, 2147483647) else None)
  else None.
Definition works (hr : bool) (dt_us hz nbytes : Z) : bool :=
  match sizes hr dt_us hz with Some (lo, hi) => (lo <=? nbytes) && (nbytes <=? hi) | None => false end.

Definition any (l : list bool) : bool := existsb (fun b => b) l.

(** Flags of the frames from number [n]. A frame is flagged by an attack in one of its blocks,
    or by one in the second half of the last frame where the detector worked ([prev]). *)
Fixpoint flags (hr : bool) (dt_us hz : Z) (x : stream) (n : Z) (a e : Z) (prev : list bool) (nbytes : list Z) : list bool :=
  match nbytes with
  | [] => []
  | s :: nbytes =>
      if works hr dt_us hz s then
        let nb := dt_us / 2500 in
        let es := map (fun i => energy hz x (nb * n + Z.of_nat i)) (seq 0 (Z.to_nat nb)) in
        let at_ := attacks a e es in
        let '(a', e') := last_block a e es in
        (any at_ || any (skipn (Z.to_nat (nb / 2)) prev)) :: flags hr dt_us hz x (n + 1) a' e' at_ nbytes
      else false :: flags hr dt_us hz x (n + 1) a e prev nbytes
  end.

(** ** Resampling for the pitch analysis *)

(** Sample [k] at 12.8 kHz: interpolation at the time [k * step / p] of the input, by the
    [w] taps of a phase of the table [h]. *)
Definition interpolated (p step w : Z) (h : list Z) (x : stream) (k : Z) : Z :=
  sum (Z.to_nat w) (fun t => x (step * k / p - (w - 1) + t) * nth (Z.to_nat (step * k mod p * w + t)) h 0) 0.

(** High-pass filter at 50 Hz on the samples [u], coefficients times [2^30]: the memory
    before the sample [n], and the output. *)
Fixpoint hp_memory (u : stream) (n : nat) : Z * Z :=
  match n with
  | O => (0, 0)
  | S n =>
      let '(s1, s2) := hp_memory u n in
      let x := u (Z.of_nat n) in
      let y := (s1 + x * 1055267782) / 2 ^ 30 in
      (s2 - x * 2110535566 + y * 2110217691, x * 1055267782 - y * 1037111617)
  end.
Definition hp_output (u : stream) (k : Z) : Z :=
  (fst (hp_memory u (Z.to_nat k)) + u k * 1055267782) / 2 ^ 30.

(** Streams at 12.8 kHz and 6.4 kHz, nothing before the start; [delay] in samples at 12.8 kHz. *)
Definition at_12k8 (u : stream) : stream := fun k => if k <? 0 then 0 else (hp_output u k + 2 ^ 15) / 2 ^ 16.
Definition at_6k4 (delay : Z) (y : stream) : stream := fun k =>
  let t := 2 * k - delay in
  (18477 * y t + 15424 * (y (t - 1) + y (t + 1)) + 8105 * (y (t - 2) + y (t + 2))) / 2 ^ 16.
