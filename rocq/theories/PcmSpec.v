(** * What is expected from the PCM conversions
    The float samples have the scale of 16-bit samples: [one] is the step of 16 bits,
    [one / 256] the step of 24 bits. *)
From Coq Require Import ZArith List.
From Verif Require Import Base FloatModel.
Import ListNotations.
Local Open Scope Z_scope.

Definition is_s16 (v : Z) : Prop := - 2 ^ 15 <= v < 2 ^ 15.
Definition is_s24 (v : Z) : Prop := - 2 ^ 23 <= v < 2 ^ 23.

(** Little-endian two's complement on 3 bytes. *)
Definition le24_value (b0 b1 b2 : Z) : Z :=
  let u := b0 + 256 * b1 + 65536 * b2 in if u <? 2 ^ 23 then u else u - 2 ^ 24.

(** A zero or normal single precision number of magnitude [m] at most. *)
Definition normal_f32 (m x : Z) : Prop :=
  is_f32 x /\ (x = 0 \/ 2 ^ 23 <= Z.abs x) /\ Z.abs x <= m.

(** [s], in steps of [step], is the sample of [lo] to [hi] the nearest to [x], up to an
    excess of [tol] over half a step; out of this range it is saturated. *)
Definition sample_of (step lo hi tol x s : Z) : Prop :=
  lo <= s <= hi /\
  (lo * step <= x <= hi * step -> 2 * Z.abs (s * step - x) <= step + 2 * tol) /\
  (x < lo * step -> s = lo) /\ (hi * step < x -> s = hi).

(** Elements of the sample [i] of the channel [c] among [nch] interleaved ones, with
    [k] elements by sample. *)
Definition elem_index (k nch c i b : Z) : Z := (i * nch + c) * k + b.
