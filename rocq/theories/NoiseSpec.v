(** * What is expected from the noise substitution
    From 600 Hz to the end of the bandwidth, a line is a hole when it is null, with its
    neighbours to a distance of 1 line (2 with 7.5 ms, 3 with 10 ms): the lines that are
    not coded, and those over the bandwidth, are null. *)
From Coq Require Import ZArith List Bool.
From Verif Require Import Base ConfigModel FloatModel.
Import ListNotations.
Local Open Scope Z_scope.

(** The lines [lo .. hi - 1]. *)
Definition lines (lo hi : Z) : list Z := map (fun i => lo + Z.of_nat i) (seq 0 (Z.to_nat (hi - lo))).

(** Lines are 200 Hz wide with 2.5 ms frames, 50 Hz wide with 10 ms frames. *)
Definition first_line (dt : Z) : Z := znth [6; 12; 18; 24] dt 0.
Definition distance (dt : Z) : Z := znth [1; 1; 2; 3] dt 0.
(** Lines of the bandwidths of 4, 8, 12, 16 and 20 kHz in 2.5 ms; the last one is also the
    limit of the high resolution modes. *)
Definition band_lines (dt bw : Z) : Z := (1 + dt) * znth [20; 40; 60; 80; 100] (Z.min bw 4) 0.

Definition hole (dt bw n : Z) (null : Z -> bool) (k : Z) : bool :=
  (first_line dt <=? k) && (k <? band_lines dt bw) &&
  forallb (fun j => (Z.min n (band_lines dt bw) <=? j) || null j) (lines (k - distance dt) (k + distance dt + 1)).

(** The holes below the line [k]. *)
Definition holes (dt bw n : Z) (null : Z -> bool) (k : Z) : list Z :=
  filter (hole dt bw n null) (lines (first_line dt) k).

(** The pseudo random generator: 16 bits, the sign is the last one. *)
Definition lcg (seed : Z) : Z := (13849 + seed * 31821) mod 2 ^ 16.
Definition noise (s seed : Z) : Z := if seed <? 2 ^ 15 then s else - s.
