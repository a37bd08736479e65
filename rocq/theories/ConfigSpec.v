(** * Specification of the configuration API, independent of the model *)
From Coq Require Import ZArith List Bool.
Import ListNotations.
Local Open Scope Z_scope.

(** The combinations of mode, frame duration (us) and sample rate (Hz) that
    the documentation of include/lc3.h (lines 24-160) declares as supported. *)
Definition supported_dt (hr : bool) (dt_us : Z) : Prop :=
  dt_us = 2500 \/ dt_us = 5000 \/ dt_us = 10000 \/ (dt_us = 7500 /\ hr = false).

Definition supported_sr (hr : bool) (sr_hz : Z) : Prop :=
  if hr then sr_hz = 48000 \/ sr_hz = 96000
  else sr_hz = 8000 \/ sr_hz = 16000 \/ sr_hz = 24000 \/ sr_hz = 32000 \/
       sr_hz = 48000.

Definition supported (hr : bool) (dt_us sr_hz : Z) : Prop :=
  supported_dt hr dt_us /\ supported_sr hr sr_hz.

(** Samples in [us] microseconds at [hz]. *)
Definition samples (us hz : Z) : Z := us * hz / 1000000.

(** Limits of the frame sizes in bytes: 20 to 400 without high-resolution;
    the table of src/tables.c lines 62-74 with it. *)
Definition size_limits (hr : bool) (dt_us sr_hz : Z) : Z * Z :=
  if hr then
    if dt_us =? 2500 then (if sr_hz =? 48000 then 27 else 31, 210) else
    if dt_us =? 5000 then (if sr_hz =? 48000 then 46 else 54, 375) else
    (if sr_hz =? 48000 then 78 else 93, 625)
  else (20, 400).
Definition min_size hr dt_us sr_hz := fst (size_limits hr dt_us sr_hz).
Definition max_size hr dt_us sr_hz := snd (size_limits hr dt_us sr_hz).
