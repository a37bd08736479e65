(** * What valid side data are *)
From Coq Require Import ZArith List Bool.
From Verif Require Import Base ConfigModel SideModel.
Import ListNotations.
Local Open Scope Z_scope.

(** Bandwidths of a sample rate; the only one in high resolution mode. Both are
    numbered 0: 8 kHz, 1: 16 kHz, 2: 24 kHz, 3: 32 kHz, 4: 48 kHz. *)
Definition bw_ok (sr bw : Z) : Prop :=
  0 <= sr <= 6 /\ if is_hr sr then bw = sr else 0 <= bw <= sr.

(** A flag, and a pitch index of 9 bits. *)
Definition ltpf_ok (d : ltpf_data) : Prop :=
  (l_active d = 0 \/ l_active d = 1) /\ 0 <= l_pitch d < 512.

(** Number of vector indexes and of gains of a shape. *)
Definition sns_size_a (shape : Z) : Z :=
  if shape <? 2 then 2390004 else if shape =? 2 then 15158272 else 774912.
Definition sns_ngains (shape : Z) : Z := znth [2; 4; 4; 8] shape 0.

(** Indexes in the two codebooks of 32 entries, shape, gain, vector index and
    sign, and second vector (6 indexes) for the first shape. *)
Definition sns_ok (d : sns_data) : Prop :=
  0 <= s_lfcb d < 32 /\ 0 <= s_hfcb d < 32 /\ 0 <= s_shape d < 4 /\
  0 <= s_gain d < sns_ngains (s_shape d) /\
  0 <= s_idx_a d < sns_size_a (s_shape d) /\ (s_ls_a d = 0 \/ s_ls_a d = 1) /\
  (s_shape d = 0 -> 0 <= s_idx_b d < 6 /\ (s_ls_b d = 0 \/ s_ls_b d = 1)).

(** The second vector is there for the first shape only, 0 for the others. *)
Definition sns_canon (d : sns_data) : sns_data :=
  if s_shape d =? 0 then d
  else mkSns (s_lfcb d) (s_hfcb d) (s_shape d) (s_gain d) (s_idx_a d) (s_ls_a d) 0 0.

(** Pulses: sum of magnitudes; pulse configurations of the shapes, 16 coefficients. *)
Definition pulses (c : list Z) : Z := fold_right (fun x s => Z.abs x + s) 0 c.
Definition config_ok (shape : Z) (c : list Z) : Prop :=
  length c = 16%nat /\
  if shape =? 0 then pulses (firstn 10 c) = 10 /\ pulses (skipn 10 c) = 1
  else if shape =? 1 then pulses (firstn 10 c) = 10 /\ pulses (skipn 10 c) = 0
  else if shape =? 2 then pulses c = 8 else pulses c = 6.

(** Order at most 8, 4 for the frames of 5 ms and less (durations are numbered
    0: 2.5 ms, 1: 5 ms, 2: 7.5 ms, 3: 10 ms). *)
Definition tns_max_order (dt : Z) : Z := if dt <=? 1 then 4 else 8.
Definition filter_ok (dt : Z) (rc : list Z) : Prop :=
  zlen rc <= tns_max_order dt /\ Forall (fun c => -8 <= c <= 8) rc.
(** Two filters from 32 kHz of bandwidth and 5 ms, one otherwise. The weighting
    is in use under 48 kbps: 120 bits by 2.5 ms. *)
Definition tns_ok (dt bw nbytes : Z) (d : tns_data) : Prop :=
  t_weighting d = (nbytes * 8 <? 120 * (1 + dt)) /\
  length (t_filters d) = (if (1 <=? dt) && (3 <=? bw) then 2%nat else 1%nat) /\
  Forall (filter_ok dt) (t_filters d).

(** Even count of significant coefficients, in the spectrum. *)
Definition side_ok (dt sr : Z) (d : spec_side) : Prop :=
  0 <= dt <= 3 /\ 0 <= sr <= 6 /\ 2 <= q_nq d <= c_ne dt sr /\ q_nq d mod 2 = 0 /\
  0 <= q_gidx d < 256.
