(** * What is expected from the coding of a whole frame *)
From Coq Require Import ZArith List Bool.
From Verif Require Import Base ConfigModel SideModel SideSpec SpecSpec FloatModel ResidualSpec FrameModel.
Import ListNotations.
Local Open Scope Z_scope.

(** A frame that can be coded. In high resolution the magnitude 1/2 - 2^-25 is left
    aside (see C23). *)
Definition frame_ok (dt sr nbytes : Z) (f : frame) : Prop :=
  bw_ok sr (f_bw f) /\ side_ok dt sr (f_side f) /\ tns_ok dt (f_bw f) nbytes (f_tns f) /\
  sns_ok (f_sns f) /\ (f_pitch f = true -> ltpf_ok (f_ltpf f)) /\ 0 <= f_nf f < 8 /\
  q_nq (f_side f) = zlen (f_x f) /\ Forall (coded_f32 (is_hr sr)) (f_x f) /\
  (is_hr sr = true -> Forall (fun x => Z.abs x <> one / 2 - one / 2 ^ 25) (f_x f)).

(** The side data of the frame [f], as decoded in [d]. *)
Definition same_side (f : frame) (d : decoded) : Prop :=
  d_bw d = f_bw f /\ d_side d = f_side f /\ d_tns d = f_tns f /\ d_sns d = sns_canon (f_sns f) /\
  d_ltpf d = (if f_pitch f then Some (f_ltpf f) else None) /\ d_nf d = f_nf f.

(** The coefficients [xs], quantized to [qs], are decoded as [ys] when [n] bits are
    left for the least significant bits or the residual. *)
Definition same_spectrum (lsb hr : bool) (n : Z) (xs qs ys : list Z) (seed : Z) : Prop :=
  Forall2 (quantized hr) xs qs /\
  if lsb then
    let zs := restore n (lsb_stream qs) qs (without_lsb true qs) in
    ys = map (fun z => z * one) zs /\ seed = seed_of zs
  else
    seed = seed_of qs /\ length ys = length xs /\
    exists ms total, length ms = length xs /\
      Forall2 (fun x p => (if hr then same_zero true else refined false) x (fst p) (snd p)) xs (combine ys ms) /\
      in_turn hr (if hr then 20 else 1) n xs ms total.
