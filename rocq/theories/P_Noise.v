(** * C40: noise substitution and scaling of the spectrum *)
From Coq Require Import ZArith List Bool Lia ZifyBool.
From Verif Require Import Base BaseProofs ConfigModel BitsModel FloatModel SideModel SideSpec SpecModel SpecSpec SpecFrame ResidualModel ResidualSpec FrameModel FrameSpec FrameSafe.
From Verif Require Import FrameProofs P_Frame GainModel GainProofs NoiseModel NoiseSpec NoiseProofs NoiseLevel NoiseHoles.
Import ListNotations.
Local Open Scope Z_scope.

(** ** Encoder: the level *)

(** C40: from the scaled spectrum, the level is defined and on 3 bits. It is 7 without any
    hole; otherwise [8 - nf] is 16 times the mean of the magnitudes in the holes, rounded to
    nearest (to 1/1000) and limited to 1..8, as long as these are not over 1. *)
Theorem C40_level dt bw hr x n : 0 <= dt <= 3 -> 0 <= bw -> 0 <= n -> band_lines dt bw <= zlen x ->
  (forall k, 0 <= k < band_lines dt bw -> Z.abs (znth x k 0) <= 2 ^ 23 * one) ->
  let l := holes dt bw n (fun j => Z.abs (znth x j 0) <? zero_below hr) (band_lines dt bw) in
  let sum := fold_right Z.add 0 (map (fun k => Z.abs (znth x k 0)) l) in
  exists nf, estimate_noise dt bw hr x n = Some nf /\ 0 <= nf <= 7 /\ (l = [] -> nf = 7) /\
    (l <> [] -> (forall k, In k l -> Z.abs (znth x k 0) <= one) ->
     exists c, 8 - nf = clip c 1 8 /\ 1000 * Z.abs (c * (zlen l * one) - 16 * sum) <= 501 * (zlen l * one)).
Proof.
  intros Hd Hb Hn Hl Hx l sum. pose proof (estimate_ok dt bw hr x n Hd Hb Hn Hl Hx) as E. cbv zeta in E.
  assert (El : holes dt bw n (low_at (nf_lim hr) x) (band_lines dt bw) = l) by (destruct hr; reflexivity). rewrite El in E.
  pose proof (holes_len dt bw n (low_at (nf_lim hr) x) Hd Hb) as HL. rewrite El in HL.
  eexists. split; [exact E|]. assert (C0 : forall v, 0 <= clip v 0 7 <= 7) by (intros v; unfold clip; lia).
  split; [destruct (zlen l =? 0); [lia|apply C0]|]. split; [intros ->; reflexivity|].
  intros Hne Hk. assert (Z1 : 0 < zlen l). { destruct l; [congruence|]. rewrite zlen_cons. unfold zlen. lia. }
  replace (zlen l =? 0) with false by lia. pose proof (level_ok x one l ltac:(vm_compute; split; discriminate) ltac:(lia) Hk) as [L1 L2].
  exists (level (round_sum x l) (zlen l)). change (total x l) with sum in L2. set (c := level (round_sum x l) (zlen l)) in *. clearbody c. split; [unfold clip; lia|].
  set (D := Z.abs (c * (zlen l * one) - 16 * sum)) in *. clearbody D. clear E C0 Hx sum El. 
  assert (B : zlen l * (2 ^ 23 * one + one + 6600 * one) = 8395209 * (zlen l * one)) by ring. rewrite B in L2. set (N := zlen l * one) in *.
  assert (0 <= N) by (apply Z.mul_nonneg_nonneg; [lia|discriminate]). clearbody N. lia.
Qed.
Print Assumptions C40_level.

(** 2.5 ms at 8 kHz, 10 coefficients coded: holes of 1/8 and 3/8, and of 3/16 in the lines not
    coded: 16 times the mean is 3.27. *)
Definition ex_lines : list Z := map (fun v => v * one / 16) [40; 20; 0; 0; 0; 0; 2; 6; 2; 16; 3; 3; 3; 3; 3; 3; 3; 3; 3; 3].
Example C40_level_example :
  holes 0 0 10 (fun j => Z.abs (znth ex_lines j 0) <? zero_below false) (band_lines 0 0) = [6; 7; 11; 12; 13; 14; 15; 16; 17; 18; 19] /\
  estimate_noise 0 0 false ex_lines 10 = Some 5 /\ estimate_noise 0 0 false (repeat (2 * one) 20) 20 = Some 7.
Proof. vm_compute. repeat split; reflexivity. Qed.

(** ** Decoder: the spectrum *)

(** The frame of silence. *)
Definition silent (d : decoded) : bool :=
  (q_nq (d_side d) =? 2) && (znth (d_x d) 0 0 =? 0) && (znth (d_x d) 1 0 =? 0) && (q_gidx (d_side d) =? 0) && (d_nf d =? 7).

(** C40: any bytes accepted by the decoder give a spectrum, complete and finite: [g] is the
    gain of the index (see C37), the coefficients are multiplied by it to 2^-23, and the
    holes, among the lines decoded as null, have the magnitude [s], [g * (8 - nf) / 16] to
    2^-20, with a sign drawn from the generator at each one. The spectrum of the frame of
    silence is null. *)
Theorem C40_spectrum lf hw data dt sr d : bytes data -> 0 <= dt <= 3 -> 0 <= sr <= 6 -> decode lf hw data dt sr = Some d ->
  exists a x s, unquantize_gain (q_gidx (d_side d) - gain_offset sr (zlen data)) = Some a /\
    let g := gain_float a in let null j := znth (d_x d) j 0 =? 0 in let n := q_nq (d_side d) in
    0 < g /\ Z.abs (16 * s - (8 - d_nf d) * g) * 2 ^ 24 <= 16 * g /\
    spec_finish dt sr (zlen data) d = Some x /\ zlen x = c_ne dt sr /\
    forall k, 0 <= k < c_ne dt sr ->
      let c := znth (d_x d) k 0 in let y := znth x k 0 in
      Z.abs y <= 2 ^ 60 * one /\
      if silent d then y = 0
      else if hole dt (d_bw d) n null k then
        c = 0 /\ y = noise s (Nat.iter (length (holes dt (d_bw d) n null (k + 1))) lcg (d_seed d))
      else Z.abs (y * one - c * g) * 2 ^ 23 <= Z.abs (c * g).
Proof.
  intros Hb Hd Hs E. destruct (decode_between lf hw data dt sr d Hb Hd Hs E) as [(D1 & D2 & _ & _ & _ & D6 & D7 & D8) B].
  destruct D2 as (_ & _ & Dn & _ & Dg). destruct (band_in dt sr (d_bw d) Hd D1) as [Bw0 Bw].
  pose proof (gain_offset_range sr (zlen data) ltac:(lia) ltac:(unfold zlen; lia)) as Go.
  destruct (gain_float_range (q_gidx (d_side d) - gain_offset sr (zlen data)) ltac:(lia)) as (a & Ea & G1 & G2).
  destruct (noise_amplitude (gain_float a) (d_nf d) G1 G2 D6) as [N1 N2].
  set (g := gain_float a) in *. set (s := fmul g ((8 - d_nf d) * one) / 16) in *.
  assert (G0 : 0 < g) by (assert (0 < one) by reflexivity; lia).
  set (u := unquantize dt sr g (d_x d)). assert (Lu : zlen u = c_ne dt sr) by (apply unquantize_len; lia).
  assert (S0 : forall k, zero_at u k = (znth (d_x d) k 0 =? 0)) by (intros k; apply unquantize_zero; assumption).
  assert (SL : forall k, Z.abs (znth u k 0 * one - znth (d_x d) k 0 * g) * 2 ^ 23 <= Z.abs (znth (d_x d) k 0 * g) /\ Z.abs (znth u k 0) <= 2 ^ 60 * one).
  { intros k. unfold u. rewrite unquantize_at. apply scaled_line; [apply between_at; exact B|exact G1|exact G2]. }
  assert (T : spec_finish dt sr (zlen data) d = if silent d then Some u else fill_noise dt (d_bw d) (d_nf d) (d_seed d) g u (q_nq (d_side d))).
  { unfold spec_finish. rewrite Ea. cbn [bind]. fold g u. unfold read, inb. replace ((0 <=? 0) && (0 <? zlen u)) with true by lia. replace ((0 <=? 1) && (1 <? zlen u)) with true by lia. cbn [bind].
    pose proof (S0 0) as Z0. pose proof (S0 1) as Z1. unfold zero_at in Z0, Z1. rewrite Z0, Z1. unfold silent.
    replace (q_nq (d_side d) =? 2) with (negb (2 <? q_nq (d_side d))) by lia. replace (q_gidx (d_side d) =? 0) with (negb (0 <? q_gidx (d_side d))) by lia. replace (d_nf d =? 7) with (negb (d_nf d <? 7)) by lia.
    destruct (2 <? q_nq (d_side d)), (znth (d_x d) 0 0 =? 0), (znth (d_x d) 1 0 =? 0), (0 <? q_gidx (d_side d)), (d_nf d <? 7); reflexivity. }
  destruct (silent d) eqn:Si.
  - exists a, u, s. split; [exact Ea|]. cbv zeta. fold g. split; [exact G0|]. split; [exact N1|]. split; [exact T|]. split; [exact Lu|]. intros k Hk. split; [apply SL|].
    unfold silent in Si. assert (K : (k = 0 \/ k = 1) \/ 2 <= k) by lia. unfold u. rewrite unquantize_at.
    assert (Z0 : znth (d_x d) k 0 = 0). { destruct K as [[->| ->]|K]; [lia|lia|]. apply znth_over. lia. } rewrite Z0. reflexivity.
  - destruct (fill_noise_ok dt (d_bw d) (d_nf d) (d_seed d) g u (q_nq (d_side d)) Hd Bw0 ltac:(lia) D8 ltac:(lia)) as (x & Ex & Lx & V). fold s in V.
    exists a, x, s. split; [exact Ea|]. cbv zeta. fold g. split; [exact G0|]. split; [exact N1|]. split; [rewrite T; exact Ex|]. split; [lia|]. intros k Hk. rewrite V by lia.
    unfold filled, seed_at. assert (H0 : forall k, hole dt (d_bw d) (q_nq (d_side d)) (zero_at u) k = hole dt (d_bw d) (q_nq (d_side d)) (fun j => znth (d_x d) j 0 =? 0) k) by (intros j; apply hole_ext; [exact Hd|intros i _; apply S0]).
    assert (HH : holes dt (d_bw d) (q_nq (d_side d)) (zero_at u) (k + 1) = holes dt (d_bw d) (q_nq (d_side d)) (fun j => znth (d_x d) j 0 =? 0) (k + 1)) by (unfold holes; apply filter_ext; exact H0).
    rewrite H0, HH. destruct (hole dt (d_bw d) (q_nq (d_side d)) (fun j => znth (d_x d) j 0 =? 0) k) eqn:Q; [|split; apply SL].
    split; [unfold noise; destruct (_ <? _); lia|]. split; [|reflexivity].
    destruct (Z_lt_le_dec k (q_nq (d_side d))) as [C|C]; [|apply znth_over; lia]. pose proof (hole_null dt (d_bw d) (q_nq (d_side d)) _ Hd k Q C) as HN. cbv beta in HN. lia.
Qed.
Print Assumptions C40_spectrum.

(** ** Both sides *)
Lemma Forall2_at {A B} (P : A -> B -> Prop) xs ys a b : Forall2 P xs ys -> forall j, 0 <= j < zlen xs -> P (znth xs j a) (znth ys j b).
Proof.
  intros H. induction H as [|x y xs ys H1 H IH]; intros j Hj; [change (zlen (@nil A)) with 0 in Hj; lia|]. rewrite zlen_cons in Hj. destruct (Z.eq_dec j 0) as [->|Hn]; [exact H1|].
  specialize (IH (j - 1) ltac:(lia)). unfold znth in *. replace (j <? 0) with false by lia. replace (j - 1 <? 0) with false in IH by lia.
  replace (Z.to_nat j) with (Datatypes.S (Z.to_nat (j - 1))) by lia. exact IH.
Qed.
Lemma Forall2_fst {A B C} (P : A -> B -> Prop) (xs : list A) : forall (ys : list B) (ms : list C), length ys = length xs -> length ms = length xs ->
  Forall2 (fun x p => P x (fst p)) xs (combine ys ms) -> Forall2 P xs ys.
Proof.
  induction xs as [|x xs IH]; intros [|y ys] [|m ms] L1 L2 H; try discriminate; [constructor|]. cbn [combine] in H. inversion H. subst. constructor; [assumption|]. apply (IH ys ms); auto.
Qed.
Lemma quantized_zero hr x q : quantized hr x q -> (q = 0 <-> Z.abs x < zero_below hr).
Proof.
  unfold quantized. cbv zeta. intros [[H1 H2] _]. assert (Z1 : 0 < one) by reflexivity. assert (Z2 : zero_below hr <= one) by (destruct hr; vm_compute; discriminate). split; [intros ->; lia|].
  intros H. destruct (Z.eq_dec q 0) as [|Hq]; [assumption|]. assert (one * 1 <= one * Z.abs q) by (apply Z.mul_le_mono_nonneg_l; lia). lia.
Qed.

(** The coefficients of the frame that the encoder takes as null are null for the decoder;
    conversely, unless bits were missing for the least significant bits. *)
Lemma same_null lsb hr n xs qs ys seed : Z.even (zlen xs) = true -> same_spectrum lsb hr n xs qs ys seed ->
  (forall j, 0 <= j < zlen xs -> Z.abs (znth xs j 0) < zero_below hr -> znth ys j 0 = 0) /\
  (lsb = false \/ zlen (concat (lsb_stream qs)) <= n -> forall j, 0 <= j < zlen xs -> znth ys j 0 = 0 -> Z.abs (znth xs j 0) < zero_below hr).
Proof.
  intros Ev [Q H]. pose proof (Forall2_len _ _ _ Q) as LQ. assert (LZ : zlen qs = zlen xs) by (unfold zlen; lia).
  assert (QA : forall j, 0 <= j < zlen xs -> (znth qs j 0 = 0 <-> Z.abs (znth xs j 0) < zero_below hr)) by (intros j Hj; apply quantized_zero; apply (Forall2_at _ _ _ 0 0 Q); exact Hj).
  destruct lsb.
  - destruct H as [-> _]. set (zs := restore n (lsb_stream qs) qs (without_lsb true qs)) in *. 
    assert (M : forall j, znth (map (fun z => z * one) zs) j 0 = znth zs j 0 * one).
    { intros j. unfold znth. destruct (j <? 0); [reflexivity|]. change 0 with (0 * one) at 1. apply (map_nth (fun z => z * one)). }
    split.
    + intros j Hj L. rewrite M. pose proof (restore_each qs ltac:(rewrite LZ; exact Ev) n) as R. fold zs in R. pose proof (Forall2_at _ _ _ 0 0 R j ltac:(lia)) as [E|E]; rewrite E, (proj2 (QA j Hj) L); reflexivity.
    + intros [F|F]; [discriminate|]. intros j Hj. rewrite M. unfold zs. rewrite (restore_all qs n F). intros E. apply QA; [exact Hj|]. destruct (Z.mul_eq_0 (znth qs j 0) one) as [E2 _]. destruct (E2 E) as [E3|E3]; [exact E3|discriminate].
  - destruct H as (_ & L1 & ms & t & L2 & F & _).
    assert (G : Forall2 (fun x y => if Z.abs x <? zero_below hr then y = 0 else Z.sgn y = Z.sgn x) xs ys).
    { apply (Forall2_fst _ xs ys ms L1 L2). clear - F. induction F as [|x p xs ps H F IH]; [constructor|]. constructor; [|exact IH]. destruct hr; [|destruct H as [H _]]; unfold same_zero in H; destruct (_ <? _); apply H. }
    assert (P : 0 < zero_below hr) by (destruct hr; reflexivity).
    split; [|intros _]; intros j Hj; pose proof (Forall2_at _ _ _ 0 0 G j Hj) as A; cbv beta in A; destruct (Z.abs (znth xs j 0) <? zero_below hr) eqn:C; intros; [exact A|lia|lia|]. lia.
Qed.

Lemma hole_le dt bw n null null' : 0 <= dt <= 3 -> (forall j, 0 <= j < Z.min n (band_lines dt bw) -> null j = true -> null' j = true) ->
  forall k, hole dt bw n null k = true -> hole dt bw n null' k = true.
Proof.
  intros Hd H k. unfold hole. rewrite !andb_true_iff. intros [[A B] C]. split; [split; assumption|]. rewrite forallb_forall in *. intros j Hj. specialize (C j Hj). apply lines_in in Hj.
  pose proof (first_eq dt Hd) as [_ F]. destruct (Z.min n (band_lines dt bw) <=? j) eqn:E; [reflexivity|]. cbn [orb] in *. apply H; [lia|exact C].
Qed.

(** C40: the noise goes where the encoder measured it: a hole of the encoder is a hole of
    the decoder, with the same level and bandwidth; and the holes are the same unless bits
    are missing for the least significant bits. Missing: see [C24_frame_round_trip_partial]. *)
Theorem C40_same_holes_partial hw buf dt sr f : bytes buf -> frame_ok dt sr (zlen buf) f ->
  w_check (put_frame (w_setup buf) dt sr (zlen buf) f) = 0 ->
  exists d, decode true hw (encode buf dt sr f) dt sr = Some d /\ d_nf d = f_nf f /\ d_bw d = f_bw f /\ q_nq (d_side d) = q_nq (f_side f) /\
    let enc := hole dt (f_bw f) (q_nq (f_side f)) (fun j => Z.abs (znth (f_x f) j 0) <? zero_below (is_hr sr)) in
    let dec := hole dt (d_bw d) (q_nq (d_side d)) (fun j => znth (d_x d) j 0 =? 0) in
    (forall k, enc k = true -> dec k = true) /\
    (q_lsb (f_side f) = false \/ zlen (concat (lsb_stream (f_q sr f))) <= w_get_bits_left (put_main (w_setup buf) dt sr (zlen buf) f) ->
     forall k, dec k = enc k).
Proof.
  intros Hb Hf Hc. destruct (C24_frame_round_trip_partial hw buf dt sr f Hb Hf Hc) as (_ & _ & d & E & S1 & S2).
  destruct S1 as (B1 & B2 & _ & _ & _ & B6). destruct Hf as (F1 & (Hd & _ & Hn & He & _) & _ & _ & _ & _ & Fn & _).
  exists d. split; [exact E|]. split; [exact B6|]. split; [exact B1|]. rewrite B2. split; [reflexivity|]. rewrite B1.
  assert (Ev : Z.even (zlen (f_x f)) = true) by (rewrite <- Fn, Zeven_mod; unfold Zeq_bool; rewrite He; reflexivity).
  destruct (same_null _ _ _ _ _ _ _ Ev S2) as [N1 N2]. rewrite <- Fn in N1, N2.
  split.
  - apply hole_le; [exact Hd|]. intros j Hj C. apply Z.ltb_lt in C. apply Z.eqb_eq. apply N1; [lia|exact C].
  - intros C k. apply hole_ext; [exact Hd|]. intros j Hj. specialize (N1 j ltac:(lia)). specialize (N2 C j ltac:(lia)). lia.
Qed.
Print Assumptions C40_same_holes_partial.

(** 10 ms at 8 kHz, 40 bytes: a peak among null lines; the spectrum decoded is in 1/1000. *)
Definition ex_noise : frame :=
  mkFrame 0 (mkSide 36 false 120) (mkTns false [[]]) false (mkSns 0 0 0 0 0 0 0 0) (mkLtpf 0 0) 4
    (repeat (one / 4) 34 ++ [5 * one; - (3 * one)]).
Definition ex_noise_out : option (list Z) :=
  match decode true (fun v => v) (encode (repeat 0 40) 3 0 ex_noise) 3 0 with
  | Some d => spec_finish 3 0 40 d
  | None => None
  end.
Example C40_example :
  w_check (put_frame (w_setup (repeat 0 40)) 3 0 40 ex_noise) = 0 /\
  holes 3 0 36 (fun j => Z.abs (znth (f_x ex_noise) j 0) <? zero_below false) 80 = lines 24 31 ++ lines 39 80 /\
  match ex_noise_out with
  | Some x => zlen x = 80 /\ map (fun k => 1000 * znth x k 0 / one) [0; 23; 24; 25; 26; 27; 28; 33; 34; 35; 38; 39; 79] = [0; 0; -41; -41; 40; -41; 40; 0; 870; -543; 0; -41; -41]
  | None => False
  end.
Proof. vm_compute. repeat split; reflexivity. Qed.
