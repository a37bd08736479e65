(** * The decoder: no access out of range, whatever the calls *)
From Coq Require Import ZArith List Bool Lia.
From Verif Require Import Base BaseProofs ConfigModel ConfigSpec ConfigProofs FloatModel SideModel SideSpec FrameModel FrameSpec NoiseModel FloatOps TnsModel SnsModel.
From Verif Require Import MdctModel MdctWindows MdctStream LtpfTables LtpfModel LtpfSpec LtpfProofs TnsProofs NoiseHoles DecoderProofs.
From Verif Require Import P_Mdct P_Ltpf P_Tns P_Sns P_Noise SynthModel.
Import ListNotations.
Local Open Scope Z_scope.

(** ** Parts of the memory *)
Section Put.
Context {F : Type}.

Lemma put_at_ok (mem : list F) o l : 0 <= o -> o + zlen l <= zlen mem ->
  exists mem', put_at mem o l = Some mem' /\ zlen mem' = zlen mem /\
    (forall p, p < o \/ o + zlen l <= p -> LtpfModel.rd mem' p = LtpfModel.rd mem p) /\
    (forall p, o <= p < o + zlen l -> LtpfModel.rd mem' p = LtpfModel.rd l (p - o)).
Proof.
  intros Ho Hl. unfold put_at. destruct (_ && _) eqn:E; [|lia]. eexists. split; [reflexivity|].
  unfold zlen in *. split; [|split].
  - rewrite !app_length, firstn_length, skipn_length. lia.
  - intros p Hp. unfold LtpfModel.rd. destruct (Z.ltb_spec p 0); [reflexivity|]. destruct Hp as [Hp|Hp].
    + rewrite nth_error_app1 by (rewrite firstn_length; lia). apply nth_error_firstn'. lia.
    + rewrite nth_error_app2 by (rewrite firstn_length; lia). rewrite nth_error_app2 by (rewrite firstn_length; lia).
      rewrite nth_error_skipn'. f_equal. rewrite firstn_length. lia.
  - intros p Hp. unfold LtpfModel.rd. destruct (Z.ltb_spec p 0); [lia|]. destruct (Z.ltb_spec (p - o) 0); [lia|].
    rewrite nth_error_app2 by (rewrite firstn_length; lia). rewrite nth_error_app1 by (rewrite firstn_length; lia).
    f_equal. rewrite firstn_length. lia.
Qed.
End Put.

(** ** The configurations *)
Lemma complete_iter_off c m : let ck := Nat.iter m complete c in
  d_xh ck = d_xh c /\ d_xd ck = d_xd c /\ d_xg ck = d_xg c.
Proof. cbv zeta. induction m as [|m IH]; [auto|]. change (Nat.iter (S m) complete c) with (complete (Nat.iter m complete c)). destruct (Nat.iter m complete c). exact IH. Qed.

Definition geometry (hr : bool) (dt_us srp_hz : Z) (c : dec_cfg) (n : Z) : Prop :=
  let dt := d_dt c in let sr := d_sr c in let srp := d_srp c in
  has_transform dt srp /\ tns_cfg dt sr /\ 0 <= sr <= srp /\ 0 < c_ne dt sr /\ c_ne dt sr <= c_ns dt sr <= c_ns dt srp /\
  c_ns dt srp = samples dt_us srp_hz /\ 0 <= c_nd dt srp /\ is_hr sr = hr /\
  (hr = false -> supported false dt_us srp_hz /\ dt = resolve_dt dt_us false /\ srp = resolve_srate srp_hz false) /\
  forall k, let ck := Nat.iter k complete c in
    d_dt ck = dt /\ d_sr ck = sr /\ d_srp ck = srp /\ d_xh ck = 0 /\
    (exists j, d_xs ck = j * samples dt_us srp_hz) /\ 0 <= d_xs ck <= c_nh dt srp /\
    c_nh dt srp + c_ns dt srp <= d_xd ck /\ d_xd ck + c_nd dt srp <= d_xg ck /\ d_xg ck + c_ns dt srp <= n.

Lemma setup_geometry hr dt_us sr_hz sr_pcm_hz c n :
  hr_setup_decoder hr dt_us sr_hz sr_pcm_hz = Some (Some (c, n)) ->
  let srp_hz := if sr_pcm_hz <=? 0 then sr_hz else sr_pcm_hz in
  supported hr dt_us sr_hz /\ supported hr dt_us srp_hz /\ geometry hr dt_us srp_hz c n.
Proof.
  intros H srp_hz. pose proof H as H0. unfold hr_setup_decoder in H0. cbv zeta in H0. fold srp_hz in H0.
  destruct (_ || _ || _) eqn:E in H0; [discriminate|]. apply setup_guard in E. destruct E as (S1 & S2 & L).
  destruct (dec_regions hr dt_us sr_hz sr_pcm_hz srp_hz eq_refl S1 S2 L) as (c' & n' & E & _ & cy & Hcy & _ & R).
  rewrite H in E. injection E as <- <-. split; [exact S1|]. split; [exact S2|].
  destruct (dec_buffer_count _ _) in H0; [|discriminate]. injection H0 as <- _. unfold geometry. cbn [d_dt d_sr d_srp] in *.
  assert (G : let dt := resolve_dt dt_us hr in let sr := resolve_srate sr_hz hr in let srp := resolve_srate srp_hz hr in
    has_transform dt srp /\ tns_cfg dt sr /\ 0 <= sr <= srp /\ 0 < c_ne dt sr /\ c_ne dt sr <= c_ns dt sr <= c_ns dt srp /\
    c_ns dt srp = samples dt_us srp_hz /\ 0 <= c_nd dt srp /\ is_hr sr = hr /\ 
    c_nd dt srp = samples dt_us srp_hz / 2 + samples (if dt_us =? 7500 then 2000 else 1250) srp_hz).
  { clear - S1 S2 L. cbv zeta. clearbody srp_hz.
    assert (M : samples dt_us sr_hz <= samples dt_us srp_hz).
    { unfold samples. apply Z.div_le_mono; [lia|]. apply Z.mul_le_mono_nonneg_l; [|exact L]. destruct S1 as [D _]. unfold supported_dt in D. lia. }
    pose proof (resolve_srate_le hr sr_hz srp_hz (proj2 S1) (proj2 S2)) as Q.
    assert (Q' : resolve_srate sr_hz hr <= resolve_srate srp_hz hr) by (apply Z.ltb_ge; rewrite Q; apply Z.ltb_ge; lia).
    assert (A : let dt := resolve_dt dt_us hr in let sr := resolve_srate sr_hz hr in
      tns_cfg dt sr /\ 0 <= sr /\ 0 < c_ne dt sr /\ c_ne dt sr <= c_ns dt sr /\ c_ns dt sr = samples dt_us sr_hz /\ is_hr sr = hr)
      by (clear - S1; supported_case S1; cbv; intuition congruence).
    assert (B : let dt := resolve_dt dt_us hr in let srp := resolve_srate srp_hz hr in
      has_transform dt srp /\ c_ns dt srp = samples dt_us srp_hz /\ 0 <= c_nd dt srp /\
      c_nd dt srp = samples dt_us srp_hz / 2 + samples (if dt_us =? 7500 then 2000 else 1250) srp_hz)
      by (clear - S2; supported_case S2; cbv; intuition congruence).
    cbv zeta in A, B. intuition lia. }
  cbv zeta in G. destruct G as (G1 & G2 & G3 & G4 & G5 & G6 & G7 & G8 & G9).
  split; [exact G1|]. split; [exact G2|]. split; [exact G3|]. split; [exact G4|]. split; [exact G5|]. split; [exact G6|]. split; [exact G7|].
  split; [exact G8|]. split; [intros ->; auto|].
  pose proof (R 0%nat) as R0. cbv zeta in R0. destruct R0 as (_ & _ & _ & R4 & _). cbn [Nat.iter nat_rect d_xs Z.of_nat] in R4.
  rewrite Z.add_0_r, Z.mod_small in R4 by lia.
  intros k. cbv zeta. specialize (R k). cbv zeta in R. destruct R as (K1 & K2 & K3 & K4 & K5 & K6 & K7 & K8 & K9 & K10).
  match goal with |- context [Nat.iter k complete ?c0] => destruct (complete_iter_off c0 k) as (O1 & O2 & O3) end.
  set (ck := Nat.iter k complete _) in *. clearbody ck. cbn [d_xh d_xd d_xg] in O1, O2, O3.
  split; [exact K1|]. split; [exact K2|]. split; [exact K3|]. split; [exact O1|].
  split; [exists ((cy - 1 + Z.of_nat k) mod cy); rewrite K4; apply Z.mul_comm|].
  rewrite G6, G9 in *. lia.
Qed.

(** ** A call *)
Lemma cint_in x : -2147483648 <= x <= 2147483647 -> cint x = Some x.
Proof. intros H. unfold cint. change INT_MIN with (-2147483648). change INT_MAX with 2147483647. destruct (_ && _) eqn:E; [reflexivity|lia]. Qed.

Section Call.
Context {F : Type} (fl : fops F) (lit : Z -> F) (junk : F).

Lemma inverse_total dt srp sr src d y : has_transform dt srp ->
  c_ns dt srp <= zlen (inp src y) -> c_nd dt srp <= zlen d -> c_ns dt srp <= zlen y ->
  exists d' y', inverse fl junk dt srp sr src d y = Some (d', y') /\ zlen d' = zlen d /\ zlen y' = zlen y.
Proof.
  intros Hc L1 L2 L3. unfold inverse. cbv zeta. apply C35_inverse_accesses; auto.
Qed.

Lemma plc_loop_ok alpha xs : forall seed, 0 <= seed < 65536 ->
  exists ys seed', plc_loop fl alpha seed xs = Some (ys, seed') /\ zlen ys = zlen xs /\ 0 <= seed' < 65536.
Proof.
  induction xs as [|x xs IH]; intros seed Hs; cbn [plc_loop].
  - exists [], seed. auto.
  - rewrite (cint_in (seed * 12821)) by lia. cbn [bind]. rewrite (cint_in (16831 + seed * 12821)) by lia. cbn [bind].
    set (s' := Z.land _ 65535).
    assert (Hs' : 0 <= s' < 65536).
    { unfold s'. change 65535 with (Z.ones 16). rewrite Z.land_ones by lia. apply Z.mod_pos_bound. reflexivity. }
    destruct (IH s' Hs') as (ys & s2 & -> & L & B). cbn [bind fst snd]. eexists _, s2. split; [reflexivity|].
    unfold zlen in *. cbn [length]. lia.
Qed.

Lemma plc_total p xs : 0 <= pf_seed p < 65536 -> 1 <= pf_count p < INT_MAX ->
  exists ys p', plc_synthesize fl p xs = Some (ys, p') /\ zlen ys = zlen xs /\ 0 <= pf_seed p' < 65536 /\ pf_count p' = pf_count p + 1.
Proof.
  intros Hs Hc. unfold plc_synthesize. cbv zeta.
  match goal with |- context [plc_loop fl ?a _ _] => destruct (plc_loop_ok a xs _ Hs) as (ys & s' & -> & L & B) end.
  cbn [bind fst snd]. change INT_MAX with 2147483647 in *. rewrite cint_in by lia. cbn [bind]. eexists _, _. split; [reflexivity|]. auto.
Qed.

Variables (hr : bool) (dt_us srp_hz n : Z) (c : dec_cfg).
Hypothesis G : geometry hr dt_us srp_hz c n.
Let dt := d_dt c. Let sr := d_sr c. Let srp := d_srp c.

Lemma put_spectrum_total lf hw data d xf : bytes data -> decode lf hw data dt sr = Some d -> zlen xf = c_ns dt srp ->
  exists xf', put_spectrum fl dt sr (zlen data) d xf = Some xf' /\ zlen xf' = zlen xf.
Proof.
  destruct G as (G1 & G2 & G3 & G4 & G5 & _). fold dt sr srp in G1, G2, G3, G4, G5. intros Hb E L.
  destruct (C40_spectrum lf hw data dt sr d Hb ltac:(apply G2) ltac:(apply G2) E) as (a & z & s & _ & H). cbv zeta in H.
  destruct H as (_ & _ & Ez & Lz & _). unfold put_spectrum. rewrite Ez. cbn [bind].
  destruct (put_at_ok xf 0 (map (fun z => f_dy fl z 149) z)) as (x1 & E1 & L1 & _); [lia|rewrite zlen_map; lia|]. rewrite E1. cbn [bind].
  destruct (put_at_ok x1 (c_ne dt sr) (repeat (f_z fl 0) (Z.to_nat (c_ns dt sr - c_ne dt sr)))) as (x2 & E2 & L2 & _); [lia|rewrite zlen_repeat; lia|].
  exists x2. rewrite E2. split; [reflexivity|lia].
Qed.

Lemma tns_in d : bw_ok sr (d_bw d) -> tns_cfg dt (d_bw d) /\ tns_end dt (d_bw d) <= c_ne dt sr.
Proof.
  destruct G as (_ & G2 & _). fold dt sr in G2. intros D1.
  clear - D1 G2. unfold bw_ok, tns_cfg, tns_end, c_ne, is_hr in *. change SRATE_48K with 4 in *. change SRATE_48K_HR with 5 in *. change DT_7M5 with 2 in *.
    destruct D1 as [D0 D1]. destruct G2 as (Q1 & Q2 & Q3).
    assert (B : 0 <= d_bw d <= sr) by (destruct (5 <=? sr); lia). split; [lia|].
    apply Z.mul_le_mono_nonneg_r; [lia|]. 
    assert (Hm : forall a b, 0 <= a <= b -> b <= 6 -> ne_2m5 a <= ne_2m5 b).
    { intros a b Ha Hbb. unfold ne_2m5.
      assert (Ca : a = 0 \/ a = 1 \/ a = 2 \/ a = 3 \/ a = 4 \/ a = 5 \/ a = 6) by lia.
      assert (Cb : b = 0 \/ b = 1 \/ b = 2 \/ b = 3 \/ b = 4 \/ b = 5 \/ b = 6) by lia.
      repeat destruct Ca as [->|Ca]; try subst a; repeat destruct Cb as [->|Cb]; try subst b; try (exfalso; lia); discriminate. }
    apply Hm; lia.
Qed.

Lemma synth_good_total lf hw data d xf xg xd : bytes data -> decode lf hw data dt sr = Some d ->
  zlen xf = c_ns dt srp -> zlen xg = c_ns dt srp -> zlen xd = c_nd dt srp ->
  exists xg' xd' y, synth_good fl junk dt sr srp d xf xg xd = Some (xg', xd', y) /\
    zlen xg' = zlen xg /\ zlen xd' = zlen xd /\ zlen y = zlen xf.
Proof.
  destruct G as (G1 & G2 & G3 & G4 & G5 & _). fold dt sr srp in G1, G2, G3, G4, G5. intros Hb E L1 L2 L3.
  destruct (decode_between lf hw data dt sr d Hb ltac:(apply G2) ltac:(apply G2) E) as [(D1 & D2 & D3 & D4 & _) _].
  destruct (tns_in d D1) as [C1 C2]. unfold synth_good.
  destruct (C42_synthesis F fl dt (d_bw d) (zlen data) (d_tns d) xf) as (x1 & E1 & M1 & _).
  { apply P_Tns.frame_cfg_eq. exact C1. } { rewrite filter_end_eq by (apply P_Tns.frame_cfg_eq; exact C1). lia. } { exact D3. }
  rewrite E1. cbn [bind].
  destruct (C44_decoder_total fl junk dt sr (d_sns d) x1 xg G2 D4 ltac:(lia) ltac:(lia)) as (scf & g & E2 & _ & M2).
  rewrite E2. cbn [bind snd].
  destruct (inverse_total dt srp sr (Some g) xd x1 G1) as (d' & y & E3 & M3 & M4); [cbn [inp]; lia..|].
  rewrite E3. cbn [bind fst snd]. exists g, d', y. split; [reflexivity|]. lia.
Qed.

Lemma synth_lost_total p xf xg xd : zlen xf = c_ns dt srp -> zlen xg = c_ns dt srp -> zlen xd = c_nd dt srp ->
  0 <= pf_seed p < 65536 -> 1 <= pf_count p < INT_MAX ->
  exists p' xd' y, synth_lost fl junk dt sr srp p xf xg xd = Some (p', xd', y) /\
    zlen xd' = zlen xd /\ zlen y = zlen xf /\ 0 <= pf_seed p' < 65536 /\ pf_count p' = pf_count p + 1.
Proof.
  destruct G as (G1 & G2 & G3 & G4 & G5 & _). fold dt sr srp in G1, G2, G3, G4, G5. intros L1 L2 L3 Hs Hc. unfold synth_lost. cbv zeta.
  destruct (rdn_ok xg 0 (c_ne dt sr)) as (xs & -> & Lx & _); try lia. cbn [bind].
  destruct (plc_total p xs Hs Hc) as (ys & p' & -> & Ly & S1 & S2). cbn [bind fst snd].
  destruct (put_at_ok xf 0 ys) as (x1 & -> & M1 & _); [lia..|]. cbn [bind].
  destruct (put_at_ok x1 (c_ne dt sr) (repeat (f_z fl 0) (Z.to_nat (c_ns dt srp - c_ne dt sr)))) as (x2 & -> & M2 & _); [lia|rewrite zlen_repeat; lia|].
  cbn [bind]. destruct (inverse_total dt srp sr None xd x2 G1) as (d' & y & -> & M3 & M4); [cbn [inp]; lia..|].
  cbn [bind fst snd]. exists p', d', y. split; [reflexivity|]. lia.
Qed.

Definition ltpf_inv (st : @ltpf_state F) : Prop := zlen (t_x st) = 12 /\ zlen (t_c st) = 24 /\
  (t_active st = true -> exists i, 0 <= i < 512 /\ t_pitch st = lag_at srp_hz i).

(** After [k] frames, with at most [b] of them lost. *)
Definition dec_inv (k : nat) (b : Z) (st : dec) : Prop :=
  x_cfg st = Nat.iter k complete c /\ zlen (x_mem st) = n /\ ltpf_inv (x_ltpf st) /\
  0 <= pf_seed (x_plc st) < 65536 /\ 1 <= pf_count (x_plc st) <= 1 + b.

Lemma postfilter_frame_total nbytes st data mem xs j : hr = false -> ltpf_inv st ->
  xs = j * samples dt_us srp_hz -> 0 <= xs <= c_nh dt srp -> c_ns dt srp + c_nh dt srp <= zlen mem ->
  - 10000000 <= nbytes <= 10000000 -> (forall d, data = Some d -> 0 <= l_pitch d < 512) ->
  exists mem' st', postfilter_frame fl lit junk dt srp nbytes st data mem 0 xs = Some (mem', st') /\
    zlen mem' = zlen mem /\ (forall p, p < xs \/ xs + c_ns dt srp <= p -> LtpfModel.rd mem' p = LtpfModel.rd mem p) /\ ltpf_inv st'.
Proof.
  destruct G as (_ & _ & _ & _ & _ & G6 & _ & _ & G9 & _). fold dt srp in G6, G9. intros Hh I Ex Hx Lm Hn Hd.
  destruct (G9 Hh) as (S1 & E1 & E2). rewrite G6 in *. rewrite E1, E2, Ex in *.
  exact (C28_footprint (f_z fl 0) (f_add fl) (f_sub fl) (f_mul fl) (f_div fl) (f_z fl) lit (repeat junk 48) (repeat junk 24)
    dt_us srp_hz st data nbytes mem j eq_refl eq_refl S1 I Hx Lm Hn Hd).
Qed.

Lemma decode_frame_total lf hw data nbytes st k b :
  dec_inv k b st -> b + 1 < INT_MAX ->
  let o := match data with Some data => decode lf hw data dt sr | None => None end in
  match data with Some data => bytes data /\ nbytes = zlen data | None => True end -> - 10000000 <= nbytes <= 10000000 ->
  exists out st', decode_frame fl lit junk o nbytes st = Some (out, st') /\ zlen out = samples dt_us srp_hz /\ dec_inv (S k) (b + 1) st'.
Proof.
  intros (I1 & I2 & I3 & I4 & I5) Hb o Hdata Hn. pose proof G as (G1 & G2 & G3 & G4 & G5 & G6 & G7 & G8 & G9 & G10).
  fold dt sr srp in G1, G2, G3, G4, G5, G6, G7, G8, G9, G10. specialize (G10 k). cbv zeta in G10. rewrite <- I1 in G10.
  destruct G10 as (K1 & K2 & K3 & K4 & (j & K5) & K6 & K7 & K8 & K9).
  unfold decode_frame. cbv zeta. rewrite K1, K2, K3, K4.
  destruct (rdn_ok (x_mem st) (d_xs (x_cfg st)) (c_ns dt srp)) as (xf & -> & L1 & _); try lia. cbn [bind].
  destruct (rdn_ok (x_mem st) (d_xg (x_cfg st)) (c_ns dt srp)) as (xg & -> & L2 & _); try lia. cbn [bind].
  destruct (rdn_ok (x_mem st) (d_xd (x_cfg st)) (c_nd dt srp)) as (xd & -> & L3 & _); try lia. cbn [bind].
  match goal with |- context [bind (match o with _ => _ end) _] =>
    match goal with |- context [bind ?r _] => 
      assert (A : exists p g e y, r = Some (p, g, e, y) /\ zlen g = c_ns dt srp /\ zlen e = c_nd dt srp /\ zlen y = c_ns dt srp /\
        0 <= pf_seed p < 65536 /\ 1 <= pf_count p <= 1 + (b + 1)) end end.
  { destruct o as [d|] eqn:Eo.
    - destruct data as [data|]; [|discriminate]. destruct Hdata as [Hby ->]. unfold o in Eo.
      destruct (put_spectrum_total lf hw data d xf Hby Eo L1) as (x1 & -> & M1). cbn [bind].
      destruct (synth_good_total lf hw data d x1 xg xd Hby Eo ltac:(lia) L2 L3) as (g & e & y & -> & M2 & M3 & M4). cbn [bind].
      eexists _, g, e, y. split; [reflexivity|]. cbn [plc_suspend pf_seed pf_count]. lia.
    - destruct (synth_lost_total (x_plc st) xf xg xd L1 L2 L3 I4 ltac:(lia)) as (p & e & y & -> & M1 & M2 & M3 & M4). cbn [bind].
      eexists p, xg, e, y. split; [reflexivity|]. lia. }
  destruct A as (p & g & e & y & -> & A1 & A2 & A3 & A4 & A5). cbn [bind].
  destruct (put_at_ok (x_mem st) (d_xs (x_cfg st)) y) as (m1 & -> & M1 & _); [lia..|]. cbn [bind].
  destruct (put_at_ok m1 (d_xd (x_cfg st)) e) as (m2 & -> & M2 & _); [lia..|]. cbn [bind].
  destruct (put_at_ok m2 (d_xg (x_cfg st)) g) as (m3 & -> & M3 & _); [lia..|]. cbn [bind].
  rewrite G8.
  assert (Hl : forall d l, o = Some d -> d_ltpf d = Some l -> 0 <= l_pitch l < 512).
  { intros d l Eo El. destruct data as [data|]; [|discriminate]. destruct Hdata as [Hby _].
    destruct (decode_between lf hw data dt sr d Hby ltac:(apply G2) ltac:(apply G2) Eo) as [(_ & _ & _ & _ & D5 & _) _]. apply (D5 l El). }
  assert (B : exists m4 l, (if hr then Some (m3, x_ltpf st) else postfilter_frame fl lit junk dt srp nbytes (x_ltpf st)
       match o with Some d => d_ltpf d | None => None end m3 0 (d_xs (x_cfg st))) = Some (m4, l) /\ zlen m4 = n /\ ltpf_inv l).
  { destruct (Bool.bool_dec hr true) as [Eh|Eh]; [rewrite Eh; exists m3, (x_ltpf st); split; [reflexivity|]; split; [lia|exact I3]|].
    apply not_true_is_false in Eh. rewrite Eh.
    destruct (postfilter_frame_total nbytes (x_ltpf st) (match o with Some d => d_ltpf d | None => None end) m3 (d_xs (x_cfg st)) j Eh I3 K5 K6) as (m4 & l & E4 & M4 & _ & I'); try lia.
    - intros l El. destruct o as [d|] eqn:Eo; [|discriminate]. exact (Hl d l eq_refl El).
    - exists m4, l. split; [exact E4|]. split; [lia|exact I']. }
  destruct B as (m4 & l & -> & B1 & B2). cbn [bind].
  destruct (rdn_ok m4 (d_xs (x_cfg st)) (c_ns dt srp)) as (out & -> & B3 & _); try lia. cbn [bind].
  eexists out, _. split; [reflexivity|]. split; [lia|].
  split; [cbn [x_cfg]; rewrite I1; reflexivity|]. auto.
Qed.
End Call.
