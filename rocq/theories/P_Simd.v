(** * Property C50: the ARM kernels of the pitch analysis *)
From Coq Require Import ZArith List Bool Lia.
From Verif Require Import Base BaseProofs ConfigModel ConfigSpec ConfigProofs SideModel LtpfTables LtpfModel FrontModel FrontSpec FrontHp50 FrontProofs FrontPitch FrontRun P_Front SimdTables SimdModel SimdProofs SimdRun.
Import ListNotations.
Local Open Scope Z_scope.

Section floats.
  Context {F : Type} (zero : F) (add sub mul div : F -> F -> F) (sqrt : F -> F) (lt le : F -> F -> bool)
    (ofz lit : Z -> F).
  Notation from_setup R hr dt_us hz bypass ks :=
    (R zero add sub mul div sqrt lt le ofz lit (resolve_dt dt_us hr) (resolve_srate hz hr) bypass
       (front_init zero (resolve_dt dt_us hr) (resolve_srate hz hr)) ks).

  Lemma start_ok (Q : Prop) hr dt_us hz ks : supported hr dt_us hz -> Forall (call_ok dt_us hz) ks -> (Q -> quiet hz ks) ->
    let dt := resolve_dt dt_us hr in let sr := resolve_srate hz hr in
    (0 <= dt < 4) /\ (0 <= sr < 7) /\ 0 <= c_nt sr /\ 0 <= c_ns dt sr /\ Forall (pcm_ok Q dt sr) ks /\ state_ok Q dt sr (front_init zero dt sr).
  Proof.
    intros Hsup Hk Hq dt sr. pose proof (front_geometry hr dt_us hz Hsup) as G. cbv zeta in G. fold dt sr in G. destruct G as (G1 & G2 & G3 & G4 & G5 & G6 & G7).
    destruct (init_ok zero add sub mul div sqrt lt le ofz lit hr dt_us hz Q (fun _ => 0) Hsup (fun _ _ => eq_refl)) as ((I1 & I2 & _) & _ & I3). fold dt sr in I1, I2, I3.
    split; [exact G1|]. split; [exact G2|]. split; [lia|]. split; [lia|]. split.
    - apply Forall_forall. intros k Hin. rewrite Forall_forall in Hk. destruct (Hk k Hin) as (K1 & K2). split; [congruence|]. split; [eapply Forall_impl; [|exact K2]; unfold s16; cbv beta; lia|].
      intros q. specialize (Hq q). unfold quiet, pcm_of in Hq. rewrite Forall_map, Forall_forall in Hq. specialize (Hq k Hin). cbv beta in Hq.
      unfold sr. rewrite (amp_limit_hz hr dt_us hz Hsup). exact Hq.
    - split; [exact I1|]. split; [exact I2|]. split; [|exact I3]. intros _. unfold front_init. cbn [f_xt]. apply Forall_forall. intros v Hv. apply repeat_spec in Hv. rewrite Hv. unfold amp, amp_limit. destruct (sr =? 0); cbn; lia.
  Qed.

  (** With SIMD of 32 bits, for every configuration, every sequence of frames and any arithmetic
      of floats: the attack flags, the pitch and postfilter decisions and the state are those of
      the portable code, all accesses are in the arrays and those of pairs are aligned, and no
      operation overflows unless one of the portable code does. *)
  Theorem C50_arm hr dt_us hz bypass ks : supported hr dt_us hz -> Forall (call_ok dt_us hz) ks ->
    exists outs st o o', from_setup front_run hr dt_us hz bypass ks = Some (outs, st, o) /\
      from_setup front_run_arm hr dt_us hz bypass ks = Some (outs, st, o') /\ (o' = true -> o = true).
  Proof.
    intros Hsup Hk. destruct (start_ok False hr dt_us hz ks Hsup Hk ltac:(tauto)) as (S1 & S2 & S3 & S4 & S5 & S6). cbv zeta in *.
    pose proof (run_arm_refines zero add sub mul div sqrt lt le ofz lit _ _ bypass S1 S2 S3 S4 ks _ S5 S6) as R.
    destruct (C29_in_arrays zero add sub mul div sqrt lt le ofz lit hr dt_us hz bypass ks Hsup Hk) as (outs & st & o & E & _). rewrite E in R. destruct R as (o' & R & Ho).
    exists outs, st, o, o'. auto.
  Qed.

  (** With NEON the same holds up to the amplitude of C30. Missing: larger amplitudes; see the
      refutation below. *)
  Theorem C50_neon_partial hr dt_us hz bypass ks : supported hr dt_us hz -> Forall (call_ok dt_us hz) ks -> quiet hz ks ->
    exists outs st, from_setup front_run hr dt_us hz bypass ks = Some (outs, st, false) /\
      from_setup front_run_neon hr dt_us hz bypass ks = Some (outs, st, false).
  Proof.
    intros Hsup Hk Hq. destruct (start_ok True hr dt_us hz ks Hsup Hk (fun _ => Hq)) as (S1 & S2 & S3 & S4 & S5 & S6). cbv zeta in *.
    pose proof (run_neon_refines zero add sub mul div sqrt lt le ofz lit _ _ bypass S1 S2 S3 S4 ks _ S5 S6) as R.
    assert (E : exists outs st, from_setup front_run hr dt_us hz bypass ks = Some (outs, st, false)).
    { destruct bypass; [|apply C30_no_overflow_partial; assumption].
      destruct (C30_attack_detector zero add sub mul div sqrt lt le ofz lit hr dt_us hz true ks Hsup Hk) as (outs & st & o & E & _ & Ho). exists outs, st. rewrite E, (Ho eq_refl). reflexivity. }
    destruct E as (outs & st & E). rewrite E in R. destruct R as (o' & R & Ho). exists outs, st. split; [exact E|]. rewrite R. destruct o'; [discriminate (Ho eq_refl)|reflexivity].
  Qed.

  (** The products: for all vectors of integers of 16 bits, the sums of the NEON code are those of
      the portable code when no element of the first vector is -32768. *)
  Theorem C50_neon_dot a b pa pb n : Forall (fun v => -32768 < v <= 32767) a -> Forall (fun v => -32768 <= v <= 32767) b -> 0 <= n ->
    0 <= pa -> pa + n <= zlen a -> 0 <= pb -> pb + n <= zlen b ->
    forall y o, dot ofz a pa b pb n = Some (y, o) -> exists o', neon_dot ofz a pa b pb n = Some (y, o') /\ (o' = true -> o = true).
  Proof.
    intros Ha Hb Hn H1 H2 H3 H4 y o E. pose proof (neon_dot_refines ofz a b pa n) as R. unfold refines in R. specialize (R ltac:(eapply Forall_impl; [|exact Ha]; unfold sym16; cbv beta; lia) ltac:(eapply Forall_impl; [|exact Hb]; unfold s16; cbv beta; lia) Hn H1 H2 pb H3 H4).
    rewrite E in R. exact R.
  Qed.
End floats.

(** The NEON sums of products of pairs are on 32 bits: the energy of 16 samples at -32768 comes
    out negative. *)
Theorem C50_neon_refuted : exists a : list Z, zlen a = 16 /\ Forall (fun v => -32768 <= v <= 32767) a /\
  dot (fun z => z) a 0 a 0 16 = Some (2 ^ 28, false) /\ neon_dot (fun z => z) a 0 a 0 16 = Some (- 2 ^ 28, false) /\
  neon_correlate (fun z => z) 1 a 0 a 0 16 = Some ([- 2 ^ 28], false).
Proof.
  exists (repeat (-32768) 16). split; [reflexivity|]. split; [repeat constructor; lia|]. vm_compute. auto.
Qed.

(** The tone of C27, with the ARM code: the pitch is the same. *)
Definition run_arm_fx (ks : list (call * ltpf_data)) :=
  front_run_arm 0 Z.add Z.sub (fun a b => a * b / fx_one) (fun a b => if b =? 0 then 0 else a * fx_one / b) (fun a => Z.sqrt (a * fx_one)) Z.ltb Z.leb
    (fun z => z * fx_one) (fun z => z) 1 0 false (front_init 0 1 0) ks.
Example C50_tone : supported false 5000 8000 /\ Forall (call_ok 5000 8000) tone /\ quiet 8000 tone /\
  match run_arm_fx tone with
  | Some (outs, _, o) => map (fun r => (o_present r, o_pitch r, l_pitch (o_data r))) outs = [(false, 0, 0); (true, 160, 32)] /\ o = false
  | None => False end.
Proof.
  split; [split; [right; left; reflexivity|left; reflexivity]|]. split; [|split; [|vm_compute; auto]].
  - assert (E : forallb (fun k => (zlen (k_pcm (fst k)) =? samples 5000 8000) && forallb (fun v => (-32768 <=? v) && (v <=? 32767)) (k_pcm (fst k))) tone = true)
      by (vm_compute; reflexivity).
    rewrite forallb_forall in E. apply Forall_forall. intros k Hk. specialize (E k Hk). apply andb_prop in E as [E1 E2].
    split; [apply Z.eqb_eq, E1|]. rewrite forallb_forall in E2. apply Forall_forall. intros v Hv. specialize (E2 v Hv). lia.
  - assert (E : forallb (forallb (fun v => Z.abs v <=? safe_amplitude 8000)) (pcm_of tone) = true) by (vm_compute; reflexivity).
    rewrite forallb_forall in E. apply Forall_forall. intros l Hl. specialize (E l Hl). rewrite forallb_forall in E.
    apply Forall_forall. intros v Hv. apply Z.leb_le, E, Hv.
Qed.

(** The resamplers at 16 kHz on some samples, and two of the correlations on some vectors. *)
Example C50_kernels :
  let x := map (fun i => (Z.of_nat i * Z.of_nat i * 97 + 11) mod 4001 - 2000) (seq 0 100) in
  let y := resample_12k8 1 (5, -7) x 20 (repeat 0 64) 0 64 in
  arm_resample_12k8 1 (5, -7) x 20 (repeat 0 64) 0 64 = y /\ neon_resample_12k8 1 (5, -7) x 20 (repeat 0 64) 0 64 = y /\
  (match y with Some (l, _, _) => firstn 6 l <> repeat 0 6 | None => False end) /\
  correlate (fun z => z) 5 x 40 x 33 32 = arm_correlate (fun z => z) 5 x 40 x 33 32 /\
  correlate (fun z => z) 5 x 40 x 33 32 = neon_correlate (fun z => z) 5 x 40 x 33 32.
Proof. vm_compute. repeat split; discriminate. Qed.

Print Assumptions C50_arm.
Print Assumptions C50_neon_partial.
Print Assumptions C50_neon_dot.
Print Assumptions C50_neon_refuted.
