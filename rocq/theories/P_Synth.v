(** * The whole decoder: C46
    From the bytes of the frames to the samples given to the store functions, on the memory
    of the decoder. *)
From Coq Require Import ZArith List Bool Lia.
From Verif Require Import Base BaseProofs ConfigModel ConfigSpec ConfigProofs FloatModel SideModel SideSpec FrameModel FrameSpec NoiseModel FloatOps LoopProofs TnsModel SnsModel.
From Verif Require Import LtpfTables LtpfModel LtpfSpec LtpfProofs LtpfFrame TnsProofs SnsFloat DecoderProofs P_Ltpf P_Sns F32Model.
From Verif Require Import SynthModel SynthProofs SynthSpec SynthPipe.
From Flocq Require Import IEEE754.BinarySingleNaN.
Import ListNotations.
Local Open Scope Z_scope.

Section c46.
Context {F : Type} (fl : fops F) (lit : Z -> F).

(** The samples of the frames [xs], of sizes and data [fr], after the postfilter of [LtpfSpec]
    on the unbounded stream. *)
Definition postfiltered (dt_us hz : Z) (fr : list (option decoded * Z)) (xs : list (list F)) : list (list F) :=
  let ns := samples dt_us hz in
  let data := map (fun p => (snd p, spec_data (match fst p with Some d => d_ltpf d | None => None end))) fr in
  let y := fst (spec_output (f_z fl 0) (f_add fl) (f_sub fl) (f_mul fl) (f_div fl) (f_z fl) lit
    (dt_us / 2500) (resolve_srate hz false) hz (input (f_z fl 0) ns xs) (rev data)) in
  map (fun k => map (fun i => y (k * ns + i)) (zrange ns)) (zrange (zlen xs)).

(** For any decoder, any sequence of calls with any bytes, sizes and losses, any floats and
    any content [junk] of the arrays that are not initialised: no access is out of its array
    and no integer overflows; a call returns -1 when the size is refused (it gives nothing
    and changes nothing), 0 when the frame is decoded, 1 when it is lost or damaged, then with
    [ns] samples; these are the ones of the specification: those of [frames_of] through the
    postfilter, or themselves in high-resolution. *)
Theorem C46_decoder junk lf hw hr dt_us sr_hz sr_pcm_hz c n calls :
  hr_setup_decoder hr dt_us sr_hz sr_pcm_hz = Some (Some (c, n)) ->
  zlen calls < INT_MAX -> Forall call_ok calls ->
  let hz := if sr_pcm_hz <=? 0 then sr_hz else sr_pcm_hz in
  let requests := map (request (fun data => decode lf hw data (d_dt c) (d_sr c)) (max_size hr dt_us sr_hz)) calls in
  let frames := somes requests in
  exists outs st xs,
    run_calls fl lit junk lf hw (dec_init fl c n) calls = Some (outs, st) /\
    map fst outs = map answer requests /\
    Forall (fun o => match snd o with None => fst o = -1 | Some y => fst o <> -1 /\ zlen y = samples dt_us hz end) outs /\
    frames_of fl (d_dt c) (d_sr c) (d_srp c) (core_init fl (d_dt c) (d_sr c) (d_srp c)) frames = Some xs /\
    somes (map snd outs) = if hr then xs else postfiltered dt_us hz frames xs.
Proof.
  intros Hs Hn Hok hz requests frames. pose proof (setup_geometry _ _ _ _ _ _ Hs) as (S1 & S2 & G). fold hz in S2, G.
  destruct (setup_dec_cfg _ _ _ _ _ _ Hs) as (_ & E1 & E2). destruct (setup_sizes _ _ _ S1) as (_ & L2 & _). cbv zeta in L2. rewrite <- E1, <- E2 in L2.
  assert (Hmax : max_size hr dt_us sr_hz <= 10000000).
  { clear. unfold max_size, size_limits. destruct hr; [|cbn; lia]. destruct (_ =? _); [cbn; lia|]. destruct (_ =? _); cbn; lia. }
  rewrite <- L2 in Hmax. unfold frames, requests. clear frames requests. rewrite <- L2.
  destruct (run_ok fl lit junk hr dt_us hz n c G lf hw calls Hmax 0 0 _ _ (init_inv fl lit hr dt_us hz n c G) ltac:(lia) ltac:(lia) (init_holds fl lit hr dt_us hz n c G eq_refl) Hok) as
    (outs & st & xs & R1 & R2 & R3 & R4 & R5 & R6).
  set (rs := map (request _ _) calls) in *. exists outs, st, xs. split; [exact R1|]. split; [exact R2|].
  pose proof G as (_ & _ & _ & _ & _ & G6 & _). rewrite G6 in *.
  assert (V : somes (map snd outs) = if hr then xs else postfiltered dt_us hz (somes rs) xs).
  { destruct (Bool.bool_dec hr true) as [Eh|Eh]; [rewrite Eh in *; exact R6|]. apply not_true_is_false in Eh. rewrite Eh in *.
    destruct R6 as (fi & F1 & F2 & F3 & F4). cbn [dec_init x_cfg x_ltpf x_mem] in F4.
    pose proof (C28_postfilter (f_z fl 0) (f_add fl) (f_sub fl) (f_mul fl) (f_div fl) (f_z fl) lit (repeat junk 48) (repeat junk 24)
      dt_us sr_hz sr_pcm_hz c n fi eq_refl eq_refl Hs F3) as Q. cbv zeta in Q. fold hz in Q. unfold mem_init in Q. rewrite F4 in Q. apply some_inj in Q. rewrite Q.
    unfold postfiltered. rewrite F1. 
    assert (Ed : map (fun p => (snd p, spec_data (match fst p with Some d => d_ltpf d | None => None end))) (somes rs) = spec_frames fi).
    { unfold spec_frames. transitivity (map (fun q => (fst q, spec_data (snd q))) (map (fun p => (snd p, filter_data (fst p))) (somes rs))).
      - rewrite map_map. reflexivity.
      - rewrite <- F2, map_map. reflexivity. }
    rewrite Ed. replace (zlen xs) with (zlen fi) by (rewrite <- F1, zlen_map; reflexivity). reflexivity. }
  split; [|split; [exact R4|exact V]].
  assert (L : Forall (fun y => zlen y = samples dt_us hz) (somes (map snd outs))).
  { rewrite V. destruct hr; [exact R5|]. apply Forall_forall. intros y Hy. unfold postfiltered in Hy. cbv zeta in Hy. apply in_map_iff in Hy. destruct Hy as (k & <- & _).
    rewrite zlen_map. unfold zrange. rewrite zlen_map. unfold zlen. rewrite seq_length. pose proof G as (_ & _ & _ & G4 & G5 & _). lia. }
  clear - R3 L. induction outs as [|[ret [y|]] outs IH]; [constructor| |]; inversion R3 as [|? ? A B]; subst; cbn [map somes fst snd] in *.
  - inversion L; subst. constructor; [|auto]. cbn [fst snd]. split; [|assumption]. intros E. apply A in E. discriminate.
  - constructor; [|auto]. cbn [fst snd]. apply A. reflexivity.
Qed.

(** The samples do not depend on the arrays that are not initialised. *)
Theorem C46_uninitialised junk junk' lf hw hr dt_us sr_hz sr_pcm_hz c n calls :
  hr_setup_decoder hr dt_us sr_hz sr_pcm_hz = Some (Some (c, n)) ->
  zlen calls < INT_MAX -> Forall call_ok calls ->
  option_map fst (run_calls fl lit junk lf hw (dec_init fl c n) calls) =
  option_map fst (run_calls fl lit junk' lf hw (dec_init fl c n) calls).
Proof.
  intros Hs Hn Hok.
  destruct (C46_decoder junk lf hw hr dt_us sr_hz sr_pcm_hz c n calls Hs Hn Hok) as (o1 & s1 & x1 & -> & A2 & A3 & A4 & A5). cbv zeta in *.
  destruct (C46_decoder junk' lf hw hr dt_us sr_hz sr_pcm_hz c n calls Hs Hn Hok) as (o2 & s2 & x2 & -> & B2 & B3 & B4 & B5). cbv zeta in *.
  rewrite A4 in B4. apply some_inj in B4. subst x2. rewrite <- A5 in B5. rewrite <- A2 in B2. cbn [option_map fst]. f_equal.
  clear - A3 B3 B2 B5. revert o2 B2 B3 B5. induction o1 as [|[r y] o1 IH]; intros [|[r2 y2] o2] B2 B3 B5; cbn [map fst snd] in *; try discriminate; [reflexivity|].
  injection B2 as -> B2. inversion A3 as [|? ? P1 P2]; inversion B3 as [|? ? Q1 Q2]; subst. cbn [fst snd] in *. destruct y as [y|], y2 as [y2|]; cbn [somes] in B5.
  - injection B5 as -> B5. f_equal. auto.
  - exfalso. apply P1. exact Q1.
  - exfalso. apply Q1. exact P1.
  - f_equal. auto.
Qed.
End c46.
Print Assumptions C46_decoder.
Print Assumptions C46_uninitialised.

(** A frame, a lost frame, a wrong size, and damaged bytes, with the floats of the machine. *)
Definition ex_lit (z : Z) : f32 := f_div (f32_ops 0) (f32_dy z 0) (f32_dy (10 ^ 18) 0).
Definition ex_frame (s : Z) : FrameModel.frame :=
  mkFrame 0 (mkSide 2 false 255) (mkTns false [[]]) false (mkSns 17 17 0 1 12345 1 5 1) (mkLtpf 0 0) 5 [s * one; 0].
Definition ex_cfg := mkDec 0 0 0 0 160 180 200.
Definition ex_bytes (s : Z) : list Z := encode (repeat 0 20) 0 0 (ex_frame s).
Definition ex_run (calls : list (option (list Z) * Z)) :=
  option_map fst (run_calls (f32_ops 0) ex_lit (f32_dy 1 0) true (fun v => v) (dec_init (f32_ops 0) ex_cfg 220) calls).
Definition ex_calls : list (option (list Z) * Z) :=
  [(Some (ex_bytes 20), 20); (None, 0); (Some (ex_bytes 20), 19); (Some (repeat 255 20), 20)].
Definition loud (limit : Z) (r : option (list (Z * option (list f32)))) : bool :=
  match r with Some ((0, Some y) :: _) => existsb (fun v => Bltb (f32_dy limit 0) (Babs v)) y | _ => false end.
Lemma loud_in limit r : loud limit r = true -> option_map (map fst) r = Some [0] ->
  exists y v, r = Some [(0, Some y)] /\ In v y /\ Bltb (f32_dy limit 0) (Babs v) = true.
Proof.
  intros H N. destruct r as [[|[z [y|]] [|]]|]; try discriminate; cbn [option_map map fst] in N; apply some_inj in N; injection N as ->; [|discriminate].
  cbn [loud] in H. apply existsb_exists in H. destruct H as (v & H1 & H2). exists y, v. auto.
Qed.
Lemma ex_bytes_ok s : bytes (ex_bytes s) -> zlen (ex_bytes s) = 20 -> forall k, k <= 20 -> call_ok (Some (ex_bytes s), k).
Proof. intros H L k Hk. split; [exact H|]. cbn [snd fst]. lia. Qed.
Example C46_example :
  hr_setup_decoder false 2500 8000 0 = Some (Some (ex_cfg, 220)) /\ Forall call_ok ex_calls /\
  option_map (map fst) (ex_run ex_calls) = Some [0; 1; -1; 1] /\ loud 2000000 (ex_run ex_calls) = true.
Proof.
  split; [vm_compute; reflexivity|]. split; [|split; vm_compute; reflexivity].
  assert (B : bytes (ex_bytes 20)) by (vm_compute; repeat constructor; discriminate). assert (L : zlen (ex_bytes 20) = 20) by (vm_compute; reflexivity).
  unfold ex_calls. apply Forall_cons; [apply ex_bytes_ok; [exact B|exact L|lia]|]. apply Forall_cons; [unfold call_ok; cbn [fst snd]; lia|].
  apply Forall_cons; [apply ex_bytes_ok; [exact B|exact L|lia]|]. apply Forall_cons; [|apply Forall_nil].
  vm_compute. split; [repeat constructor; discriminate|discriminate].
Qed.

(** The store functions convert the samples to an int before they saturate (src/lc3.c lines
    475-490 and 497-512): a frame can be accepted and have a sample out of the int, so that
    the conversion is undefined. *)
Theorem C46_store_range_refuted :
  exists data y v, call_ok (Some data, 20) /\ ex_run [(Some data, 20)] = Some [(0, Some y)] /\ In v y /\
    Bltb (f32_dy (2 ^ 31) 0) (Babs v) = true.
Proof.
  exists (ex_bytes 32000).
  assert (B : bytes (ex_bytes 32000)) by (vm_compute; repeat constructor; discriminate). assert (L : zlen (ex_bytes 32000) = 20) by (vm_compute; reflexivity).
  assert (H : loud (2 ^ 31) (ex_run [(Some (ex_bytes 32000), 20)]) = true) by (vm_compute; reflexivity).
  assert (N : option_map (map fst) (ex_run [(Some (ex_bytes 32000), 20)]) = Some [0]) by (vm_compute; reflexivity).
  destruct (loud_in _ _ H N) as (y & v & H1 & H2 & H3). exists y, v.
  split; [apply ex_bytes_ok; [exact B|exact L|lia]|]. split; [exact H1|]. split; assumption.
Qed.
Print Assumptions C46_store_range_refuted.
