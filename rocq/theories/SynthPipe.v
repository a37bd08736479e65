(** * The decoder computes the specification of [SynthSpec] *)
From Coq Require Import ZArith List Bool Lia.
From Verif Require Import Base BaseProofs ConfigModel ConfigSpec ConfigProofs FloatModel SideModel SideSpec FrameModel FrameSpec NoiseModel FloatOps LoopProofs TnsModel SnsModel.
From Verif Require Import MdctModel MdctWindows MdctStream MdctValues LtpfTables LtpfModel LtpfSpec LtpfProofs LtpfFrame TnsProofs SnsFloat SnsShape SnsMain NoiseHoles DecoderProofs.
From Verif Require Import P_Mdct P_Ltpf P_Tns P_Sns P_Noise SynthModel SynthProofs SynthSpec.
Import ListNotations.
Local Open Scope Z_scope.

(** ** Two runs of a loop *)
Lemma for_rel {S T} (R : S -> T -> Prop) (f : Z -> S -> option S) (g : Z -> T -> option T) a b s t s' :
  (forall i s t s', R s t -> f i s = Some s' -> exists t', g i t = Some t' /\ R s' t') ->
  R s t -> FloatOps.for_ a b f s = Some s' -> exists t', FloatOps.for_ a b g t = Some t' /\ R s' t'.
Proof.
  intros H. unfold FloatOps.for_. generalize (Z.to_nat (b - a)). intros n. revert a s t. induction n as [|n IH]; intros a s t HR E; cbn [FloatOps.loop] in *.
  - injection E as <-. exists t. auto.
  - destruct (f a s) as [s1|] eqn:E1; [|discriminate]. cbn [bind] in E. destruct (H a s t s1 HR E1) as (t1 & -> & H1). cbn [bind]. exact (IH _ _ _ H1 E).
Qed.

Lemma rd_more {A} (l r : list A) i v : FloatOps.rd l i = Some v -> FloatOps.rd (l ++ r) i = Some v.
Proof.
  unfold FloatOps.rd. destruct (i <? 0); [discriminate|]. intros E. rewrite nth_error_app1; [exact E|]. apply nth_error_Some. congruence.
Qed.
Lemma wr_more {A} (l r l' : list A) i v : FloatOps.wr l i v = Some l' -> FloatOps.wr (l ++ r) i v = Some (l' ++ r).
Proof.
  unfold FloatOps.wr, inb. rewrite zlen_app. destruct (_ && _) eqn:E; [|discriminate]. intros K. injection K as <-.
  pose proof (zlen_nonneg r). replace ((0 <=? i) && (i <? zlen l + zlen r)) with true by lia. f_equal. unfold upd. destruct (i <? 0) eqn:E0; [lia|].
  assert (Hi : (Z.to_nat i < length l)%nat) by (unfold zlen in *; lia). revert Hi. clear. generalize (Z.to_nat i). induction l as [|a l IH]; intros [|k] Hk; cbn [length] in Hk; try lia; cbn; [reflexivity|].
  f_equal. apply IH. lia.
Qed.

Section Pipe.
Context {F : Type} (fl : fops F).
Let f0 : F := f_z fl 0.
Let zeros (n : Z) : list F := repeat f0 (Z.to_nat n).

Lemma tns_app dt bw d x y r : tns_synthesize fl dt bw d x = Some y -> tns_synthesize fl dt bw d (x ++ r) = Some (y ++ r).
Proof.
  unfold tns_synthesize. match goal with |- context [bind ?o _] => destruct o as [fs|]; [|discriminate] end. cbn [bind].
  unfold inverse_filtering. cbv zeta. intros E. match type of E with bind ?o _ = _ => destruct o as [[s1 x1]|] eqn:E1; [|discriminate] end.
  cbn [bind snd] in E. injection E as <-.
  eapply (for_rel (fun a b => b = (fst a, snd a ++ r))) in E1; [| |reflexivity].
  - destruct E1 as (t & -> & ->). reflexivity.
  - clear. intros i [s x] t s' -> E. cbn [fst snd] in *. destruct (FloatOps.rd fs i) as [[order rc]|]; [|discriminate]. cbn [bind] in *.
    destruct (order =? 0); [injection E as <-; eauto|].
    match type of E with bind ?o _ = _ => destruct o as [[s1 x1]|] eqn:E1; [|discriminate] end. cbn [bind] in E.
    eapply (for_rel (fun a b => b = (fst a, snd a ++ r))) in E1; [| |reflexivity].
    + destruct E1 as (t & -> & ->). cbn [bind fst snd]. destruct (for_down _ _ _ s1) as [s2|]; [|discriminate]. cbn [bind] in *. injection E as <-. eauto.
    + clear. intros i [s x] t s' -> E. cbn [fst snd] in *. unfold inverse_coeff in *.
      destruct (FloatOps.rd x i) as [xi|] eqn:Ex; [|discriminate]. rewrite (rd_more x r i xi Ex). cbn [bind] in *.
      destruct (FloatOps.rd s 7) as [s7|]; [|discriminate]. cbn [bind] in *. destruct (FloatOps.rd rc 7) as [r7|]; [|discriminate]. cbn [bind] in *.
      destruct (for_down _ _ _ _) as [[s2 xi2]|]; [|discriminate]. cbn [bind] in *. destruct (FloatOps.wr s2 0 xi2) as [s3|]; [|discriminate]. cbn [bind] in *.
      destruct (FloatOps.wr x i xi2) as [x3|] eqn:Ew; [|discriminate]. rewrite (wr_more x r x3 i xi2 Ew). cbn [bind] in *. injection E as <-. eauto.
Qed.

Lemma sns_app junk junk' dt sr d x g : tns_cfg dt sr -> sns_ok d -> 0 <= c_ne dt sr -> zlen x = c_ne dt sr -> zlen g = c_ne dt sr ->
  exists scf y, sns_synthesize fl junk dt sr d x g = Some (scf, y) /\ zlen y = c_ne dt sr /\
    forall r r' g', zlen g' = c_ne dt sr -> sns_synthesize fl junk' dt sr d (x ++ r) (g' ++ r') = Some (scf, y ++ r').
Proof.
  intros C Hd H0 Lx Lg. destruct (sns_synthesize_ok fl junk dt sr d x g C Hd ltac:(lia) ltac:(lia)) as (scf & y & E & Ed & Ls & Ey).
  assert (Hq : forall i, 0 <= i < 16 -> FloatOps.rd scf i = Some (nth (Z.to_nat i) scf junk)) by (intros i Hi; apply rd_nth; lia).
  destruct (spectral_shaping_ok fl junk dt sr scf _ true x g C Hq ltac:(lia) ltac:(lia)) as (y0 & E0 & L0 & V0 & _). rewrite Ey in E0. apply some_inj in E0. subst y0.
  exists scf, y. split; [exact E|]. split; [lia|]. intros r r' g' Lg'. pose proof (zlen_nonneg r). pose proof (zlen_nonneg r').
  destruct (sns_synthesize_ok fl junk' dt sr d (x ++ r) (g' ++ r') C Hd ltac:(rewrite zlen_app; lia) ltac:(rewrite zlen_app; lia)) as (scf' & y' & E' & Ed' & _ & Ey').
  rewrite Ed in Ed'. apply some_inj in Ed'. subst scf'. rewrite E'. f_equal. f_equal.
  destruct (spectral_shaping_ok fl junk' dt sr scf _ true (x ++ r) (g' ++ r') C Hq ltac:(rewrite zlen_app; lia) ltac:(rewrite zlen_app; lia)) as (y1 & E1 & L1 & V1 & G1).
  rewrite Ey' in E1. apply some_inj in E1. subst y1. rewrite zlen_app in L1.
  apply LoopProofs.rd_ext; [rewrite zlen_app; lia|]. intros i Hi. destruct (Z_lt_le_dec i (c_ne dt sr)) as [K|K].
  - destruct (coef_band dt sr i C ltac:(lia)) as (b & lo & hi & B1 & B2 & B3 & B4). destruct (rd_ok x i ltac:(lia)) as (v & Ev).
    rewrite (V1 b lo hi i v B1 B2 B3 B4 (rd_more _ _ _ _ Ev)). symmetry. apply rd_more. exact (V0 b lo hi i v B1 B2 B3 B4 Ev).
  - rewrite G1 by lia. change (LtpfModel.rd (g' ++ r') i = LtpfModel.rd (y ++ r') i). rewrite !LtpfProofs.rd_app_r by lia. f_equal. lia.
Qed.

Lemma inverse_same junk dt srp sr src x d y : has_transform dt srp ->
  (src = Some x \/ src = None /\ y = x) -> zlen x = c_ns dt srp -> zlen d = c_nd dt srp -> zlen y = c_ns dt srp ->
  inverse fl junk dt srp sr src d y = inverse fl f0 dt srp sr None d x.
Proof.
  intros Hc Hs Lx Ld Ly. unfold inverse. cbv zeta. fold f0.
  assert (Hns : c_ns dt srp <= MAX_NS).
  { destruct Hc as (H1 & H2 & _). clear - H1 H2. assert (A : dt = 0 \/ dt = 1 \/ dt = 2 \/ dt = 3) by lia.
    assert (B : srp = 0 \/ srp = 1 \/ srp = 2 \/ srp = 3 \/ srp = 4 \/ srp = 5 \/ srp = 6) by lia.
    destruct A as [->|[->|[->| ->]]]; repeat destruct B as [->|B]; try subst srp; vm_compute; discriminate. }
  assert (Hx : inp src y = x) by (destruct Hs as [->|[-> ->]]; reflexivity).
  pose proof (code_shapes (fun z => f_dy fl z 80) dt srp Hc) as (S1 & S2 & S3 & _). destruct (code_sizes (fun z => f_dy fl z 47) dt srp Hc) as (_ & _ & W).
  apply inverse_indep; rewrite ?Hx; cbn [inp]; try lia; try assumption; try reflexivity.
  - split; [exact S1|]. auto.
Qed.

Lemma put_head (xf l : list F) : zlen l <= zlen xf -> put_at xf 0 l = Some (l ++ skipn (Z.to_nat (zlen l)) xf).
Proof. intros H. unfold put_at. destruct (_ && _) eqn:E; [|lia]. reflexivity. Qed.
Lemma put_next (l r l2 : list F) o : o = zlen l -> zlen l2 <= zlen r -> put_at (l ++ r) o l2 = Some (l ++ l2 ++ skipn (Z.to_nat (zlen l2)) r).
Proof.
  intros -> H. unfold put_at. pose proof (zlen_nonneg l). pose proof (zlen_nonneg l2). rewrite zlen_app. destruct (_ && _) eqn:E; [|lia]. f_equal.
  unfold zlen in *. rewrite firstn_app, firstn_all2 by lia. replace (Z.to_nat (Z.of_nat (length l)) - length l)%nat with 0%nat by lia. cbn [firstn]. rewrite app_nil_r. f_equal. f_equal.
  rewrite skipn_app, skipn_all2 by lia. cbn [app]. f_equal. lia.
Qed.

Section Call.
Context (lit : Z -> F) (junk : F).
Variables (hr : bool) (dt_us srp_hz n : Z) (c : dec_cfg).
Hypothesis G : geometry hr dt_us srp_hz c n.
Let dt := d_dt c. Let sr := d_sr c. Let srp := d_srp c.

(** A decoded frame in the window, and a lost frame. *)
Lemma good_step lf hw data d g ov xf s : bytes data -> decode lf hw data dt sr = Some d ->
  zlen xf = c_ns dt srp -> zlen g = c_ne dt sr -> zlen ov = c_nd dt srp ->
  k_spectrum s = g -> k_overlap s = ov ->
  exists x1 g' ov' y, put_spectrum fl dt sr (zlen data) d xf = Some x1 /\
    synth_good fl junk dt sr srp d x1 (g ++ zeros (c_ns dt srp - c_ne dt sr)) ov = Some (g' ++ zeros (c_ns dt srp - c_ne dt sr), ov', y) /\
    frame_of fl dt sr srp (Some d) (zlen data) s = Some (y, mkCore (plc_suspend fl (k_plc s)) g' ov') /\
    zlen g' = c_ne dt sr /\ zlen ov' = c_nd dt srp /\ zlen y = c_ns dt srp.
Proof.
  pose proof G as (G1 & G2 & G3 & G4 & G5 & _). fold dt sr srp in G1, G2, G3, G4, G5. intros Hb E Lf Lg Lo Es Eo.
  destruct (C40_spectrum lf hw data dt sr d Hb ltac:(apply G2) ltac:(apply G2) E) as (a & z & sg & _ & H). cbv zeta in H.
  destruct H as (_ & _ & Ez & Lz & _).
  destruct (decode_between lf hw data dt sr d Hb ltac:(apply G2) ltac:(apply G2) E) as [(D1 & D2 & D3 & D4 & _) _].
  destruct (tns_in hr dt_us srp_hz n c G d D1) as [C1 C2].
  set (zf := map (fun z => f_dy fl z 149) z). assert (Lzf : zlen zf = c_ne dt sr) by (unfold zf; rewrite zlen_map; exact Lz).
  destruct (C42_synthesis F fl dt (d_bw d) (zlen data) (d_tns d) zf) as (x & E1 & M1 & _).
  { apply P_Tns.frame_cfg_eq. exact C1. } { rewrite filter_end_eq by (apply P_Tns.frame_cfg_eq; exact C1). fold dt sr in C2. lia. } { exact D3. }
  destruct (sns_app f0 junk dt sr (d_sns d) x (zeros (c_ne dt sr)) G2 D4 ltac:(lia) ltac:(lia) ltac:(unfold zeros; rewrite zlen_repeat; lia)) as (scf & g' & E2 & L2 & A2).
  set (zs := zeros (c_ns dt srp - c_ne dt sr)). assert (Lzs : zlen zs = c_ns dt srp - c_ne dt sr) by (unfold zs, zeros; rewrite zlen_repeat; lia).
  destruct (inverse_total fl f0 dt srp sr None ov (g' ++ zs) G1) as (ov' & y & E3 & L3 & L4); [cbn [inp]; rewrite ?zlen_app; lia..|]. rewrite zlen_app in L4.
  unfold put_spectrum. rewrite Ez. cbn [bind]. fold zf. rewrite (put_head xf zf) by lia. cbn [bind].
  rewrite put_next; [|lia|unfold zlen in *; rewrite repeat_length, skipn_length; lia].
  eexists _, g', ov', y. split; [reflexivity|].
  match goal with |- context [zf ++ ?r] => set (r1 := r) end.
  assert (Lr : zlen r1 = c_ns dt srp - c_ne dt sr).
  { unfold r1. rewrite zlen_app. unfold zlen in *. rewrite !skipn_length, repeat_length. lia. }
  split; [|split; [|auto]].
  - unfold synth_good. rewrite (tns_app dt (d_bw d) (d_tns d) zf x r1 E1). cbn [bind]. rewrite (A2 r1 zs g Lg). cbn [bind snd].
    rewrite (inverse_same junk dt srp sr (Some (g' ++ zs)) (g' ++ zs) ov (x ++ r1) G1) by (rewrite ?zlen_app; auto; lia). rewrite E3. reflexivity.
  - unfold frame_of, spectrum_of. rewrite Ez. cbn [bind]. fold zf. rewrite E1. cbn [bind]. fold f0. change (repeat f0 (Z.to_nat (c_ne dt sr))) with (zeros (c_ne dt sr)). rewrite E2. cbn [bind snd].
    rewrite Eo. change (repeat f0 (Z.to_nat (c_ns dt srp - c_ne dt sr))) with zs. rewrite E3. reflexivity.
  - split; [exact L2|]. lia.
Qed.

Lemma lost_step g ov xf s nbytes : zlen xf = c_ns dt srp -> zlen g = c_ne dt sr -> zlen ov = c_nd dt srp ->
  k_spectrum s = g -> k_overlap s = ov -> 0 <= pf_seed (k_plc s) < 65536 -> 1 <= pf_count (k_plc s) < INT_MAX ->
  exists p ov' y, synth_lost fl junk dt sr srp (k_plc s) xf (g ++ zeros (c_ns dt srp - c_ne dt sr)) ov = Some (p, ov', y) /\
    frame_of fl dt sr srp None nbytes s = Some (y, mkCore p g ov') /\ zlen ov' = c_nd dt srp /\ zlen y = c_ns dt srp /\
    0 <= pf_seed p < 65536 /\ pf_count p = pf_count (k_plc s) + 1.
Proof.
  pose proof G as (G1 & G2 & G3 & G4 & G5 & _). fold dt sr srp in G1, G2, G3, G4, G5. intros Lf Lg Lo Es Eo P1 P2.
  set (zs := zeros (c_ns dt srp - c_ne dt sr)). assert (Lzs : zlen zs = c_ns dt srp - c_ne dt sr) by (unfold zs, zeros; rewrite zlen_repeat; lia).
  destruct (plc_total fl lit (k_plc s) g P1 P2) as (ys & p & E1 & L1 & B1 & B2).
  destruct (inverse_total fl f0 dt srp sr None ov (ys ++ zs) G1) as (ov' & y & E3 & L3 & L4); [cbn [inp]; rewrite ?zlen_app; lia..|]. rewrite zlen_app in L4.
  exists p, ov', y. split; [|split; [|lia]].
  - unfold synth_lost. cbv zeta.
    assert (Er : rdn (g ++ zs) 0 (c_ne dt sr) = Some g).
    { unfold rdn. rewrite zlen_app. destruct (_ && _) eqn:E; [|lia]. f_equal. change (Z.to_nat 0) with 0%nat. cbn [skipn].
      unfold zlen in *. rewrite firstn_app, firstn_all2 by lia. replace (Z.to_nat (c_ne dt sr) - length g)%nat with 0%nat by lia. cbn [firstn]. apply app_nil_r. }
    rewrite Er. cbn [bind]. rewrite E1. cbn [bind fst snd]. rewrite (put_head xf ys) by lia. cbn [bind].
    fold f0. change (repeat f0 (Z.to_nat (c_ns dt srp - c_ne dt sr))) with zs.
    rewrite put_next; [|lia|unfold zlen in *; rewrite skipn_length; lia]. cbn [bind].
    rewrite (skipn_all2 (n := Z.to_nat (zlen zs))) by (unfold zlen in *; rewrite skipn_length; lia). rewrite app_nil_r.
    rewrite (inverse_same junk dt srp sr None (ys ++ zs) ov (ys ++ zs) G1) by (rewrite ?zlen_app; auto; lia). rewrite E3. reflexivity.
  - unfold frame_of, spectrum_of. rewrite Es, E1. cbn [bind fst snd]. fold f0. change (repeat f0 (Z.to_nat (c_ns dt srp - c_ne dt sr))) with zs. rewrite Eo, E3. reflexivity.
Qed.

(** The memory with the samples of a frame in the window. *)
Lemma window_eq (mem mem3 y : list F) R xs nb data : 0 <= xs -> xs + zlen y <= R -> R <= zlen mem -> zlen mem3 = zlen mem ->
  (forall p, xs <= p < xs + zlen y -> LtpfModel.rd mem3 p = LtpfModel.rd y (p - xs)) ->
  (forall p, p < R -> p < xs \/ xs + zlen y <= p -> LtpfModel.rd mem3 p = LtpfModel.rd mem p) ->
  put_window mem R xs (mkFrameIn nb data y (skipn (Z.to_nat R) mem3)) = Some mem3.
Proof.
  intros H0 H1 H2 L V1 V2. unfold put_window. cbn [r_xs r_rest]. destruct (_ && _ && _) eqn:E; [|lia]. f_equal. pose proof (zlen_nonneg y).
  apply LtpfProofs.rd_ext.
  - rewrite !zlen_app. unfold zlen in *. rewrite !firstn_length, !skipn_length. lia.
  - intros p Hp. rewrite !zlen_app in Hp.
    assert (K1 : zlen (firstn (Z.to_nat xs) mem) = xs) by (unfold zlen in *; rewrite firstn_length; lia).
    assert (K2 : zlen (firstn (Z.to_nat (R - (xs + zlen y))) (skipn (Z.to_nat (xs + zlen y)) mem)) = R - (xs + zlen y)) by (unfold zlen in *; rewrite firstn_length, skipn_length; lia).
    assert (K3 : zlen (skipn (Z.to_nat R) mem3) = zlen mem - R) by (unfold zlen in *; rewrite skipn_length; lia).
    destruct (Z_lt_le_dec p xs) as [A|A].
    { rewrite LtpfProofs.rd_app_l by lia. rewrite V2 by lia. unfold LtpfModel.rd. destruct (Z.ltb_spec p 0); [reflexivity|]. apply nth_error_firstn'. lia. }
    rewrite LtpfProofs.rd_app_r by lia. rewrite K1. destruct (Z_lt_le_dec p (xs + zlen y)) as [B|B].
    { rewrite LtpfProofs.rd_app_l by lia. symmetry. apply V1. lia. }
    rewrite LtpfProofs.rd_app_r by lia. destruct (Z_lt_le_dec p R) as [C|C].
    { rewrite LtpfProofs.rd_app_l by lia. rewrite V2 by lia. unfold LtpfModel.rd. destruct (Z.ltb_spec p 0), (Z.ltb_spec (p - xs - zlen y) 0); try lia.
      rewrite nth_error_firstn' by lia. rewrite nth_error_skipn'. f_equal. lia. }
    rewrite LtpfProofs.rd_app_r by lia. rewrite K2. unfold LtpfModel.rd. destruct (Z.ltb_spec p 0), (Z.ltb_spec (p - xs - zlen y - (R - (xs + zlen y))) 0); try lia.
    rewrite nth_error_skipn'. f_equal. lia.
Qed.

(** The parts of the memory. *)
Definition holds (st : @dec F) (s : @core F) : Prop :=
  rdn (x_mem st) (d_xg (x_cfg st)) (c_ns dt srp) = Some (k_spectrum s ++ zeros (c_ns dt srp - c_ne dt sr)) /\ zlen (k_spectrum s) = c_ne dt sr /\
  rdn (x_mem st) (d_xd (x_cfg st)) (c_nd dt srp) = Some (k_overlap s) /\ k_plc s = x_plc st.

Lemma rdn_same (m l : list F) o k : 0 <= o -> k = zlen l -> o + k <= zlen m -> (forall p, o <= p < o + k -> LtpfModel.rd m p = LtpfModel.rd l (p - o)) -> rdn m o k = Some l.
Proof.
  intros H0 -> H1 V. pose proof (zlen_nonneg l). destruct (rdn_ok m o (zlen l) H0 ltac:(lia) H1) as (v & -> & L & W). f_equal. apply LtpfProofs.rd_ext; [exact L|].
  intros i Hi. rewrite W by lia. rewrite V by lia. f_equal. lia.
Qed.
Lemma rdn_parts (m l : list F) o k : rdn m o k = Some l -> 0 <= o /\ k = zlen l /\ o + k <= zlen m /\ forall p, o <= p < o + k -> LtpfModel.rd m p = LtpfModel.rd l (p - o).
Proof.
  intros E. destruct (rdn_some _ _ _ _ E) as [L V]. unfold rdn in E. destruct (_ && _) eqn:E'; [|discriminate].
  spl; try lia. intros p Hp. rewrite V by lia. f_equal. lia.
Qed.

Definition filter_data (o : option decoded) : option ltpf_data := match o with Some d => d_ltpf d | None => None end.

Lemma frame_step lf hw data nbytes st k b s :
  dec_inv srp_hz n c k b st -> b + 1 < INT_MAX -> holds st s ->
  let o := match data with Some data => decode lf hw data dt sr | None => None end in
  match data with Some data => bytes data /\ nbytes = zlen data | None => True end -> - 10000000 <= nbytes <= 10000000 ->
  exists out st' y s', decode_frame fl lit junk o nbytes st = Some (out, st') /\ dec_inv srp_hz n c (S k) (b + 1) st' /\ holds st' s' /\
    frame_of fl dt sr srp o nbytes s = Some (y, s') /\ zlen y = c_ns dt srp /\
    (forall l, filter_data o = Some l -> 0 <= l_pitch l < 512) /\
    if hr then out = y else exists rest m,
      put_window (x_mem st) (c_ns dt srp + c_nh dt srp) (d_xs (x_cfg st)) (mkFrameIn nbytes (filter_data o) y rest) = Some m /\
      postfilter_frame fl lit junk dt srp nbytes (x_ltpf st) (filter_data o) m 0 (d_xs (x_cfg st)) = Some (x_mem st', x_ltpf st') /\
      rdn (x_mem st') (d_xs (x_cfg st)) (c_ns dt srp) = Some out.
Proof.
  intros (I1 & I2 & I3 & I4 & I5) Hb (H1 & H2 & H3 & H4) o Hdata Hn. pose proof G as (G1 & G2 & G3 & G4 & G5 & G6 & G7 & G8 & G9 & G10).
  fold dt sr srp in G1, G2, G3, G4, G5, G6, G7, G8, G9, G10. pose proof (G10 (S k)) as K'. specialize (G10 k). cbv zeta in G10, K'.
  change (Nat.iter (S k) complete c) with (complete (Nat.iter k complete c)) in K'. rewrite <- I1 in G10, K'.
  destruct G10 as (K1 & K2 & K3 & K4 & (j & K5) & K6 & K7 & K8 & K9). 
  destruct (rdn_parts _ _ _ _ H1) as (P1 & P2 & P3 & P4). destruct (rdn_parts _ _ _ _ H3) as (Q1 & Q2 & Q3 & Q4).
  unfold decode_frame. cbv zeta. rewrite K1, K2, K3, K4.
  destruct (rdn_ok (x_mem st) (d_xs (x_cfg st)) (c_ns dt srp)) as (xf & -> & L1 & _); try lia. cbn [bind].
  rewrite H1, H3. cbn [bind].
  assert (Hl : forall l, filter_data o = Some l -> 0 <= l_pitch l < 512).
  { intros l El. unfold filter_data, o in El. destruct data as [data|]; [|discriminate]. destruct Hdata as [Hby _]. destruct (decode lf hw data dt sr) as [d|] eqn:Eo; [|discriminate].
    destruct (decode_between lf hw data dt sr d Hby ltac:(apply G2) ltac:(apply G2) Eo) as [(_ & _ & _ & _ & D5 & _) _]. apply (D5 l El). }
  match goal with |- context [bind (match o with _ => _ end) _] =>
    match goal with |- context [bind ?r _] => 
      assert (A : exists p g e y, r = Some (p, g ++ zeros (c_ns dt srp - c_ne dt sr), e, y) /\ frame_of fl dt sr srp o nbytes s = Some (y, mkCore p g e) /\
        zlen g = c_ne dt sr /\ zlen e = c_nd dt srp /\ zlen y = c_ns dt srp /\
        0 <= pf_seed p < 65536 /\ 1 <= pf_count p <= 1 + (b + 1)) end end.
  { destruct o as [d|] eqn:Eo.
    - destruct data as [data|]; [|discriminate]. destruct Hdata as [Hby ->]. unfold o in Eo.
      destruct (good_step lf hw data d _ _ xf s Hby Eo L1 H2 (eq_sym Q2) eq_refl eq_refl) as (x1 & g' & ov' & y & E1 & E2 & E3 & M1 & M2 & M3).
      rewrite E1. cbn [bind]. rewrite E2. cbn [bind]. rewrite <- H4. exists (plc_suspend fl (k_plc s)), g', ov', y. split; [reflexivity|]. split; [exact E3|].
      rewrite <- H4 in I4, I5. cbn [plc_suspend pf_seed pf_count]. lia.
    - rewrite <- H4 in I4, I5. destruct (lost_step _ _ xf s nbytes L1 H2 (eq_sym Q2) eq_refl eq_refl I4 ltac:(lia)) as (p & ov' & y & E1 & E2 & M1 & M2 & M3 & M4).
      rewrite <- H4, E1. cbn [bind]. exists p, (k_spectrum s), ov', y. split; [reflexivity|]. split; [exact E2|]. lia. }
  destruct A as (p & g & e & y & -> & A0 & A1 & A2 & A3 & A4 & A5). cbn [bind].
  set (zs := zeros (c_ns dt srp - c_ne dt sr)) in *. assert (Lzs : zlen zs = c_ns dt srp - c_ne dt sr) by (unfold zs, zeros; rewrite zlen_repeat; lia).
  assert (Lgz : zlen (g ++ zs) = c_ns dt srp) by (rewrite zlen_app; lia).
  destruct (put_at_ok (x_mem st) (d_xs (x_cfg st)) y) as (m1 & -> & M1 & V1 & V1'); [lia..|]. cbn [bind].
  destruct (put_at_ok m1 (d_xd (x_cfg st)) e) as (m2 & -> & M2 & V2 & V2'); [lia..|]. cbn [bind].
  destruct (put_at_ok m2 (d_xg (x_cfg st)) (g ++ zs)) as (m3 & -> & M3 & V3 & V3'); [lia..|]. cbn [bind].
  rewrite G8. change (match o with Some d => d_ltpf d | None => None end) with (filter_data o).
  assert (B : exists m4 l, (if hr then Some (m3, x_ltpf st) else postfilter_frame fl lit junk dt srp nbytes (x_ltpf st) (filter_data o) m3 0 (d_xs (x_cfg st))) = Some (m4, l) /\
       zlen m4 = n /\ ltpf_inv srp_hz l /\ (forall p, p < d_xs (x_cfg st) \/ d_xs (x_cfg st) + c_ns dt srp <= p -> LtpfModel.rd m4 p = LtpfModel.rd m3 p) /\ (hr = true -> m4 = m3)).
  { destruct (Bool.bool_dec hr true) as [Eh|Eh]; [rewrite Eh; exists m3, (x_ltpf st); split; [reflexivity|]; split; [lia|]; split; [exact I3|]; auto|].
    apply not_true_is_false in Eh. rewrite Eh.
    destruct (postfilter_frame_total fl lit junk hr dt_us srp_hz n c G nbytes (x_ltpf st) (filter_data o) m3 (d_xs (x_cfg st)) j Eh I3 K5 K6) as (m4 & l & E4 & M4 & M5 & I'); try (fold dt srp; lia); try exact Hl.
    exists m4, l. split; [exact E4|]. split; [lia|]. split; [exact I'|]. split; [exact M5|discriminate]. }
  destruct B as (m4 & l & EB & B1 & B2 & B3 & B4). rewrite EB. cbn [bind].
  destruct (rdn_ok m4 (d_xs (x_cfg st)) (c_ns dt srp)) as (out & Eout & B5 & B6); try lia. rewrite Eout. cbn [bind].
  eexists out, _, y, (mkCore p g e). split; [reflexivity|]. split.
  { split; [cbn [x_cfg]; rewrite I1; reflexivity|]. auto. }
  destruct K' as (K1' & K2' & K3' & K4' & (j' & K5') & K6' & K7' & K8' & K9').
  assert (Ex : d_xg (complete (x_cfg st)) = d_xg (x_cfg st) /\ d_xd (complete (x_cfg st)) = d_xd (x_cfg st)) by (destruct (x_cfg st); auto).
  destruct Ex as [Ex1 Ex2].
  split.
  { unfold holds. cbn [x_mem x_cfg x_plc k_plc k_spectrum k_overlap]. rewrite Ex1, Ex2. fold zs. spl; try exact A1; try reflexivity.
    - apply rdn_same; [lia..|]. intros q Hq. rewrite B3 by lia. apply V3'. lia.
    - apply rdn_same; [lia..|]. intros q Hq. rewrite B3 by lia. rewrite V3 by lia. apply V2'. lia. }
  split; [exact A0|]. split; [exact A3|]. split; [exact Hl|].
  assert (W1 : forall q, d_xs (x_cfg st) <= q < d_xs (x_cfg st) + c_ns dt srp -> LtpfModel.rd m3 q = LtpfModel.rd y (q - d_xs (x_cfg st))).
  { intros q Hq. rewrite V3, V2 by lia. apply V1'. lia. }
  destruct (Bool.bool_dec hr true) as [Eh|Eh].
  - rewrite Eh. rewrite (B4 Eh) in *. apply LtpfProofs.rd_ext; [lia|]. intros i Hi. rewrite B6 by lia. rewrite W1 by lia. f_equal. lia.
  - apply not_true_is_false in Eh. rewrite Eh in *. exists (skipn (Z.to_nat (c_ns dt srp + c_nh dt srp)) m3), m3. cbn [x_mem x_ltpf]. split; [|auto].
    apply window_eq; try lia; [rewrite A3; exact W1|]. intros q Hq Hq'. rewrite V3, V2 by lia. apply V1. lia.
Qed.

(** ** Successive calls *)
Definition call_ok (call : option (list Z) * Z) : Prop :=
  match fst call with
  | Some data => bytes data /\ snd call <= zlen data
  | None => - 10000000 <= snd call <= 10000000
  end.

Lemma run_ok lf hw calls : max_frame_bytes dt sr <= 10000000 -> forall k b st s,
  dec_inv srp_hz n c k b st -> 0 <= b -> b + zlen calls < INT_MAX -> holds st s -> Forall call_ok calls ->
  let rs := map (request (fun data => decode lf hw data dt sr) (max_frame_bytes dt sr)) calls in
  exists outs st' xs, run_calls fl lit junk lf hw st calls = Some (outs, st') /\
    map fst outs = map answer rs /\ Forall (fun o => fst o = -1 <-> snd o = None) outs /\
    frames_of fl dt sr srp s (somes rs) = Some xs /\ Forall (fun x => zlen x = c_ns dt srp) xs /\
    if hr then somes (map snd outs) = xs else
      exists fi, map r_xs fi = xs /\ map (fun f => (r_nbytes f, r_data f)) fi = map (fun p => (snd p, filter_data (fst p))) (somes rs) /\
        Forall (frame_in_ok (c_ns dt srp)) fi /\
        dec_postfilter f0 (f_add fl) (f_sub fl) (f_mul fl) (f_div fl) (f_z fl) lit (repeat junk 48) (repeat junk 24)
          (x_cfg st) (x_ltpf st) (x_mem st) fi = Some (somes (map snd outs)).
Proof.
  intros Hmax. induction calls as [|[inp nbytes] calls IH]; intros k b st s Hi Hb0 Hb Hh Hok rs.
  - exists [], st, []. unfold rs. cbn [map somes run_calls frames_of]. spl; auto. destruct (Bool.bool_dec hr true) as [Eh|Eh].
    + rewrite Eh. reflexivity.
    + apply not_true_is_false in Eh. rewrite Eh. exists []. spl; auto.
  - rewrite zlen_cons in Hb. inversion Hok as [|? ? Hc Hok']; subst. unfold call_ok in Hc. cbn [fst snd] in Hc.
    pose proof G as (G1 & G2 & G3 & G4 & G5 & G6 & G7 & G8 & G9 & G10). specialize (G10 k). cbv zeta in G10.
    fold dt sr srp in G10. pose proof Hi as (I1 & _). rewrite <- I1 in G10. destruct G10 as (K1 & K2 & K3 & K4 & _).
    cbn [map] in rs. pose (rs' := map (request (fun data => decode lf hw data dt sr) (max_frame_bytes dt sr)) calls).
    cbn [run_calls]. unfold lc3_decode. rewrite K1, K2.
    set (bad := match inp with Some _ => (nbytes <? 20) || (max_frame_bytes dt sr <? nbytes) | None => false end).
    set (o := match inp with Some data => decode lf hw (firstn (Z.to_nat nbytes) data) dt sr | None => None end).
    assert (Er : request (fun data => decode lf hw data dt sr) (max_frame_bytes dt sr) (inp, nbytes) = if bad then None else Some (o, nbytes)).
    { unfold request, bad, o. destruct inp as [data|]; [|reflexivity].
      destruct ((20 <=? nbytes) && (nbytes <=? max_frame_bytes dt sr)) eqn:E1, ((nbytes <? 20) || (max_frame_bytes dt sr <? nbytes)) eqn:E2; try reflexivity; exfalso; lia. }
    unfold rs. rewrite Er. fold rs'. destruct bad eqn:Ebad.
    + cbn [bind]. destruct (IH k b st s Hi Hb0 ltac:(lia) Hh Hok') as (outs & st' & xs & E1 & E2 & E3 & E4 & E5 & E6). fold rs' in E2, E4, E6. rewrite E1. cbn [bind fst snd].
      eexists _, st', xs. split; [reflexivity|]. cbn [map somes answer fst snd]. spl; [congruence|constructor; [cbn; tauto|exact E3]|exact E4|exact E5|exact E6].
    + destruct (frame_step lf hw (match inp with Some data => Some (firstn (Z.to_nat nbytes) data) | None => None end) nbytes st k b s Hi ltac:(pose proof (zlen_nonneg calls); lia) Hh) as
        (out & st1 & y & s1 & A1 & A2 & A3 & A4 & A5 & A6 & A7).
      { destruct inp as [data|]; [|exact I]. destruct Hc as [Hby Hc]. split.
        - unfold bytes in *. rewrite Forall_forall in *. intros v Hv. apply Hby. rewrite <- (firstn_skipn (Z.to_nat nbytes) data). apply in_or_app. left. exact Hv.
        - unfold bad in Ebad. unfold zlen in *. rewrite firstn_length. lia. }
      { destruct inp as [data|]; [|exact Hc]. unfold bad in Ebad. lia. }
      replace (match match inp with Some data => Some (firstn (Z.to_nat nbytes) data) | None => None end with Some data => decode lf hw data dt sr | None => None end) with o in *
        by (unfold o; destruct inp; reflexivity).
      rewrite A1. cbn [bind].
      destruct (IH (S k) (b + 1) st1 s1 A2 ltac:(lia) ltac:(lia) A3 Hok') as (outs & st' & xs & E1 & E2 & E3 & E4 & E5 & E6). fold rs' in E2, E4, E6. rewrite E1. cbn [bind fst snd].
      eexists _, st', (y :: xs). split; [reflexivity|]. cbn [map somes fst snd]. cbn [frames_of]. rewrite A4. cbn [bind fst snd]. rewrite E4. cbn [bind].
      spl.
      * cbn [answer]. destruct o; f_equal; exact E2.
      * constructor; [|exact E3]. cbn [fst snd]. destruct o; split; discriminate.
      * reflexivity.
      * constructor; assumption.
      * destruct (Bool.bool_dec hr true) as [Eh|Eh].
        -- rewrite Eh in *. rewrite A7, E6. reflexivity.
        -- apply not_true_is_false in Eh. rewrite Eh in *. destruct A7 as (rest & m & W1 & W2 & W3). destruct E6 as (fi & F1 & F2 & F3 & F4).
           exists (mkFrameIn nbytes (filter_data o) y rest :: fi). cbn [map r_xs r_nbytes r_data fst snd]. spl.
           { congruence. } { congruence. }
           { constructor; [|exact F3]. split; [exact A5|]. split; [|exact A6]. cbn [r_nbytes]. destruct inp as [data|]; [|exact Hc]. unfold bad in Ebad. lia. }
           unfold dec_postfilter in *. cbn [postfilter]. rewrite K1, K3, K4, W1. cbn [bind r_nbytes r_data].
           change (ltpf_synthesize f0 (f_add fl) (f_sub fl) (f_mul fl) (f_div fl) (f_z fl) (lit (4 * (E18 / 10))) (lit (5 * (E18 / 100))) (lit (85 * (E18 / 100)))
             (table_of lit ltpf_cden) (table_of lit ltpf_cnum) (repeat junk 48) (repeat junk 24)) with
             (ltpf_synthesize f0 (f_add fl) (f_sub fl) (f_mul fl) (f_div fl) (f_z fl) (lit 400000000000000000) (lit 50000000000000000) (lit 850000000000000000)
               (map (map (map lit)) ltpf_cden) (map (map (map lit)) ltpf_cnum) (repeat junk 48) (repeat junk 24)).
           unfold postfilter_frame in W2. fold f0 in W2. rewrite W2. cbn [bind]. rewrite W3. cbn [bind].
           assert (Ec : complete (x_cfg st) = x_cfg st1) by (destruct A2 as (-> & _); rewrite I1; reflexivity). rewrite Ec, F4. reflexivity.
Qed.

Lemma init_holds : x_cfg (dec_init fl c n) = c -> holds (dec_init fl c n) (core_init fl dt sr srp).
Proof.
  intros _. pose proof G as (G1 & G2 & G3 & G4 & G5 & G6 & G7 & G8 & G9 & G10). specialize (G10 0%nat). cbn in G10. fold dt sr srp in G10, G1, G2, G3, G4, G5, G7.
  destruct G10 as (K1 & K2 & K3 & K4 & _ & K6 & K7 & K8 & K9). unfold holds, core_init, dec_init. cbn [x_mem x_cfg x_plc k_plc k_spectrum k_overlap].
  fold f0. fold (zeros (c_ne dt sr)). fold (zeros (c_nd dt srp)).
  assert (Z0 : forall k, 0 <= k -> zlen (zeros k) = k) by (intros k Hk; unfold zeros; rewrite zlen_repeat; lia).
  assert (Ez : zeros (c_ne dt sr) ++ zeros (c_ns dt srp - c_ne dt sr) = zeros (c_ns dt srp)) by (unfold zeros; rewrite <- repeat_app; f_equal; lia).
  assert (R : forall k i, 0 <= i < k -> LtpfModel.rd (zeros k) i = Some f0) by (intros k i Hi; apply LoopProofs.rd_repeat; lia).
  rewrite Ez. spl; try reflexivity; [|apply Z0; lia|].
  - apply rdn_same; try lia; rewrite ?Z0, ?zlen_repeat by lia; try lia. intros p Hp. fold (zeros n). rewrite !R by lia. reflexivity.
  - apply rdn_same; try lia; rewrite ?Z0, ?zlen_repeat by lia; try lia. intros p Hp. fold (zeros n). rewrite !R by lia. reflexivity.
Qed.

Lemma init_inv : dec_inv srp_hz n c 0 0 (dec_init fl c n).
Proof.
  pose proof G as (G1 & G2 & G3 & G4 & G5 & G6 & G7 & G8 & G9 & G10). specialize (G10 0%nat). cbn in G10. fold dt sr srp in G10, G1, G2, G3, G4, G5, G7.
  destruct G10 as (K1 & K2 & K3 & K4 & _ & K6 & K7 & K8 & K9). unfold dec_inv, ltpf_inv, dec_init. cbn [x_cfg x_mem x_ltpf x_plc]. spl; try reflexivity; try (rewrite zlen_repeat; lia); try (cbn; lia); try (intros H; discriminate).
Qed.
End Call.
End Pipe.
