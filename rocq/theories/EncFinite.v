(** * The shaped spectrum of the encoder is finite, for all the samples of 16 bits *)
From Coq Require Import Reals ZArith List Bool Lia Lra ZifyBool.
From Flocq Require Import Core.Core IEEE754.BinarySingleNaN.
From Verif Require Import Base BaseProofs ConfigModel ConfigSpec FloatModel SideModel SideSpec ShapeTables FrameModel FloatOps FloatLaws F32Model F32Proofs.
From Verif Require Import LoopProofs TnsModel TnsProofs TnsZero.
From Verif Require MdctFloat.
Import ListNotations.
Local Open Scope Z_scope.

Lemma rnd_pow r e : -149 <= e <= 120 -> (Rabs r <= p2 e)%R -> (Rabs (rnd32 r) <= p2 e)%R /\ (Rabs (rnd32 r) < p2 128)%R.
Proof.
  intros He H. assert (A : (Rabs (rnd32 r) <= p2 e)%R) by (apply abs_round_le_generic; [apply vexp32|apply valid_rnd_N|apply generic_format_bpow; unfold SpecFloat.fexp, SpecFloat.emin; lia|exact H]).
  split; [exact A|]. eapply Rle_lt_trans; [exact A|]. apply bpow_lt. lia.
Qed.
Lemma pb_iff e x : pb e x <-> fin x /\ (Rabs (val x) <= p2 e)%R.
Proof. unfold pb, bnd. rewrite Rmult_1_l. reflexivity. Qed.
Lemma big_add e x y : 0 <= e <= 119 -> pb e x -> pb e y -> pb (e + 1) (Add x y).
Proof.
  rewrite !pb_iff. intros He (Fx & Bx) (Fy & By). assert (B : (Rabs (val x + val y) <= p2 (e + 1))%R).
  { eapply Rle_trans; [apply Rabs_triang|]. rewrite bpow_plus_1. change (IZR radix2) with 2%R. lra. }
  destruct (rnd_pow _ (e + 1) ltac:(lia) B) as (C & D). destruct (add_val x y Fx Fy D) as (F & V). split; [exact F|]. rewrite V. exact C.
Qed.
Lemma big_mul e e' x y : 0 <= e -> 0 <= e' -> e + e' <= 120 -> pb e x -> pb e' y -> pb (e + e') (Mul x y).
Proof.
  rewrite !pb_iff. intros H1 H2 H3 (Fx & Bx) (Fy & By). assert (B : (Rabs (val x * val y) <= p2 (e + e'))%R).
  { rewrite Rabs_mult, bpow_plus. apply Rmult_le_compat; auto using Rabs_pos. }
  destruct (rnd_pow _ (e + e') ltac:(lia) B) as (C & D). destruct (mul_val x y Fx Fy D) as (F & V). split; [exact F|]. rewrite V. exact C.
Qed.
Lemma for_empty {S} a b f (s : S) : b <= a -> for_ a b f s = Some s.
Proof. intros H. unfold for_. replace (Z.to_nat (b - a)) with O by lia. reflexivity. Qed.
Lemma rd_bounds {A} (l : list A) i v : rd l i = Some v -> 0 <= i < zlen l.
Proof. unfold rd, zlen. destruct (i <? 0) eqn:E; [discriminate|]. intros H. assert (Z.to_nat i < length l)%nat by (apply nth_error_Some; congruence). lia. Qed.

Section Tns.
Context (nan : Z) (junk : f32).
Let fl := f32_ops nan.

(** ** The filters of the temporal noise shaping: each stage doubles at most *)
Definition state_ok (e : Z) (s : list f32) : Prop := zlen s = 8 /\ forall k v, rd s k = Some v -> pb (e + k) v.
Definition rc_ok (order : Z) (rc : list f32) : Prop := forall k r, 0 <= k < order -> rd rc k = Some r -> pb 0 r.

Lemma unquantize_pb q order rc rc' : 0 <= order -> unquantize_rc fl q order rc = Some rc' -> rc_ok order rc'.
Proof.
  intros Ho H. unfold unquantize_rc in H. eapply (for_post (fun i r => rc_ok i r)); [exact Ho| | |exact H].
  - cbv beta. intros i t t' Hi Ht. destruct (rd q i) as [c|]; [|intros Q; discriminate Q]. cbn [bind]. destruct (rd tns_q_inv (Z.abs c)) as [m|] eqn:Em; [|intros Q; discriminate Q]. cbn [bind]. intros W.
    apply wr_inv in W. destruct W as (L & ->). intros k r Hk E. rewrite rd_upd in E by exact L. destruct (i =? k) eqn:Ei; [|apply (Ht k r); [lia|exact E]].
    assert (M : Z.abs m <= 2 ^ 15). { apply rd_In in Em. assert (A : forallb (fun m => Z.abs m <=? 2 ^ 15) tns_q_inv = true) by reflexivity. rewrite forallb_forall in A. specialize (A m Em). cbv beta in A. lia. }
    pose proof (pb_dy m 15 15 ltac:(unfold eok; lia) ltac:(lia) M) as P. change (15 - 15) with 0 in P.
    assert (X : r = if c <? 0 then f_opp fl (f_dy fl m 15) else f_dy fl m 15) by congruence. rewrite X. destruct (c <? 0); [apply MdctFloat.opp_pb; exact P|exact P].
  - intros k r Hk. lia.
Qed.

Lemma coeff_pb e order rc i s x s' x' : 0 <= e <= 110 -> 0 <= order -> rc_ok order rc -> state_ok e s -> (forall v, rd x i = Some v -> pb e v) ->
  forward_coeff fl order rc i (s, x) = Some (s', x') ->
  state_ok e s' /\ zlen x' = zlen x /\ (forall v, rd x' i = Some v -> pb (e + 8) v) /\ forall j, j <> i -> rd x' j = rd x j.
Proof.
  intros He Ho Hr Hs Hx. unfold forward_coeff. destruct (rd x i) as [xi|] eqn:Ex; [|intros Q; discriminate Q]. cbn [bind]. specialize (Hx xi eq_refl).
  destruct (for_ 0 order (forward_stage fl rc) (s, xi, xi)) as [[[s2 s1] xo]|] eqn:E; [|intros Q; discriminate Q]. cbn [bind].
  destruct (wr x i xo) as [x2|] eqn:W; [|intros Q; discriminate Q]. cbn [bind]. intros Q. assert (Q' : s' = s2 /\ x' = x2) by (split; congruence). destruct Q' as (-> & ->).
  assert (I : order <= 8 /\ state_ok e s2 /\ pb (e + order) s1 /\ pb (e + order) xo).
  { refine (for_post (fun k '(s, a, b) => k <= 8 /\ state_ok e s /\ pb (e + k) a /\ pb (e + k) b) _ 0 order _ _ Ho _ _ E).
    - cbv beta. intros k [[t a] b] [[t' a'] b'] Hk (K8 & (Lt & Ht) & Ha & Hb). unfold forward_stage. destruct (rd t k) as [s0|] eqn:E0; [|intros Q0; discriminate Q0]. cbn [bind].
      pose proof (rd_bounds _ _ _ E0) as B0. pose proof (Ht k s0 E0) as H0. rewrite wr_ok by exact B0. cbn [bind]. destruct (rd rc k) as [r|] eqn:Er; [|intros Q0; discriminate Q0]. cbn [bind]. pose proof (Hr k r Hk Er) as Pr.
      intros Q0. assert (Q1 : t' = upd t k a /\ a' = f_add fl (f_mul fl r b) s0 /\ b' = f_add fl b (f_mul fl r s0)) by (split; [|split]; congruence). destruct Q1 as (-> & -> & ->).
      split; [lia|]. split; [|replace (e + (k + 1)) with (e + k + 1) by lia; split].
      + split; [rewrite <- Lt; unfold zlen, upd; destruct (k <? 0); rewrite ?upd_nat_len; reflexivity|]. intros j v. rewrite rd_upd by exact B0. destruct (k =? j) eqn:Ej; [|apply Ht]. intros V. assert (v = a) by congruence. subst v. replace j with k by lia. exact Ha.
      + apply big_add; [lia| |exact H0]. replace (e + k) with (0 + (e + k)) by lia. apply big_mul; auto; lia.
      + apply big_add; [lia|exact Hb|]. replace (e + k) with (0 + (e + k)) by lia. apply big_mul; auto; lia.
    - rewrite Z.add_0_r. split; [lia|]. auto. }
  destruct I as (O8 & S2 & _ & P2). apply wr_inv in W. destruct W as (L & ->). split; [exact S2|]. split; [unfold zlen, upd; destruct (i <? 0); rewrite ?upd_nat_len; reflexivity|]. split.
  - intros v V. rewrite rd_upd, Z.eqb_refl in V by exact L. assert (v = xo) by congruence. subst v. apply (pb_le (e + order)); [exact P2|lia].
  - intros j Hj. rewrite rd_upd by exact L. destruct (i =? j) eqn:Eq; [lia|reflexivity].
Qed.

(** The coefficients from [i] are those of the input, the others may have been filtered. *)
Definition filtered (e i : Z) (x : list f32) : Prop := (forall j v, i <= j -> rd x j = Some v -> pb e v) /\ forall j v, rd x j = Some v -> pb (e + 8) v.

Lemma filter_pb e a b order rc s x s' x' : 0 <= e <= 110 -> 0 <= order -> rc_ok order rc -> state_ok e s -> filtered e a x -> a <= b ->
  for_ a b (forward_coeff fl order rc) (s, x) = Some (s', x') -> state_ok e s' /\ zlen x' = zlen x /\ filtered e b x'.
Proof.
  intros He Ho Hr Hs Hx Hab E.
  refine (for_post (fun i '(t, y) => state_ok e t /\ zlen y = zlen x /\ filtered e i y) _ a b _ _ Hab _ _ E).
  - intros i [t y] [t' y'] Hi (Ht & Ly & Hy1 & Hy2) C. destruct (coeff_pb e order rc i t y t' y' He Ho Hr Ht) as (A & B & D & F); [intros v Hv; apply (Hy1 i v); [lia|exact Hv]|exact C|].
    split; [exact A|]. split; [lia|]. split.
    + intros j v Hj Hv. rewrite F in Hv by lia. apply (Hy1 j v); [lia|exact Hv].
    + intros j v Hv. destruct (Z.eq_dec j i) as [->|N]; [apply D; exact Hv|]. rewrite F in Hv by exact N. apply (Hy2 j v Hv).
  - split; [exact Hs|]. split; [reflexivity|exact Hx].
Qed.

Lemma tns_nf_pos dt bw : tns_cfg dt bw -> 0 <= tns_nf dt bw.
Proof. intros C. apply Z.leb_le. revert dt bw C. apply all_cfg. vm_compute. reflexivity. Qed.

Lemma forward_pb e dt bw fs x y : 0 <= e <= 110 -> tns_cfg dt bw -> Forall (fun p => 0 <= fst p /\ rc_ok (fst p) (snd p)) fs -> Forall (pb e) x ->
  forward_filtering fl dt bw fs x = Some y -> zlen y = zlen x /\ Forall (pb (e + 8)) y.
Proof.
  intros He C Hf Hx. unfold forward_filtering. cbv zeta. set (nf := tns_nf dt bw). assert (N0 : 0 <= nf) by (apply tns_nf_pos; exact C). clearbody nf.
  destruct (for_ _ _ _ _) as [[s' x']|] eqn:E; [|intros Q; discriminate Q]. cbn [bind snd]. intros Q. assert (X : y = x') by congruence. subst x'.
  assert (I : state_ok e s' /\ zlen y = zlen x /\ filtered e (nf * Z.of_nat (tns_nfilters dt bw)) y).
  { refine (for_post (fun f '(t, z) => state_ok e t /\ zlen z = zlen x /\ filtered e (nf * f) z) _ 0 (Z.of_nat (tns_nfilters dt bw)) _ _ (Nat2Z.is_nonneg _) _ _ E).
    - intros f [t z] [t' z'] Hfl (Ht & Lz & Hz1 & Hz2) W. destruct (rd fs f) as [[order rc]|] eqn:Ep; [|discriminate W]. cbn [bind] in W.
      pose proof (Forall_rd _ _ _ _ Hf Ep) as (O1 & R1). cbn [fst snd] in O1, R1. assert (M : nf * f <= nf * (1 + f)) by nia. replace (nf * (f + 1)) with (nf * (1 + f)) by ring.
      assert (U : filtered e (nf * (1 + f)) z) by (split; [intros j v Hj; apply Hz1; lia|exact Hz2]).
      destruct (order =? 0); [assert (t' = t /\ z' = z) by (split; congruence); destruct H as (-> & ->); auto|].
      set (a := if f =? 0 then 3 * (1 + dt) else nf * f) in *. assert (Ha : nf * f <= a) by (unfold a; destruct (f =? 0) eqn:F0; [assert (f = 0) by lia; subst f; destruct C; lia|lia]). clearbody a.
      destruct (Z_le_gt_dec a (nf * (1 + f))) as [L|L].
      + destruct (filter_pb e a (nf * (1 + f)) order rc t z t' z' He O1 R1 Ht) as (A & B & D); [split; [intros j v Hj; apply Hz1; lia|exact Hz2]|exact L|exact W|]. split; [exact A|]. split; [lia|exact D].
      + rewrite for_empty in W by lia. assert (X : t' = t /\ z' = z) by (split; congruence). destruct X as (-> & ->). auto.
    - split; [split; [reflexivity|]|split; [reflexivity|split]].
      + intros k v V. pose proof (rd_bounds _ _ _ V) as B. apply rd_In, repeat_spec in V. subst v. apply (pb_le 0); [apply (pb_dy 0 0 0); unfold eok; lia|lia].
      + intros j v _ V. apply (Forall_rd _ _ _ _ Hx V).
      + intros j v V. apply (pb_le e); [apply (Forall_rd _ _ _ _ Hx V)|lia]. }
  destruct I as (_ & L & _ & H). split; [exact L|]. apply Forall_forall. intros v V. apply In_nth_error in V as (k & K). apply (H (Z.of_nat k)). unfold rd. replace (Z.of_nat k <? 0) with false by lia. rewrite Nat2Z.id. exact K.
Qed.

Lemma filter_rc dt bw nbytes nn x f p : tns_analyze_filter fl junk dt bw nbytes nn x f = Some p -> 0 <= zlen (fst p) /\ rc_ok (zlen (fst p)) (snd p).
Proof.
  unfold tns_analyze_filter. cbv zeta. destruct (autocorr _ _ _ _ _ _ _) as [r|]; [|intros Q; discriminate Q]. cbn [bind]. destruct (levinson _ _ _ _) as [[a g]|]; [|intros Q; discriminate Q]. cbn [bind].
  destruct (nn || _); [intros Q; assert (X : p = ([], repeat junk 8)) by congruence; subst p; split; [cbn; lia|]; intros k v Hk; cbn in Hk; lia|].
  destruct (if _ && _ then _ else _) as [a2|]; [|intros Q; discriminate Q]. cbn [bind]. destruct (lpc_reflection _ _ _ _) as [rc|]; [|intros Q; discriminate Q]. cbn [bind].
  destruct (quantize_rc _ _ _) as [[order rcq]|]; [|intros Q; discriminate Q]. cbn [bind]. destruct (unquantize_rc fl rcq order rc) as [rc2|] eqn:E; [|intros Q; discriminate Q]. cbn [bind].
  intros Q. assert (X : p = (firstn (Z.to_nat order) rcq, rc2)) by congruence. subst p. cbn [fst snd]. split; [apply zlen_nonneg|].
  intros k v Hk V. assert (L : zlen (firstn (Z.to_nat order) rcq) <= Z.max 0 order) by (unfold zlen; rewrite firstn_length; lia).
  apply (unquantize_pb rcq order rc rc2 ltac:(lia) E k v); [lia|exact V].
Qed.

Lemma tns_pb e dt bw nn nbytes x t y : 0 <= e <= 110 -> tns_cfg dt bw -> Forall (pb e) x -> tns_analyze fl junk dt bw nn nbytes x = Some (t, y) -> zlen y = zlen x /\ Forall (pb (e + 8)) y.
Proof.
  intros He C Hx. unfold tns_analyze. destruct (tns_analyze_filter fl junk dt bw nbytes nn x 0) as [p0|] eqn:E0; [|intros Q; discriminate Q]. cbn [bind]. apply filter_rc in E0.
  destruct (Nat.eqb (tns_nfilters dt bw) 2).
  - destruct (tns_analyze_filter fl junk dt bw nbytes nn x 1) as [p1|] eqn:E1; [|intros Q; discriminate Q]. cbn [bind]. apply filter_rc in E1.
    destruct (forward_filtering _ _ _ _ _) as [z|] eqn:E; [|intros Q; discriminate Q]. cbn [bind]. intros Q. assert (X : y = z) by congruence. subst z.
    refine (forward_pb e dt bw _ x y He C _ Hx E). cbn [map]. constructor; [exact E0|]. constructor; [exact E1|constructor].
  - cbn [bind]. destruct (forward_filtering _ _ _ _ _) as [z|] eqn:E; [|intros Q; discriminate Q]. cbn [bind]. intros Q. assert (X : y = z) by congruence. subst z.
    refine (forward_pb e dt bw _ x y He C _ Hx E). cbn [map]. constructor; [exact E0|constructor].
Qed.

End Tns.

From Verif Require Import MdctModel MdctStream MdctFloat LtpfModel LtpfProofs FrontModel FrontRun BandModel SnsModel SnsShape SnsMain SnsFloat SnsGain P_SnsGain SynthModel SynthProofs EncModel EncSpec EncProofs EncShape.

(** ** The spectral noise shaping *)
Section Sns.
Context (nan : Z) (junk : f32).
Let fl := f32_ops nan.
Lemma shaping_pb e dt sr d scf inv x y y' : 0 <= e <= 40 -> tns_cfg dt sr -> sns_ok d -> decoded_scf fl d = Some scf -> zlen scf = 16 ->
  c_ne dt sr <= zlen x -> c_ne dt sr <= zlen y -> Forall (pb e) x -> Forall (pb e) y ->
  spectral_shaping fl junk dt sr scf inv x y = Some y' -> zlen y' = zlen y /\ Forall (pb (e + 71)) y'.
Proof.
  intros He C Hd Ed Ls Lx Ly Zx Zy E. set (q := fun i => nth (Z.to_nat i) scf junk). assert (Hq : forall i, 0 <= i < 16 -> FloatOps.rd scf i = Some (q i)) by (intros i Hi; apply LoopProofs.rd_nth; lia).
  destruct (spectral_shaping_ok fl junk dt sr scf q inv x y C Hq Lx Ly) as (y2 & E2 & L2 & H & K). rewrite E in E2. assert (y2 = y') by congruence. subst y2. split; [exact L2|].
  apply (Forall_at _ y' (zlen y')); [reflexivity|]. intros i Hi. assert (R : FloatOps.rd y' i = Some (at_ (f32_dy 0 0) y' i)) by (apply LoopProofs.rd_nth; exact Hi).
  destruct (Z.lt_ge_cases i (c_ne dt sr)) as [L|L].
  - destruct (coef_band dt sr i C ltac:(lia)) as (b & lo & hi & B1 & B2 & B3 & B4). destruct (LoopProofs.rd_ok x i ltac:(lia)) as (v & Ev). specialize (H b lo hi i v B1 B2 B3 B4 Ev).
    rewrite R in H. assert (X : at_ (f32_dy 0 0) y' i = Mul v (band_gain fl (band_scf fl (num_bands dt sr) q inv b))) by (apply some_inj; exact H). rewrite X.
    assert (G : pb 71 (band_gain fl (band_scf fl (num_bands dt sr) q inv b))).
    { destruct (band_at nan dt sr d scf q b C Hd Ed Hq B1) as (N1 & N2 & N3 & N4). apply pb_iff. assert (0 < p2 (-71))%R by apply bpow_gt_0.
      destruct inv; [destruct (gain_val nan _ N2) as (G1 & G2 & _)|destruct (gain_val nan _ N1) as (G1 & G2 & _)]; try (unfold fl in *; rewrite ?N3, ?Rabs_Ropp; exact N4); (split; [exact G1|]; unfold fl; rewrite Rabs_pos_eq by lra; apply G2). }
    apply big_mul; [lia|lia|lia|exact (Forall_rd (pb e) x i v Zx Ev)|exact G].
  - rewrite (K i ltac:(lia)) in R. apply (F32Proofs.pb_le e); [exact (Forall_rd (pb e) y i _ Zy R)|lia].
Qed.
End Sns.

Section Finite.
Context (nan : Z) (lit : Z -> f32) (junk : f32) (junkd : ltpf_data).
Let fl := f32_ops nan.

Lemma shape_pb e hr dt_us srp_hz c n bypass nbytes pcm fr mem xd h fr' mem' : 0 <= e <= 16 ->
  e_geometry hr dt_us srp_hz c n -> zlen mem = n -> zlen pcm = c_ns (e_dt c) (e_srp c) ->
  rdn mem (e_xd c) (c_nd (e_dt c) (e_srp c)) = Some xd -> Forall (pb e) xd -> Forall (fun p => pb e (snd p)) pcm ->
  shape_frame nan lit junk junkd c bypass nbytes pcm fr mem = Some (h, fr', mem') ->
  Forall (pb (e + 102)) (h_x h) /\ zlen mem' = n /\ exists xd', rdn mem' (e_xd c) (c_nd (e_dt c) (e_srp c)) = Some xd' /\ Forall (pb e) xd'.
Proof.
  intros He G Lm Lp Exd Zd Zp E. destruct (shape_frame_parts nan lit junk junkd hr dt_us srp_hz c n bypass nbytes pcm fr mem xd h fr' mem' G Lm Lp Exd E) as (xd' & xf & scf & xf2 & nn & F1 & F2 & F3 & F4 & F5 & F6 & F7 & F8 & F9 & F10 & F11).
  destruct G as (S1 & S2 & S3 & G1 & G2 & G3 & G4 & G5 & G6 & G7 & G8 & G9 & G10 & G11 & G12).
  assert (Zs : Forall (pb e) (map snd pcm)) by (apply Forall_map; exact Zp). assert (Ls : zlen (map snd pcm) = c_ns (e_dt c) (e_srp c)) by (unfold zlen in *; rewrite map_length; exact Lp).
  destruct (rdn_inv _ _ _ _ Exd) as (Ld & _).
  destruct (forward_bound nan junk (e_dt c) (e_sr c) (e_srp c) e (map snd pcm) xd (map snd pcm) G1 G3 ltac:(lia) Zs Zd Ls (eq_sym Ld) Ls ltac:(lia) G6) as (d2 & y2 & E2 & _ & _ & Z1 & Z2).
  rewrite F1 in E2. assert (X : xd' = d2 /\ xf = y2) by (split; congruence). destruct X as (<- & <-).
  destruct (shaping_pb nan junk (e + 23) (e_dt c) (e_sr c) (h_sns h) scf false xf xf xf2 ltac:(lia) G2 F4 F5 F6 ltac:(lia) ltac:(lia) Z2 Z2 F7) as (L2 & Z3).
  destruct (tns_end_ne (e_dt c) (e_sr c) (h_bw h) G2 F8) as (Cb & Te). destruct (tns_pb nan junk (e + 23 + 71) (e_dt c) (h_bw h) nn nbytes xf2 (h_tns h) (h_x h) ltac:(lia) Cb Z3 F9) as (_ & Z4).
  replace (e + 102) with (e + 23 + 71 + 8) by lia. split; [exact Z4|]. split; [exact F10|]. exists xd'. auto.
Qed.

Lemma shape_run_pb e hr dt_us srp_hz c n bypass : 0 <= e <= 16 -> e_geometry hr dt_us srp_hz c n -> forall calls fr mem xd hs,
  zlen mem = n -> rdn mem (e_xd c) (c_nd (e_dt c) (e_srp c)) = Some xd -> Forall (pb e) xd ->
  Forall (ecall_ok dt_us srp_hz) calls -> Forall (fun k : ecall => Forall (fun p => pb e (snd p)) (snd (fst k))) calls ->
  shape_run nan lit junk junkd c bypass fr mem calls = Some hs ->
  Forall (fun oh => match oh with Some h => Forall (pb (e + 102)) (h_x h) | None => True end) hs.
Proof.
  intros He G. induction calls as [|[[nb pcm] out] calls IH]; intros fr mem xd hs Lm Exd Zd Hk Hz Es; cbn [shape_run] in Es.
  - assert (hs = []) by congruence. subst. constructor.
  - inversion Hk as [|? ? K1 K2]. inversion Hz as [|? ? Z1 Z2]. subst. destruct (accepted c nb) eqn:A.
    + destruct (shape_frame nan lit junk junkd c bypass nb pcm fr mem) as [[[h fr1] mem1]|] eqn:E1; [|discriminate Es]. cbn [bind] in Es.
      destruct (shape_run nan lit junk junkd c bypass fr1 mem1 calls) as [hs'|] eqn:E2; [|discriminate Es]. cbn [bind] in Es.
      assert (hs = Some h :: hs') by congruence. subst hs. destruct K1 as (K1 & _). pose proof G as (_ & _ & _ & _ & _ & _ & _ & _ & _ & G7 & _).
      destruct (shape_pb e hr dt_us srp_hz c (zlen mem) bypass nb pcm fr mem xd h fr1 mem1 He G eq_refl ltac:(lia) Exd Zd) as (P1 & P3 & xd' & P4 & P5); [exact Z1|exact E1|].
      constructor; [exact P1|exact (IH fr1 mem1 xd' hs' P3 P4 P5 K2 Z2 E2)].
    + destruct (shape_run nan lit junk junkd c bypass fr mem calls) as [hs'|] eqn:E2; [|discriminate Es]. cbn [bind] in Es.
      assert (hs = None :: hs') by congruence. subst hs. constructor; [exact I|exact (IH fr mem xd hs' eq_refl Exd Zd K2 Z2 E2)].
Qed.
End Finite.
