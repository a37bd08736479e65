(** * The scale factors and the gains of the spectral noise shaping, in binary32 *)
From Coq Require Import Reals ZArith List Bool Lia Lra Psatz.
From Flocq Require Import Core.Core IEEE754.BinarySingleNaN Relative.
From Verif Require Import Base ConfigModel SideModel SideSpec ShapeTables FloatOps FloatLaws LoopProofs TnsProofs BandModel BandProofs PvqModel PvqProofs SnsModel SnsProofs SnsShape SnsMain F32Model F32Proofs SpecEncFloat FastReal FastFloat FastExp.
Import ListNotations.
Local Open Scope R_scope.

(** ** Bounds of the operations *)
Lemma big60 : 1000000 <= p2 60. Proof. apply Rle_trans with (p2 20); [cbn; lra|apply bpow_le; lia]. Qed.
Lemma val0 (x : f32) : Rabs (val x - val x) <= 0. Proof. rewrite Rminus_diag_eq, Rabs_R0 by reflexivity. lra. Qed.
Lemma mul_b x y A B C : fin x -> fin y -> Rabs (val x) <= A -> Rabs (val y) <= B -> A * B <= 1000 -> A * B * 1.0000001 + / 1000000000000 <= C -> fin (Mul x y) /\ Rabs (val (Mul x y)) <= C.
Proof.
  intros Fx Fy Hx Hy L HC. pose proof big60 as K. pose proof (Rabs_pos (val x)). pose proof (Rabs_pos (val y)). assert (0 <= A * B) by (apply Rmult_le_pos; lra).
  destruct (mul_near x y (val x) (val y) 0 0 A B (A * B * / 16000000 + / 1000000000000) Fx Fy (val0 x) (val0 y) Hx Hy) as (F & V).
  - rewrite !Rplus_0_r. lra. - rewrite !Rplus_0_r, !Rmult_0_r. lra.
  - split; [exact F|]. assert (D : Rabs (val x * val y) <= A * B) by (rewrite Rabs_mult; apply Rmult_le_compat; assumption).
    replace (val (Mul x y)) with (val x * val y + (val (Mul x y) - val x * val y)) by ring. eapply Rle_trans; [apply Rabs_triang|]. lra.
Qed.
Lemma add_b x y A B C : fin x -> fin y -> Rabs (val x) <= A -> Rabs (val y) <= B -> A + B <= 1000 -> (A + B) * 1.0000001 + / 1000000000000 <= C -> fin (Add x y) /\ Rabs (val (Add x y)) <= C.
Proof.
  intros Fx Fy Hx Hy L HC. pose proof big60 as K. pose proof (Rabs_pos (val x)). pose proof (Rabs_pos (val y)). assert (D : Rabs (val x + val y) <= A + B) by (eapply Rle_trans; [apply Rabs_triang|lra]).
  destruct (add_near x y (val x) (val y) 0 0 (A + B) ((A + B) * / 16000000 + / 1000000000000) Fx Fy (val0 x) (val0 y) D) as (F & V); try lra.
  split; [exact F|]. replace (val (Add x y)) with (val x + val y + (val (Add x y) - (val x + val y))) by ring. eapply Rle_trans; [apply Rabs_triang|]. lra.
Qed.
Lemma dy_b m s A C : Rabs (IZR m * p2 (- s)) <= A -> A <= 1000 -> A * 1.0000001 + / 1000000000000 <= C -> fin (f32_dy m s) /\ Rabs (val (f32_dy m s)) <= C.
Proof.
  intros H L HC. pose proof big60 as K. pose proof (Rabs_pos (IZR m * p2 (- s))). destruct (rnd_near _ A H ltac:(lra)) as (R1 & R2). destruct (dy_val m s R1) as (F & V). split; [exact F|]. rewrite V.
  replace (rnd32 (IZR m * p2 (- s))) with (IZR m * p2 (- s) + (rnd32 (IZR m * p2 (- s)) - IZR m * p2 (- s))) by ring. eapply Rle_trans; [apply Rabs_triang|]. lra.
Qed.

(** ** The tables *)
Lemma rd_in {A} (l : list A) i v : rd l i = Some v -> In v l.
Proof. unfold rd. destruct (i <? 0)%Z; [discriminate|]. apply nth_error_In. Qed.
Definition tab_max (t : list (list Z)) (m : Z) : bool := forallb (forallb (fun v => Z.abs v <=? m)%Z) t.
Lemma tab_max_ok t m i j r v : tab_max t m = true -> rd t i = Some r -> rd r j = Some v -> (Z.abs v <= m)%Z.
Proof.
  intros H E1 E2. apply rd_in in E1, E2. unfold tab_max in H. rewrite forallb_forall in H. specialize (H _ E1). rewrite forallb_forall in H. specialize (H _ E2). apply Z.leb_le in H. exact H.
Qed.
Lemma dct_max : tab_max dct16_m 94449264 = true. Proof. vm_compute. reflexivity. Qed.
Lemma lf_max : tab_max sns_lfcb 20731717632 = true. Proof. vm_compute. reflexivity. Qed.
Lemma hf_max : tab_max sns_hfcb 20731717632 = true. Proof. vm_compute. reflexivity. Qed.
Lemma gain_max : tab_max (map snd sns_vq_gains) 21014 = true. Proof. vm_compute. reflexivity. Qed.

(** ** The pulses, normalized *)
Lemma pulses_app a b : (pulses (a ++ b) = pulses a + pulses b)%Z.
Proof. induction a as [|x a IH]; [reflexivity|]. unfold pulses in *. cbn [app fold_right]. rewrite IH. lia. Qed.
Lemma config_pulses shape c : config_ok shape c -> (1 <= pulses c <= 11)%Z /\ zlen c = 16%Z.
Proof.
  intros (L & H). split; [|unfold zlen; lia]. assert (K : (pulses c = pulses (firstn 10 c) + pulses (skipn 10 c))%Z) by (rewrite <- pulses_app, firstn_skipn; reflexivity).
  destruct (shape =? 0)%Z; [lia|]. destruct (shape =? 1)%Z; [lia|]. destruct (shape =? 2)%Z; lia.
Qed.
Lemma rd_bounds {A} (l : list A) i v : rd l i = Some v -> (0 <= i < zlen l)%Z.
Proof. unfold rd, zlen. destruct (Z.ltb_spec i 0); [discriminate|]. intros E. assert (Z.to_nat i < length l)%nat by (apply nth_error_Some; congruence). lia. Qed.
(** The pulses of the first k. *)
Definition psum (c : list Z) (k : Z) : Z := pulses (firstn (Z.to_nat k) c).
Lemma psum_S c k v : (0 <= k)%Z -> rd c k = Some v -> psum c (k + 1) = (psum c k + Z.abs v)%Z.
Proof.
  intros H E. unfold psum. replace (Z.to_nat (k + 1)) with (S (Z.to_nat k)) by lia. unfold rd in E. destruct (k <? 0)%Z; [discriminate|].
  revert E. generalize (Z.to_nat k). intros n. revert c. induction n as [|n IH]; intros [|x c] E; try discriminate E.
  - cbn in E. injection E as ->. cbn. lia.
  - cbn [nth_error] in E. specialize (IH _ E). cbn [firstn] in *. unfold pulses in *. cbn [fold_right] in *. lia.
Qed.
Lemma psum_le c k : (psum c k <= pulses c)%Z /\ (0 <= psum c k)%Z.
Proof.
  unfold psum. assert (P : forall l, (0 <= pulses l)%Z) by (induction l as [|x l IH]; unfold pulses in *; cbn [fold_right]; lia).
  assert (K : (pulses c = pulses (firstn (Z.to_nat k) c) + pulses (skipn (Z.to_nat k) c))%Z) by (rewrite <- pulses_app, firstn_skipn; reflexivity).
  pose proof (P (firstn (Z.to_nat k) c)). pose proof (P (skipn (Z.to_nat k) c)). lia.
Qed.
Lemma int_val z : (Z.abs z <= 2 ^ 24)%Z -> fin (f32_dy z 0) /\ val (f32_dy z 0) = IZR z.
Proof. intros H. destruct (dy_exact z 0 H ltac:(lia)) as (F & V). split; [exact F|]. rewrite V. change (p2 (- 0)) with 1. ring. Qed.
Section Gains.
Context (nan : Z).
Let fl := f32_ops nan.
Lemma normalize_val c shape : config_ok shape c ->
  exists cn, normalize fl c = Some cn /\ zlen cn = 16%Z /\ forall i v, rd c i = Some v -> exists w, rd cn i = Some w /\ fin w /\ Rabs (val w) <= IZR (Z.abs v).
Proof.
  intros K. destruct (config_pulses shape c K) as (P & L). unfold normalize.
  destruct (for_inv (fun k s => (0 <= s <= psum c k * 11)%Z /\ (psum c k <= s)%Z) (fun i s => do v <- rd c i; Some (s + v * v)%Z) 0 16 0%Z ltac:(lia)) as (s & -> & Hs).
  - unfold psum. cbn. lia.
  - intros i s Hi (H1 & H2). destruct (LoopProofs.rd_ok c i ltac:(lia)) as (v & E). rewrite E. cbn [bind]. eexists. split; [reflexivity|]. rewrite (psum_S c i v) by (lia || exact E).
    assert (Av : (Z.abs v <= 11)%Z). { pose proof (psum_S c i v ltac:(lia) E). pose proof (psum_le c (i + 1)). pose proof (psum_le c i). lia. }
    assert (v * v = Z.abs v * Z.abs v)%Z by (rewrite <- Z.abs_mul; symmetry; apply Z.abs_eq; nia). nia.
  - cbn [bind]. cbv zeta. assert (Ps : psum c 16 = pulses c) by (unfold psum; rewrite firstn_all2; [reflexivity|unfold zlen in L; lia]). rewrite Ps in Hs.
    destruct (int_val s ltac:(lia)) as (Fs & Vs). destruct (int_val 1 ltac:(lia)) as (F1 & V1). assert (S1 : 1 <= IZR s) by (apply IZR_le; lia).
    destruct (sqrt_fin (f32_dy s 0) Fs ltac:(rewrite Vs; lra)) as (Fq & Vq). rewrite Vs in Vq.
    assert (Q1 : 1 <= val (Bsqrt mode_NE (f32_dy s 0))).
    { rewrite Vq. apply round_ge_generic; try apply valid_rnd_N; [apply fexp_correct; reflexivity|change 1 with (p2 0); apply generic_format_bpow; cbn; lia|]. rewrite <- sqrt_1. apply sqrt_le_1_alt. lra. }
    assert (D1 : Rabs (val (f32_dy 1 0) / val (Bsqrt mode_NE (f32_dy s 0))) <= IZR 1 * p2 0).
    { rewrite V1. change (IZR 1 * p2 0) with (1 * 1). unfold Rdiv. rewrite Rabs_mult, Rabs_R1, Rmult_1_l, Rmult_1_l. rewrite Rabs_pos_eq by (left; apply Rinv_0_lt_compat; lra). apply Rle_trans with (/ 1); [apply Rinv_le; lra|lra]. }
    destruct (rnd_bnd _ _ _ (kok1 0 ltac:(unfold eok; lia)) D1) as (D2 & D3). destruct (div_val (f32_dy 1 0) (Bsqrt mode_NE (f32_dy s 0)) F1 ltac:(intros Q0; rewrite Q0 in Q1; lra) D3) as (Fd & Vd). rewrite <- Vd in D2. change (IZR 1 * p2 0) with (1 * 1) in D2. rewrite Rmult_1_l in D2.
    match goal with |- context [for_ 0 16 ?g ?st] => assert (B : exists l, for_ 0 16 g st = Some l /\ zlen l = 16%Z /\ forall i v, rd c i = Some v -> rd l i = Some (Mul (f32_dy v 0) (Div (f32_dy 1 0) (Bsqrt mode_NE (f32_dy s 0))))) end.
    { destruct (build_ok (fun i => do v <- rd c i; Some (Mul (f32_dy v 0) (Div (f32_dy 1 0) (Bsqrt mode_NE (f32_dy s 0))))) 0 16 [] ltac:(lia)) as (l & E & Ll & G).
      - intros i Hi. destruct (LoopProofs.rd_ok c i ltac:(lia)) as (v & ->). cbn [bind]. eauto.
      - exists l. split; [|split; [lia|]].
        + cbn [app] in E. rewrite <- E. apply for_ext. intros i t Hi. destruct (rd c i); reflexivity.
        + intros i v E1. assert (Hi : (0 <= i < 16)%Z) by (rewrite <- L; apply (rd_bounds c i v E1)). specialize (G i Hi). rewrite E1, Z.sub_0_r in G. exact G. }
    destruct B as (cn & -> & Lc & G). exists cn. split; [reflexivity|]. split; [exact Lc|]. intros i v E. eexists. split; [exact (G i v E)|].
    set (d := Div _ _) in *. clearbody d. assert (Av : (Z.abs v <= 11)%Z). { assert (Hi : (0 <= i < 16)%Z) by (rewrite <- L; apply (rd_bounds c i v E)). pose proof (psum_S c i v ltac:(lia) E). pose proof (psum_le c (i + 1)). pose proof (psum_le c i). lia. }
    destruct (int_val v ltac:(lia)) as (Fv & Vv). assert (M : Rabs (val (f32_dy v 0) * val d) <= IZR (Z.abs v) * p2 0).
    { rewrite Vv, Rabs_mult, abs_IZR. change (p2 0) with 1. apply Rmult_le_compat_l; [apply Rabs_pos|exact D2]. }
    assert (KK : kok (Z.abs v) 0) by (unfold kok; lia). destruct (rnd_bnd _ _ _ KK M) as (M2 & M3). destruct (mul_val _ _ Fv Fd M3) as (Fm & Vm). split; [exact Fm|]. rewrite Vm. change (p2 0) with 1 in M2. rewrite Rmult_1_r in M2. exact M2.
Qed.
Lemma dct_val c shape cn : config_ok shape c -> zlen cn = 16%Z -> (forall i v, rd c i = Some v -> exists w, rd cn i = Some w /\ fin w /\ Rabs (val w) <= IZR (Z.abs v)) ->
  exists y, dct16_inverse fl cn = Some y /\ zlen y = 16%Z /\ forall i, (0 <= i < 16)%Z -> exists v, rd y i = Some v /\ fin v /\ Rabs (val v) <= 3.88.
Proof.
  intros K L H. destruct (config_pulses shape c K) as (P & Lc).
  set (row := fun i => for_ 0 16 (fun j v => do xj <- rd cn j; do r <- rd dct16_m i; do m <- rd r j; Some (f_add fl v (f_mul fl xj (f_dy fl m 28)))) (f_z fl 0)).
  assert (R : forall i, (0 <= i < 16)%Z -> exists v, row i = Some v /\ fin v /\ Rabs (val v) <= 3.88).
  { intros i Hi. unfold row.
    destruct (for_inv (fun j v => fin v /\ Rabs (val v) <= 0.3519 * IZR (psum c j) + 0.0001 * IZR j) (fun j v => do xj <- rd cn j; do r <- rd dct16_m i; do m <- rd r j; Some (f_add fl v (f_mul fl xj (f_dy fl m 28)))) 0 16 (f_z fl 0) ltac:(lia)) as (v & E & F & B).
    - destruct (int_val 0 ltac:(lia)) as (F & V). split; [exact F|]. change (f_z fl 0) with (f32_dy 0 0). rewrite V, Rabs_R0. unfold psum. cbn. lra.
    - intros j v Hj (F & B). destruct (LoopProofs.rd_ok c j ltac:(lia)) as (cj & Ec). destruct (H j cj Ec) as (w & Ew & Fw & Bw). destruct (mat_rd 16 16 dct16_m i j dct_mat Hi Hj) as (r & m & E1 & E2). rewrite Ew, E1. cbn [bind]. rewrite E2. cbn [bind].
      eexists. split; [reflexivity|]. pose proof (tab_max_ok _ _ _ _ _ _ dct_max E1 E2) as Bm. rewrite (psum_S c j cj) by (lia || exact Ec). rewrite !plus_IZR.
      destruct (dy_b m 28 0.351851 0.3519) as (Fm & Vm); try lra.
      { rewrite Rabs_mult, <- abs_IZR. apply IZR_le in Bm. change (p2 (- (28))) with (/ 268435456). rewrite (Rabs_pos_eq (/ _)) by lra. lra. }
      assert (Pj : 0 <= IZR (psum c j) /\ IZR (psum c j) + IZR (Z.abs cj) <= 11).
      { pose proof (psum_S c j cj ltac:(lia) Ec). pose proof (psum_le c (j + 1)). pose proof (psum_le c j). rewrite <- plus_IZR. split; apply IZR_le; lia. }
      assert (A0 : 0 <= IZR (Z.abs cj)) by (apply IZR_le; lia). assert (J0 : 0 <= IZR j <= 15) by (split; apply IZR_le; lia).
      set (a := IZR (Z.abs cj)) in *. set (p := IZR (psum c j)) in *. set (jj := IZR j) in *. clearbody a p jj.
      destruct (mul_b w (f32_dy m 28) a 0.3519 (0.3519 * a + 0.00001) Fw Fm Bw Vm ltac:(lra) ltac:(lra)) as (F2 & B2).
      apply (add_b v (Mul w (f32_dy m 28)) (0.3519 * p + 0.0001 * jj) (0.3519 * a + 0.00001)); try assumption; lra.
    - exists v. split; [exact E|]. split; [exact F|]. assert (Ps : psum c 16 = pulses c) by (unfold psum; rewrite firstn_all2; [reflexivity|unfold zlen in Lc; lia]). rewrite Ps in B. assert (IZR (pulses c) <= 11) by (apply IZR_le; lia). lra. }
  unfold dct16_inverse. destruct (build_ok row 0 16 [] ltac:(lia)) as (y & E & Ly & G).
  - intros i Hi. destruct (R i Hi) as (v & -> & _). eauto.
  - exists y. split; [exact E|]. split; [lia|]. intros i Hi. destruct (R i Hi) as (v & Ev & F & B). exists v. specialize (G i Hi). rewrite Z.sub_0_r in G. rewrite G. auto.
Qed.
(** The scale factors. *)
Definition scf_bound (scf : list f32) : Prop := forall i, (0 <= i < 16)%Z -> exists v, rd scf i = Some v /\ fin v /\ Rabs (val v) <= 25.
Lemma unquantize_val lf hf cn shape gain y : (0 <= lf < 32)%Z -> (0 <= hf < 32)%Z -> (0 <= shape < 4)%Z -> (0 <= gain < sns_ngains shape)%Z ->
  dct16_inverse fl cn = Some y -> zlen y = 16%Z -> (forall i, (0 <= i < 16)%Z -> exists v, rd y i = Some v /\ fin v /\ Rabs (val v) <= 3.88) ->
  exists scf, SnsModel.unquantize fl lf hf cn shape gain = Some scf /\ scf_bound scf.
Proof.
  intros Hl Hh Hs Hg Ey Ly Hy. unfold SnsModel.unquantize. destruct (mat_row 32 8 sns_lfcb lf lfcb_mat Hl) as (lfcb & El & Ll). destruct (mat_row 32 8 sns_hfcb hf hfcb_mat Hh) as (hfcb & Eh & Lh). rewrite El, Eh.
  cbn [bind]. destruct (gains_ok shape Hs) as (g & Eg & G1 & G2 & G3). rewrite Eg. cbn [bind]. destruct (LoopProofs.rd_ok (snd g) gain ltac:(lia)) as (gv & Egv). rewrite Egv. cbn [bind]. rewrite Ey. cbn [bind].
  assert (Bg : (Z.abs gv <= 21014)%Z).
  { apply (tab_max_ok (map snd sns_vq_gains) 21014 shape gain (snd g)); [exact gain_max| |exact Egv]. unfold rd in *. destruct (shape <? 0)%Z; [discriminate|]. rewrite nth_error_map, Eg. reflexivity. }
  destruct (dy_b gv 12 5.1304 5.1305) as (Fg & Vg); try lra. { rewrite Rabs_mult, <- abs_IZR. apply IZR_le in Bg. change (p2 (- (12))) with (/ 4096). rewrite (Rabs_pos_eq (/ _)) by lra. lra. }
  assert (ST : forall c v, (Z.abs c <= 20731717632)%Z -> fin v -> Rabs (val v) <= 3.88 -> fin (Add (f32_dy c 32) (Mul (f32_dy gv 12) v)) /\ Rabs (val (Add (f32_dy c 32) (Mul (f32_dy gv 12) v))) <= 25).
  { intros c v Hc Fv Bv. destruct (dy_b c 32 4.827 4.8271) as (Fc & Vc); try lra.
    { rewrite Rabs_mult, <- abs_IZR. apply IZR_le in Hc. change (p2 (- (32))) with (/ 4294967296). rewrite (Rabs_pos_eq (/ _)) by lra. lra. }
    destruct (mul_b (f32_dy gv 12) v 5.1305 3.88 19.91 Fg Fv Vg Bv ltac:(lra) ltac:(lra)) as (F2 & B2). apply (add_b _ _ 4.8271 19.91); try assumption; lra. }
  set (I := fun k (l : list f32) => zlen l = 16%Z /\ (forall i, (0 <= i < k)%Z -> exists v, rd l i = Some v /\ fin v /\ Rabs (val v) <= 25) /\ forall i, (k <= i < 16)%Z -> exists v, rd l i = Some v /\ fin v /\ Rabs (val v) <= 3.88).
  assert (STEP : forall k l c, (0 <= k < 16)%Z -> I k l -> (Z.abs c <= 20731717632)%Z -> exists v, rd l k = Some v /\ I (k + 1)%Z (upd l k (Add (f32_dy c 32) (Mul (f32_dy gv 12) v)))).
  { intros k l c Hk (I1 & I2 & I3) Hc. destruct (I3 k ltac:(lia)) as (v & Ev & Fv & Bv). exists v. split; [exact Ev|]. split; [rewrite upd_len; exact I1|]. split.
    - intros i Hi. rewrite rd_upd by lia. destruct (Z.eqb_spec k i); [eexists; split; [reflexivity|]; apply ST; assumption|]. apply I2. lia.
    - intros i Hi. rewrite rd_upd by lia. destruct (Z.eqb_spec k i); [lia|]. apply I3. lia. }
  match goal with |- context [for_ 0 8 ?g ?st] => destruct (for_inv I g 0 8 st ltac:(lia)) as (a & -> & Ia) end.
  - split; [exact Ly|]. split; [intros; lia|exact Hy].
  - intros i l Hi Hl0. destruct (LoopProofs.rd_ok lfcb i ltac:(lia)) as (c & Ec). rewrite Ec. destruct (STEP i l c ltac:(lia) Hl0 (tab_max_ok _ _ _ _ _ _ lf_max El Ec)) as (v & -> & S). cbn [bind]. rewrite wr_ok by (destruct Hl0; lia). eexists. split; [reflexivity|]. exact S.
  - cbn [bind]. match goal with |- context [for_ 8 16 ?g ?st] => destruct (for_inv I g 8 16 st ltac:(lia) Ia) as (b & -> & Ib) end.
    + intros i l Hi Hl0. destruct (LoopProofs.rd_ok hfcb (i - 8) ltac:(lia)) as (c & Ec). rewrite Ec. destruct (STEP i l c ltac:(lia) Hl0 (tab_max_ok _ _ _ _ _ _ hf_max Eh Ec)) as (v & -> & S). cbn [bind]. rewrite wr_ok by (destruct Hl0; lia). eexists. split; [reflexivity|]. exact S.
    + exists b. split; [reflexivity|]. destruct Ib as (_ & I2 & _). exact I2.
Qed.
Lemma decoded_val d : sns_ok d -> exists scf, decoded_scf fl d = Some scf /\ scf_bound scf.
Proof.
  intros (H1 & H2 & H3 & H4 & H5 & H6 & H7). unfold decoded_scf.
  destruct (deenumerate_ok (s_shape d) (s_idx_a d) (s_ls_a d =? 1)%Z (s_idx_b d) (s_ls_b d =? 1)%Z H3 H5) as (c & -> & K & _); [intros A; apply H7; exact A|]. cbn [bind].
  destruct (normalize_val c _ K) as (cn & -> & L & G). cbn [bind]. destruct (dct_val c _ cn K L G) as (y & Ey & Ly & Gy). exact (unquantize_val _ _ cn _ _ y H1 H2 H3 H4 Ey Ly Gy).
Qed.

(** ** The scale factors of the bands, and of the opposite ones *)
Definition neg (B : R) (x y : f32) : Prop := fin x /\ fin y /\ val y = - val x /\ Rabs (val x) <= B.
Lemma rnd_opp r : rnd32 (- r) = - rnd32 r. Proof. apply round_NE_opp. Qed.
Lemma neg_add A B C x y x' y' : neg A x x' -> neg B y y' -> A + B <= 1000 -> (A + B) * 1.0000001 + / 1000000000000 <= C -> neg C (Add x y) (Add x' y').
Proof.
  intros (F1 & F2 & V1 & B1) (F3 & F4 & V3 & B3) L HC. destruct (add_b x y A B C F1 F3 B1 B3 L HC) as (Fa & Ba). destruct (add_b x' y' A B C F2 F4 ltac:(rewrite V1, Rabs_Ropp; exact B1) ltac:(rewrite V3, Rabs_Ropp; exact B3) L HC) as (Fb & Bb).
  split; [exact Fa|]. split; [exact Fb|]. split; [|exact Ba]. pose proof big60 as K.
  assert (O : forall u v : f32, fin u -> fin v -> Rabs (val u) <= A -> Rabs (val v) <= B -> val (Add u v) = rnd32 (val u + val v)).
  { intros u v Fu Fv Bu Bv. destruct (rnd_near (val u + val v) (A + B)) as (R1 & _); [eapply Rle_trans; [apply Rabs_triang|lra]|lra|]. apply add_val; assumption. }
  rewrite (O x y), (O x' y'); try assumption; try (rewrite ?V1, ?V3, Rabs_Ropp; assumption). rewrite V1, V3. rewrite <- Ropp_plus_distr. apply rnd_opp.
Qed.
Lemma neg_sub A B C x y x' y' : neg A x x' -> neg B y y' -> A + B <= 1000 -> (A + B) * 1.0000001 + / 1000000000000 <= C -> neg C (Sub x y) (Sub x' y').
Proof.
  intros (F1 & F2 & V1 & B1) (F3 & F4 & V3 & B3) L HC. pose proof big60 as K.
  assert (O : forall u v : f32, fin u -> fin v -> Rabs (val u) <= A -> Rabs (val v) <= B -> fin (Sub u v) /\ val (Sub u v) = rnd32 (val u - val v) /\ Rabs (val (Sub u v)) <= C).
  { intros u v Fu Fv Bu Bv. assert (D : Rabs (val u - val v) <= A + B) by (unfold Rminus; eapply Rle_trans; [apply Rabs_triang|rewrite Rabs_Ropp; lra]). destruct (rnd_near (val u - val v) (A + B) D ltac:(lra)) as (R1 & R2).
    destruct (sub_val u v Fu Fv R1) as (F & V). split; [exact F|]. split; [exact V|]. rewrite V. replace (rnd32 (val u - val v)) with ((val u - val v) + (rnd32 (val u - val v) - (val u - val v))) by ring. eapply Rle_trans; [apply Rabs_triang|].
    pose proof (Rabs_pos (val u)). pose proof (Rabs_pos (val v)). lra. }
  destruct (O x y F1 F3 B1 B3) as (Oa & Ob & Oc). destruct (O x' y' F2 F4 ltac:(rewrite V1, Rabs_Ropp; exact B1) ltac:(rewrite V3, Rabs_Ropp; exact B3)) as (Od & Oe & _).
  split; [exact Oa|]. split; [exact Od|]. split; [|exact Oc]. rewrite Ob, Oe, V1, V3. replace (- val x - - val y) with (- (val x - val y)) by ring. apply rnd_opp.
Qed.
Lemma neg_mul A B C k y y' : fin k -> Rabs (val k) <= A -> neg B y y' -> A * B <= 1000 -> A * B * 1.0000001 + / 1000000000000 <= C -> neg C (Mul k y) (Mul k y').
Proof.
  intros Fk Bk (F3 & F4 & V3 & B3) L HC. destruct (mul_b k y A B C Fk F3 Bk B3 L HC) as (Fa & Ba). destruct (mul_b k y' A B C Fk F4 Bk ltac:(rewrite V3, Rabs_Ropp; exact B3) L HC) as (Fb & Bb).
  split; [exact Fa|]. split; [exact Fb|]. split; [|exact Ba]. pose proof big60 as K.
  assert (O : forall v : f32, fin v -> Rabs (val v) <= B -> val (Mul k v) = rnd32 (val k * val v)).
  { intros v Fv Bv. assert (D : Rabs (val k * val v) <= A * B) by (rewrite Rabs_mult; apply Rmult_le_compat; auto using Rabs_pos). destruct (rnd_near _ _ D ltac:(lra)) as (R1 & _). apply mul_val; assumption. }
  rewrite (O y), (O y'); try assumption; try (rewrite V3, Rabs_Ropp; assumption). rewrite V3, Ropp_mult_distr_r_reverse. apply rnd_opp.
Qed.
Lemma neg_lin a b d a' b' d' c : neg 25 a a' -> neg 25 b b' -> neg 25 d d' -> (0 <= c <= 7)%Z ->
  neg 69 (Add a (Mul (f32_dy c 3) (Sub b d))) (Add a' (Mul (f32_dy c 3) (Sub b' d'))).
Proof.
  intros Ha Hb Hd Hc. destruct (dy_exact c 3 ltac:(lia) ltac:(lia)) as (Fc & Vc). assert (Bc : Rabs (val (f32_dy c 3)) <= 0.875).
  { rewrite Vc. change (p2 (- (3))) with (/ 8). assert (0 <= IZR c <= 7) by (split; apply IZR_le; lia). rewrite Rabs_pos_eq; lra. }
  apply (neg_add 25 43.8); try lra; [exact Ha|]. apply (neg_mul 0.875 50.01); try lra; try assumption. apply (neg_sub 25 25); try lra; assumption.
Qed.
Lemma interp_neg q : (forall i, (0 <= i < 16)%Z -> fin (q i) /\ Rabs (val (q i)) <= 25) -> forall j, (0 <= j < 64)%Z -> neg 69 (interp_at fl q j) (interp_at fl (fun i => f_opp fl (q i)) j).
Proof.
  intros H j Hj. assert (N : forall i, (0 <= i < 16)%Z -> neg 25 (q i) (f_opp fl (q i))).
  { intros i Hi. destruct (H i Hi) as (F & B). split; [exact F|]. split; [unfold fin; cbn; rewrite is_finite_Bopp; exact F|]. split; [apply B2R_Bopp|exact B]. }
  unfold interp_at. cbv zeta. destruct (Z.ltb_spec j 2); [destruct (N 0%Z ltac:(lia)) as (A1 & A2 & A3 & A4); split; [exact A1|]; split; [exact A2|]; split; [exact A3|lra]|].
  destruct (Z.ltb_spec j 62).
  - assert (Hk : (0 <= (j - 2) / 4 < 15)%Z) by (Z.div_mod_to_equations; lia). assert (Hm : (0 <= (j - 2) mod 4 < 4)%Z) by (apply Z.mod_pos_bound; lia). apply neg_lin; try (apply N); lia.
  - apply neg_lin; try (apply N); lia.
Qed.
Lemma band_neg nb q : (forall i, (0 <= i < 16)%Z -> fin (q i) /\ Rabs (val (q i)) <= 25) -> (20 <= nb <= 64)%Z -> forall b, (0 <= b < nb)%Z -> neg 70 (band_scf fl nb q false b) (band_scf fl nb q true b).
Proof.
  intros H Hn b Hb. destruct (pad_facts nb Hn) as (P1 & P2 & P3 & P4). unfold band_scf. set (f := interp_at fl (fun i => q i)). set (f' := interp_at fl (fun i => f_opp fl (q i))).
  assert (I : forall j, (0 <= j < 64)%Z -> neg 69 (f j) (f' j)) by (intros j Hj; exact (interp_neg q H j Hj)). clearbody f f'. unfold fold_at. cbv zeta.
  generalize dependent (pad_n4 nb). intros n4. generalize dependent (pad_n2 nb). intros n2 P1 P2 P3 P4.
  destruct (dy_exact 1 2 ltac:(lia) ltac:(lia)) as (F2 & V2). destruct (dy_exact 1 1 ltac:(lia) ltac:(lia)) as (F1 & V1). change (p2 (- (2))) with (/ 4) in V2. change (p2 (- (1))) with (/ 2) in V1.
  destruct (Z.ltb_spec b n4).
  - apply (neg_mul 0.25 276.001); try lra; [exact F2|change (Rabs (val (f32_dy 1 2)) <= 0.25); rewrite V2; rewrite Rabs_pos_eq; lra|]. apply (neg_add 207.0005 69); try lra; [|apply I; lia]. apply (neg_add 138.0001 69); try lra; [|apply I; lia]. apply (neg_add 69 69); try lra; apply I; lia.
  - destruct (Z.ltb_spec b (n4 + n2)).
    + apply (neg_mul 0.5 138.0001); try lra; [exact F1|change (Rabs (val (f32_dy 1 1)) <= 0.5); rewrite V1; rewrite Rabs_pos_eq; lra|]. apply (neg_add 69 69); try lra; apply I; lia.
    + destruct (I (3 * n4 + n2 + b)%Z ltac:(lia)) as (A1 & A2 & A3 & A4). split; [exact A1|]. split; [exact A2|]. split; [exact A3|lra].
Qed.

(** ** The gains of the encoder and of the decoder *)
Lemma p2_rpower e : p2 e = Rpower 2 (IZR e). Proof. unfold Rpower. rewrite bpow_exp. reflexivity. Qed.
Lemma gain_val s : fin s -> Rabs (val s) <= 70 -> fin (band_gain fl s) /\ p2 (-71) <= val (band_gain fl s) <= p2 71 /\ Rabs (val (band_gain fl s) - Rpower 2 (- val s)) <= 0.0000003 * Rpower 2 (- val s).
Proof.
  intros F B. change (band_gain fl s) with (exp2_32 nan (Bopp s)). assert (F2 : fin (Bopp s)) by (unfold fin; rewrite is_finite_Bopp; exact F). assert (V2 : val (Bopp s) = - val s) by apply B2R_Bopp.
  destruct (exp2_near nan (Bopp s) F2) as (A & C). { rewrite V2, Rabs_Ropp. lra. } rewrite V2 in C. split; [exact A|]. split; [|exact C]. apply Rabs_le_inv in B. apply Rabs_le_inv in C.
  assert (L : p2 (-70) <= Rpower 2 (- val s)) by (rewrite p2_rpower; apply Rle_Rpower; lra). assert (U : Rpower 2 (- val s) <= p2 70) by (rewrite p2_rpower; apply Rle_Rpower; lra).
  change (-71)%Z with (-1 + -70)%Z. change 71%Z with (1 + 70)%Z. rewrite !bpow_plus. change (p2 (-1)) with (/ 2). change (p2 1) with 2. assert (0 < p2 (-70)) by apply bpow_gt_0. lra.
Qed.
Lemma rt_eq : rt = p2 (-150). Proof. reflexivity. Qed.
Lemma two_gains v s s' : fin v -> Rabs (val v) <= p2 50 -> neg 70 s s' ->
  let w := Mul v (band_gain fl s) in let z := Mul w (band_gain fl s') in
  fin w /\ fin z /\ Rabs (val w - val v * Rpower 2 (- val s)) <= 0.0000004 * Rabs (val v * Rpower 2 (- val s)) + p2 (-149) /\ Rabs (val z - val v) <= / 1000000 * Rabs (val v) + p2 (-77).
Proof.
  intros Fv Bv (Fs & Fs' & Vs & Bs) w z. destruct (gain_val s Fs Bs) as (F1 & (L1 & U1) & C1). destruct (gain_val s' Fs' ltac:(rewrite Vs, Rabs_Ropp; exact Bs)) as (F2 & (L2 & U2) & C2). rewrite Vs, Ropp_involutive in C2.
  assert (P71 : 0 < p2 (-71)) by apply bpow_gt_0. set (g1 := band_gain fl s) in *. set (g2 := band_gain fl s') in *. pose proof ru_b as RU. pose proof rt_eq as RT.
  assert (M1 : Rabs (val v * val g1) <= IZR 1 * p2 121). { rewrite Rabs_mult, (Rabs_pos_eq (val g1)), Rmult_1_l by lra. change 121%Z with (50 + 71)%Z. rewrite bpow_plus. apply Rmult_le_compat; try apply Rabs_pos; lra. }
  assert (R1 : Rabs (rnd32 (val v * val g1)) < p2 128). { apply Rle_lt_trans with (p2 121); [|apply bpow_lt; lia]. rewrite Rmult_1_l in M1. apply abs_round_le_generic; try apply valid_rnd_N; [apply fexp_correct; reflexivity|apply generic_format_bpow; cbn; lia|exact M1]. }
  destruct (mul_val v g1 Fv F1 R1) as (Fw & Vw). fold w in Fw, Vw. pose proof (rnd_err (val v * val g1)) as E1. rewrite <- Vw in E1.
  assert (PQ : Rpower 2 (- val s) * Rpower 2 (val s) = 1) by (rewrite <- Rpower_plus, Rplus_opp_l; apply Rpower_O; lra).
  assert (Pp : 0 < Rpower 2 (- val s)) by apply exp_pos. assert (Pq : 0 < Rpower 2 (val s)) by apply exp_pos. set (p := Rpower 2 (- val s)) in *. set (q := Rpower 2 (val s)) in *.
  assert (Q70 : q <= p2 70) by (unfold q; rewrite p2_rpower; apply Rabs_le_inv in Bs; apply Rle_Rpower; lra).
  assert (T150 : p2 (-150) <= p2 (-149)) by (apply bpow_le; lia). assert (T0 : 0 < p2 (-150)) by apply bpow_gt_0.
  set (x := val v) in *. set (a := val g1) in *. set (b := val g2) in *. clearbody p q.
  assert (DW : Rabs (val w - x * p) <= 0.0000003700001 * (Rabs x * p) + p2 (-150)).
  { replace (val w - x * p) with ((val w - x * a) + x * (a - p)) by ring. eapply Rle_trans; [apply Rabs_triang|].
    assert (K1 : Rabs (x * (a - p)) <= Rabs x * (0.0000003 * p)) by (rewrite Rabs_mult; apply Rmult_le_compat_l; [apply Rabs_pos|exact C1]).
    assert (K2 : Rabs (x * a) <= Rabs x * (1.0000003 * p)). { rewrite Rabs_mult. apply Rmult_le_compat_l; [apply Rabs_pos|]. rewrite Rabs_pos_eq by lra. apply Rabs_le_inv in C1. lra. }
    assert (K3 : ru * Rabs (x * a) <= / 16000000 * (Rabs x * (1.0000003 * p))) by (apply Rmult_le_compat; [lra|apply Rabs_pos|lra|exact K2]). set (X := Rabs x) in *. assert (0 <= X * p) by (apply Rmult_le_pos; [apply Rabs_pos|lra]). rewrite RT in E1. lra. }
  assert (BW : Rabs (val w) <= p2 121). { rewrite Vw. rewrite Rmult_1_l in M1. apply abs_round_le_generic; try apply valid_rnd_N; [apply fexp_correct; reflexivity|apply generic_format_bpow; cbn; lia|exact M1]. }
  (* the second product *)
  assert (X50 : Rabs x * (p * q) <= p2 50) by (rewrite PQ, Rmult_1_r; exact Bv).
  assert (BQ : 0 <= b <= 1.0000003 * q) by (apply Rabs_le_inv in C2; lra).
  assert (DB : Rabs (val w * b - x) <= 0.00000069 * Rabs x + 1.001 * p2 (-80)).
  { replace (val w * b - x) with ((val w - x * p) * b + x * p * (b - q) + x * (p * q - 1)) by ring. rewrite PQ. replace (x * (1 - 1)) with 0 by ring. rewrite Rplus_0_r. eapply Rle_trans; [apply Rabs_triang|].
    assert (K1 : Rabs ((val w - x * p) * b) <= (0.0000003700001 * (Rabs x * p) + p2 (-150)) * (1.0000003 * q)). { rewrite Rabs_mult, (Rabs_pos_eq b) by lra. apply Rmult_le_compat; try apply Rabs_pos; try lra; exact DW. }
    assert (K2 : Rabs (x * p * (b - q)) <= Rabs x * p * (0.0000003 * q)). { rewrite !Rabs_mult, (Rabs_pos_eq p) by lra. apply Rmult_le_compat_l; [apply Rmult_le_pos; [apply Rabs_pos|lra]|exact C2]. }
    assert (K3 : p2 (-150) * q <= p2 (-80)). { replace (p2 (-80)) with (p2 (-150) * p2 70) by (rewrite <- bpow_plus; reflexivity). apply Rmult_le_compat_l; lra. }
    replace ((0.0000003700001 * (Rabs x * p) + p2 (-150)) * (1.0000003 * q)) with (0.0000003700001 * 1.0000003 * (Rabs x * (p * q)) + 1.0000003 * (p2 (-150) * q)) in K1 by ring. replace (Rabs x * p * (0.0000003 * q)) with (0.0000003 * (Rabs x * (p * q))) in K2 by ring. rewrite PQ, Rmult_1_r in K1, K2. pose proof (Rabs_pos x). assert (0 <= p2 (-80)) by apply bpow_ge_0. lra. }
  assert (P80 : p2 (-80) <= 1). { change 1 with (p2 0). apply bpow_le. lia. } assert (P50 : 1 <= p2 50) by (change 1 with (p2 0); apply bpow_le; lia).
  assert (M2 : Rabs (val w * b) <= p2 52). { replace (val w * b) with (x + (val w * b - x)) by ring. eapply Rle_trans; [apply Rabs_triang|]. change 52%Z with (2 + 50)%Z. rewrite bpow_plus. change (p2 2) with 4. lra. }
  assert (R2 : Rabs (rnd32 (val w * b)) < p2 128). { apply Rle_lt_trans with (p2 52); [|apply bpow_lt; lia]. apply abs_round_le_generic; try apply valid_rnd_N; [apply fexp_correct; reflexivity|apply generic_format_bpow; cbn; lia|exact M2]. }
  destruct (mul_val w g2 Fw F2 R2) as (Fz & Vz). fold z in Fz, Vz. fold b in Vz. pose proof (rnd_err (val w * b)) as E2. rewrite <- Vz, RT in E2.
  split; [exact Fw|]. split; [exact Fz|]. split.
  - rewrite Rabs_mult, (Rabs_pos_eq p) by lra. assert (0 <= Rabs x * p) by (apply Rmult_le_pos; [apply Rabs_pos|lra]). lra.
  - assert (K : ru * Rabs (val w * b) <= / 16000000 * (1.000001 * Rabs x + 1.001 * p2 (-80))).
    { apply Rmult_le_compat; [lra|apply Rabs_pos|lra|]. replace (val w * b) with (x + (val w * b - x)) by ring. eapply Rle_trans; [apply Rabs_triang|]. pose proof (Rabs_pos x). lra. }
    assert (P77 : p2 (-77) = 8 * p2 (-80)) by (change (-77)%Z with (3 + -80)%Z; rewrite bpow_plus; reflexivity). assert (T80 : p2 (-150) <= p2 (-80)) by (apply bpow_le; lia). assert (0 < p2 (-80)) by apply bpow_gt_0. rewrite P77.
    replace (val z - x) with ((val z - val w * b) + (val w * b - x)) by ring. eapply Rle_trans; [apply Rabs_triang|]. pose proof (Rabs_pos x). lra.
Qed.
End Gains.
