(** * Spectral noise shaping in exact arithmetic *)
From Coq Require Import ZArith Reals List Bool Lia Lra.
From Verif Require Import Base ConfigModel SideModel SideSpec ShapeTables FloatOps LoopProofs RealOps TnsProofs BandModel BandProofs SnsModel SnsProofs SnsShape SnsMain SnsFloat.
Import ListNotations.
Local Open Scope R_scope.

(** ** Projection *)
Definition rs (l : list R) : R := fold_right Rplus 0 l.
Lemma rs_pos l : Forall (fun v => 0 <= v) l -> 0 <= rs l.
Proof. induction 1 as [|v l H _ IH]; unfold rs in *; cbn [fold_right] in *; lra. Qed.
Lemma fold_rs l : forall s, fold_left (f_add Rops) l s = s + rs l.
Proof. induction l as [|v l IH]; intros s; unfold rs in *; cbn [fold_left fold_right]; [lra|]. rewrite IH. cbn [f_add Rops]. lra. Qed.

Lemma int_part_pos r : 0 <= r -> (0 <= Int_part r)%Z /\ IZR (Int_part r) <= r.
Proof.
  intros H. destruct (base_Int_part r) as (A & B). split; [|exact A]. apply Z.lt_succ_r. apply lt_IZR. rewrite succ_IZR. lra.
Qed.

Lemma R_analysis_ok junk dt sr nbytes eb att : tns_cfg dt sr -> zlen eb = num_bands dt sr -> analysis_ok Rops junk dt sr nbytes eb att.
Proof.
  intros C L scf lf hf E Hl Hh lfcb hfcb r x xm s El Eh Er Ex Em.
  destruct (compute_ok Rops junk dt sr nbytes eb att C L) as (scf' & E' & Ls). rewrite E in E'. apply some_inj in E'. subst scf'.
  destruct (mat_row 32 8 sns_lfcb lf lfcb_mat Hl) as (c & Ec & Ll). rewrite El in Ec. injection Ec as <-.
  destruct (mat_row 32 8 sns_hfcb hf hfcb_mat Hh) as (c & Ec & Lh). rewrite Eh in Ec. injection Ec as <-.
  destruct (residual_ok Rops scf lfcb hfcb Ls Ll Lh) as (r' & Er' & Lr). rewrite Er in Er'. apply some_inj in Er'. subst r'.
  destruct (dct16_forward_ok Rops r Lr) as (x' & Ex' & Lx). rewrite Ex in Ex'. apply some_inj in Ex'. subst x'.
  destruct (magnitudes_eq Rops x xm s Lx Em) as (Lm & Exm & Es). clear Em Ex Er E. rewrite fold_rs, Rops_z in Es.
  assert (P : Forall (fun v => 0 <= v) xm).
  { rewrite Exm. apply Forall_forall. intros v Hv. apply in_map_iff in Hv as (w & <- & _). cbn [f_abs Rops]. apply Rabs_pos. }
  assert (T : 0 < IZR 8507059 / powerRZ 2 126) by (apply Rdiv_lt_0_compat; [apply IZR_lt; lia|apply powerRZ_lt; lra]).
  set (m := Rmax s (IZR 8507059 / powerRZ 2 126)). assert (M1 : s <= m) by apply Rmax_l. assert (M0 : 0 < m) by (eapply Rlt_le_trans; [exact T|apply Rmax_r]).
  set (pf := 5 / m). assert (P0 : 0 < pf) by (apply Rdiv_lt_0_compat; lra).
  assert (W : forall l, Forall (fun v => 0 <= v) l -> nonneg (map (fun v => Int_part (v * pf)) l) /\ IZR (zsum (map (fun v => Int_part (v * pf)) l)) <= pf * rs l).
  { induction 1 as [|v l Hv Hl' (IH1 & IH2)]; [split; [constructor|cbn; unfold rs; cbn; lra]|]. cbn [map]. destruct (int_part_pos (v * pf)) as (A1 & A2); [apply Rmult_le_pos; lra|].
    split; [constructor; assumption|]. unfold zsum, rs. cbn [fold_right]. fold (zsum (map (fun v => Int_part (v * pf)) l)). fold (rs l). rewrite plus_IZR. lra. }
  destruct (W xm P) as (W1 & W2). exists (map (fun v => Int_part (v * pf)) xm). unfold zlen in *. rewrite map_length. spl; [exact Lm|exact W1| |].
  - enough (zsum (map (fun v => Int_part (v * pf)) xm) < 6)%Z by lia. apply lt_IZR. eapply Rle_lt_trans; [exact W2|]. apply Rle_lt_trans with (pf * m); [apply Rmult_le_compat_l; [lra|]; lra|].
    unfold pf, Rdiv. rewrite Rmult_assoc, Rinv_l by lra. lra.
  - intros i v Hi Hv. unfold rd in *. destruct (i <? 0)%Z eqn:D; [lia|]. rewrite nth_error_map, Hv. cbn [option_map]. rewrite Rops_z. reflexivity.
Qed.

(** ** Shaping *)
Lemma interp_opp q j : interp_at Rops (fun i => f_opp Rops (q i)) j = - interp_at Rops q j.
Proof. unfold interp_at. cbv zeta. destruct (j <? 2)%Z; [reflexivity|]. destruct (j <? 62)%Z; cbn [f_add f_sub f_mul f_opp Rops]; ring. Qed.

Lemma fold_opp nb f g b : (forall j, f j = - g j) -> fold_at Rops nb f b = - fold_at Rops nb g b.
Proof. intros H. unfold fold_at. cbv zeta. destruct (b <? pad_n4 nb)%Z; [|destruct (b <? pad_n4 nb + pad_n2 nb)%Z]; cbn [f_add f_mul Rops]; rewrite ?H; ring. Qed.

Lemma band_scf_opp nb q b : band_scf Rops nb q true b = - band_scf Rops nb q false b.
Proof. unfold band_scf. apply fold_opp. intros j. apply interp_opp. Qed.

Lemma gains_inverse nb q b : band_gain Rops (band_scf Rops nb q false b) * band_gain Rops (band_scf Rops nb q true b) = 1.
Proof.
  rewrite band_scf_opp. unfold band_gain. cbn [f_exp2 f_opp Rops]. rewrite <- Rpower_plus.
  match goal with |- Rpower 2 ?a = 1 => replace a with 0 by ring end. apply Rpower_O. lra.
Qed.

(** ** Best entry of a codebook *)
(** Square distance of 8 values of l, from o, to a vector of a codebook. *)
Definition dist2 (l : list R) (o : Z) (cb : list Z) : R :=
  fold_right Rplus 0 (map (fun i => (nth (Z.to_nat (o + i)) l 0 - IZR (nth (Z.to_nat i) cb 0%Z) / 2 ^ 32) ^ 2) [0; 1; 2; 3; 4; 5; 6; 7]%Z).

Lemma p32 : powerRZ 2 32 = 2 ^ 32. Proof. reflexivity. Qed.

Lemma for8 {S} (f : Z -> S -> option S) s : for_ 0 8 f s = bind (f 0%Z s) (fun s => bind (f 1%Z s) (fun s => bind (f 2%Z s) (fun s => bind (f 3%Z s) (fun s => bind (f 4%Z s) (fun s => bind (f 5%Z s) (fun s => bind (f 6%Z s) (fun s => bind (f 7%Z s) Some))))))).
Proof. reflexivity. Qed.

Lemma cb_dist_R scf cb o : zlen cb = 8%Z -> (0 <= o)%Z -> (o + 8 <= zlen scf)%Z -> cb_dist Rops scf cb o = Some (dist2 scf o cb).
Proof.
  intros Lc Ho Ls. unfold cb_dist. rewrite for8.
  assert (H : forall i d, (0 <= i < 8)%Z -> (do s <- rd scf (o + i); do c <- rd cb i; Some (f_add Rops d (f_mul Rops (f_sub Rops s (f_dy Rops c 32)) (f_sub Rops s (f_dy Rops c 32))))) =
    Some (d + (nth (Z.to_nat (o + i)) scf 0 - IZR (nth (Z.to_nat i) cb 0%Z) / 2 ^ 32) ^ 2)).
  { intros i d Hi. rewrite (rd_nth scf (o + i) 0) by lia. cbn [bind]. rewrite (rd_nth cb i 0%Z) by lia. cbn [bind]. f_equal. rewrite Rops_dy, p32. cbn [f_add f_mul f_sub Rops]. ring. }
  do 8 (rewrite H by lia; cbn [bind]). f_equal. rewrite Rops_z. unfold dist2. cbn [map fold_right]. lra.
Qed.

Lemma resolve_best cbs scf o i : mat_check 32 8 cbs = true -> (0 <= o)%Z -> (o + 8 <= zlen scf)%Z -> resolve_cb Rops cbs scf o = Some i ->
  exists cb, rd cbs i = Some cb /\ forall k cb', rd cbs k = Some cb' -> dist2 scf o cb <= dist2 scf o cb'.
Proof.
  intros M Ho Ls E. unfold resolve_cb in E. apply bind_inv in E as (st & E & Ei). apply some_inj in Ei. subst i.
  match type of E with for_ 0 32 ?g ?s0 = Some ?res => pose proof (for_post (fun i (t : Z * R) => (0 < i)%Z -> exists cb, rd cbs (fst t) = Some cb /\ snd t = dist2 scf o cb /\ forall k cb', (k < i)%Z -> rd cbs k = Some cb' -> dist2 scf o cb <= dist2 scf o cb') g 0%Z 32%Z s0 res ltac:(lia)) as Q end.
  destruct Q as (cb & Q1 & Q2 & Q3); [|intros A; lia|exact E|lia|].
  - clear E. intros j (idx & dm) t' Hj I E. destruct (mat_row 32 8 cbs j M Hj) as (cb & Ecb & Lc). rewrite Ecb in E. cbn [bind] in E. rewrite cb_dist_R in E by assumption. cbn [bind] in E. apply some_inj in E. subst t'.
    intros _. cbn [fst snd] in I. destruct ((j =? 0)%Z || f_lt Rops (dist2 scf o cb) dm) eqn:T; cbn [fst snd].
    + exists cb. spl; auto. intros k cb' Hk Hc. destruct (Z.eq_dec k j) as [->|N]; [rewrite Ecb in Hc; injection Hc as <-; lra|].
      assert (0 <= k)%Z by (apply rd_range in Hc; lia). destruct (I ltac:(lia)) as (cb0 & I1 & I2 & I3). specialize (I3 k cb' ltac:(lia) Hc). apply orb_true_iff in T as [T|T]; [lia|]. cbn [f_lt Rops] in T. rewrite Rltb_true in T. lra.
    + apply orb_false_iff in T as (T1 & T2). destruct (I ltac:(lia)) as (cb0 & I1 & I2 & I3). exists cb0. spl; auto. intros k cb' Hk Hc. destruct (Z.eq_dec k j) as [->|N]; [|apply (I3 k); auto; lia].
      rewrite Ecb in Hc. injection Hc as <-. cbn [f_lt Rops] in T2. destruct (Rlt_dec (dist2 scf o cb) dm) as [A|A]; [apply Rltb_true in A; congruence|]. lra.
  - exists cb. split; [exact Q1|]. intros k cb' Hc. apply (Q3 k cb'); auto. apply rd_range in Hc. unfold mat_check in M. apply andb_true_iff in M as (M & _). lia.
Qed.

(** ** Best shape and gain of the candidates *)
(** Square distance of 16 values to a vector times a gain. *)
Definition err2 (x cn : list R) (g : R) : R :=
  fold_left Rplus (map (fun i => (nth i x 0 - g * nth i cn 0) ^ 2) (seq 0 16)) 0.

Lemma mse_R x cn g : zlen x = 16%Z -> zlen cn = 16%Z -> mse Rops x cn g = Some (err2 x cn g).
Proof.
  intros Lx Lc. unfold mse.
  destruct (for_inv (fun k m => m = fold_left Rplus (map (fun i => (nth i x 0 - g * nth i cn 0) ^ 2) (seq 0 (Z.to_nat k))) 0)
    (fun i m => do v <- rd x i; do c <- rd cn i; Some (f_add Rops m (f_mul Rops (f_sub Rops v (f_mul Rops g c)) (f_sub Rops v (f_mul Rops g c))))) 0 16 (f_z Rops 0)) as (m & E & Em); [lia|apply Rops_z| |].
  - intros i m Hi Hm. rewrite (rd_nth x i 0), (rd_nth cn i 0) by lia. cbn [bind]. eexists. split; [reflexivity|].
    replace (Z.to_nat (i + 1)) with (Z.to_nat i + 1)%nat by lia. rewrite seq_app, map_app, fold_left_app, <- Hm. cbn [seq map fold_left f_add f_mul f_sub Rops]. rewrite Nat.add_0_l. ring.
  - rewrite E, Em. reflexivity.
Qed.

Definition FLT_MAX : R := 16777215 * 2 ^ 104.
Lemma flt_max_R : f_dy Rops 16777215 (-104) = FLT_MAX.
Proof.
  rewrite Rops_dy. unfold FLT_MAX, Rdiv. f_equal. change (powerRZ 2 (-104)) with (/ 2 ^ Pos.to_nat 104). rewrite Rinv_inv. reflexivity.
Qed.

Lemma shape_gain_best x cns shape gain : zlen x = 16%Z -> zlen cns = 4%Z -> Forall (fun cn => zlen cn = 16%Z) cns -> shape_gain Rops x cns = Some (shape, gain) ->
  forall ic ig cn gs g, rd cns ic = Some cn -> rd sns_vq_gains ic = Some gs -> rd (snd gs) ig = Some g -> err2 x cn (IZR g / 2 ^ 12) < FLT_MAX ->
  exists cn0 gs0 g0, rd cns shape = Some cn0 /\ rd sns_vq_gains shape = Some gs0 /\ rd (snd gs0) gain = Some g0 /\ err2 x cn0 (IZR g0 / 2 ^ 12) <= err2 x cn (IZR g / 2 ^ 12).
Proof.
  intros Lx Lc Hc E ic ig cn gs g Ecn Egs Eg Hm. unfold shape_gain in E. cbv zeta in E. rewrite flt_max_R in E. apply bind_inv in E as (((sh & ga) & mm) & E & Ei). cbv beta iota in Ei. apply pair_inj in Ei as (-> & ->).
  set (is_err := fun s k m => exists cn0 gs0 g0, rd cns s = Some cn0 /\ rd sns_vq_gains s = Some gs0 /\ rd (snd gs0) k = Some g0 /\ m = err2 x cn0 (IZR g0 / 2 ^ 12)).
  match type of E with for_ 0 4 ?f ?s0 = Some ?res => pose proof (for_post (fun i (t : Z * Z * R) => let '(s, k, m) := t in (m = FLT_MAX \/ is_err s k m) /\ m <= FLT_MAX /\
     forall ic ig mm, (ic < i)%Z -> is_err ic ig mm -> m <= mm) f 0%Z 4%Z s0 res ltac:(lia)) as Q end.
  destruct Q as (Q1 & Q2 & Q3); [| |exact E|].
  - clear E Hm Ecn Egs Eg. intros i ((s & k) & m) t' Hi (I1 & I2 & I3) E. apply bind_inv in E as (gi & Egi & E). apply bind_inv in E as (ci & Eci & E). apply bind_inv in E as ((cg & cm) & El & E). apply some_inj in E.
    destruct (gains_ok i Hi) as (gi' & A & G1 & G2 & G3). rewrite Egi in A. apply some_inj in A. subst gi'.
    assert (Lci : zlen ci = 16%Z) by (rewrite Forall_forall in Hc; apply Hc; eapply rd_In; exact Eci).
    match type of El with for_ 0 ?n ?f ?s0 = Some ?res => pose proof (for_post (fun j (t : Z * R) => let '(k, m) := t in (m = FLT_MAX \/ is_err i k m) /\ m <= FLT_MAX /\
      forall ig mm, (ig < j)%Z -> is_err i ig mm -> m <= mm) f 0%Z n s0 res ltac:(lia)) as P end.
    destruct P as (P1 & P2 & P3); [| |exact El|].
    + clear El E. intros j (k' & m') t'' Hj (J1 & J2 & J3) E. apply bind_inv in E as (gj & Egj & E). rewrite mse_R in E by assumption. cbn [bind] in E. apply some_inj in E. subst t''.
      rewrite Rops_dy in *. change (powerRZ 2 12) with (2 ^ 12) in *. assert (NE : is_err i j (err2 x ci (IZR gj / 2 ^ 12))) by (exists ci, gi, gj; auto).
      assert (UE : forall mm, is_err i j mm -> mm = err2 x ci (IZR gj / 2 ^ 12)) by (intros mm' (c0 & g0 & v0 & A1 & A2 & A3 & ->); congruence).
      cbn [f_lt Rops]. destruct (Rltb (err2 x ci (IZR gj / 2 ^ 12)) m') eqn:T.
      * apply Rltb_true in T. spl; [right; exact NE|lra|]. intros ig' mm' Hg He. destruct (Z.eq_dec ig' j) as [->|N]; [rewrite (UE mm' He); lra|]. specialize (J3 ig' mm' ltac:(lia) He). lra.
      * assert (T' : m' <= err2 x ci (IZR gj / 2 ^ 12)) by (destruct (Rle_or_lt m' (err2 x ci (IZR gj / 2 ^ 12))) as [A|A]; [exact A|apply Rltb_true in A; congruence]).
        spl; auto. intros ig' mm' Hg He. destruct (Z.eq_dec ig' j) as [->|N]; [rewrite (UE mm' He); exact T'|]. apply (J3 ig'); auto. lia.
    + spl; [left; reflexivity|lra|]. intros ig' mm' Hg (c0 & g0 & v0 & A1 & A2 & A3 & _). apply rd_range in A3. lia.
    + assert (P3' : forall ig mm, is_err i ig mm -> cm <= mm).
      { intros ig' mm' He. apply (P3 ig'); auto. destruct He as (c0 & g0 & v0 & A1 & A2 & A3 & _). rewrite Egi in A2. injection A2 as <-. apply rd_range in A3. lia. }
      cbn [f_lt Rops] in E. destruct (Rltb cm m) eqn:T; subst t'.
      * apply Rltb_true in T. spl; auto. intros ic' ig' mm' Hg He. destruct (Z.eq_dec ic' i) as [->|N]; [apply (P3' ig'); exact He|]. specialize (I3 ic' ig' mm' ltac:(lia) He). lra.
      * assert (T' : m <= cm) by (destruct (Rle_or_lt m cm) as [A|A]; [exact A|apply Rltb_true in A; congruence]).
        spl; auto. intros ic' ig' mm' Hg He. destruct (Z.eq_dec ic' i) as [->|N]; [specialize (P3' ig' mm' He); lra|]. apply (I3 ic' ig'); auto. lia.
  - spl; [left; reflexivity|lra|]. intros ic' ig' mm' Hg (c0 & g0 & v0 & A1 & _). apply rd_range in A1. lia.
  - assert (NE : is_err ic ig (err2 x cn (IZR g / 2 ^ 12))) by (exists cn, gs, g; auto). assert (B : mm <= err2 x cn (IZR g / 2 ^ 12)) by (apply (Q3 ic ig); [apply rd_range in Ecn; lia|exact NE]).
    destruct Q1 as [->|(c0 & g0 & v0 & A1 & A2 & A3 & A4)]; [lra|]. exists c0, g0, v0. spl; auto. rewrite <- A4. exact B.
Qed.
