(** * Temporal noise shaping of a null spectrum, in binary32: no filter *)
From Coq Require Import ZArith List Bool Lia ZifyBool.
From Flocq Require Import IEEE754.BinarySingleNaN.
From Verif Require Import Base BaseProofs ConfigModel SideModel ShapeTables FloatOps LoopProofs TnsModel TnsProofs F32Model F32Proofs MdctFloat.
Import ListNotations.
Local Open Scope Z_scope.

Lemma loop_ext {S} (f g : Z -> S -> option S) n : forall a s, (forall i s, a <= i < a + Z.of_nat n -> f i s = g i s) -> loop n f a s = loop n g a s.
Proof. induction n as [|n IH]; intros a s H; cbn [loop]; [reflexivity|]. rewrite H by lia. destruct (g a s) as [t|]; [|reflexivity]. cbn [bind]. apply IH. intros i t' Hi. apply H. lia. Qed.
Lemma for_ext {S} (f g : Z -> S -> option S) a b s : (forall i s, a <= i < b -> f i s = g i s) -> for_ a b f s = for_ a b g s.
Proof. intros H. apply loop_ext. intros i t Hi. apply H. lia. Qed.
Lemma Forall_upd_nat {A} (P : A -> Prop) v : P v -> forall l i, Forall P l -> Forall P (upd_nat l i v).
Proof. intros Pv. induction l as [|a l IH]; intros i H; [destruct i; constructor|]. inversion H. subst. destruct i; cbn [upd_nat]; constructor; auto. Qed.
Lemma Forall_wr {A} (P : A -> Prop) l i v l' : Forall P l -> P v -> wr l i v = Some l' -> Forall P l'.
Proof. intros Hl Hv E. apply wr_inv in E. destruct E as (_ & ->). unfold upd. destruct (i <? 0); [exact Hl|]. apply Forall_upd_nat; assumption. Qed.
Lemma Forall_rd {A} (P : A -> Prop) l i v : Forall P l -> rd l i = Some v -> P v.
Proof. intros H E. apply rd_In in E. rewrite Forall_forall in H. auto. Qed.

Section Zero.
Context (nan : Z) (junk : f32).
Let fl := f32_ops nan.
Let f0 := f_z fl 0.

Lemma zero_fin x : zero32 x -> fin x. Proof. intros (s & ->). reflexivity. Qed.
Lemma zero_eq x : zero32 x -> f_eq fl x f0 = true.
Proof. intros (s & ->). destruct s; reflexivity. Qed.

Lemma dot_zero x i j n v : Forall zero32 x -> dot fl x i j n = Some v -> zero32 v.
Proof.
  intros Hx H. unfold dot in H. destruct (n <? 0) eqn:E; [discriminate H|]. eapply (for_post (fun _ => zero32)); [| |exact zero_0|exact H]; [lia|].
  cbv beta; intros k t t' Hk Ht. destruct (rd x (i + k)) as [a|] eqn:Ea; [|intros Q; discriminate Q]. destruct (rd x (j + k)) as [b|] eqn:Eb; [|intros Q; discriminate Q]. cbn [bind]. intros Q.
  assert (Q' : f_add fl t (f_mul fl a b) = t') by congruence. rewrite <- Q'. apply (Forall_rd _ _ _ _ Hx) in Ea, Eb. apply zero_add; [exact Ht|]. apply zero_mul; [exact Ea|apply zero_fin, Eb].
Qed.
Lemma sub_corr_zero sub nsub m x f s c : 0 <= m -> Forall zero32 x -> sub_corr fl sub nsub m x f s = Some c -> Forall zero32 c.
Proof.
  intros Hm Hx. unfold sub_corr. destruct (rd sub (f * nsub + s)) as [xs|]; [|discriminate]. destruct (rd sub (f * nsub + s + 1)) as [xe|]; [|discriminate]. cbn [bind]. intros H.
  eapply (for_post (fun _ => Forall zero32)); [| | |exact H]; [lia| |].
  - cbv beta. intros k t t' Hk Ht. destruct (dot fl x xs (xs + k) (xe - xs - k)) as [v|] eqn:E; [|intros Q; discriminate Q]. cbn [bind]. intros Q; refine (Forall_wr zero32 t k v t' Ht _ Q). eapply dot_zero; [exact Hx|exact E].
  - apply Forall_forall. intros v Hv. apply repeat_spec in Hv. subst v. exact zero_0.
Qed.

Definition null_corr (dt : Z) : list f32 :=
  f_z fl (tns_nsub dt) :: repeat f0 (Z.to_nat (tns_order dt)) ++ repeat junk (Z.to_nat (8 - tns_order dt)).
Lemma autocorr_zero dt bw x f : tns_cfg dt bw -> tns_end dt bw <= zlen x -> 0 <= f < nfil dt bw -> Forall zero32 x ->
  autocorr fl junk dt bw (tns_order dt) x f = Some (null_corr dt).
Proof.
  intros C L Hf Hx. pose proof (order_cases dt) as HO. pose proof (nsub_cases dt) as HN.
  destruct (sub_corr_ok fl dt bw x f 0 C L Hf ltac:(lia)) as (c0 & E0 & L0).
  destruct (sub_corr_ok fl dt bw x f 1 C L Hf ltac:(lia)) as (c1 & E1 & L1).
  assert (E2 : exists c2, (if tns_nsub dt =? 2 then Some [] else sub_corr fl (tns_sub dt bw) (tns_nsub dt) (tns_order dt) x f 2) = Some c2 /\ (tns_nsub dt = 3 -> zlen c2 = 9)).
  { destruct HN as [HN|HN].
    - rewrite HN. exists []. split; [reflexivity|lia].
    - destruct (sub_corr_ok fl dt bw x f 2 C L Hf ltac:(lia)) as (c2 & E2 & L2). exists c2. rewrite E2, HN. auto. }
  destruct E2 as (c2 & E2 & L2). unfold autocorr. cbv zeta. fold (tns_nsub dt). rewrite E0, E1, E2. cbn [bind].
  pose proof (sub_corr_zero _ _ (tns_order dt) _ _ _ _ ltac:(lia) Hx E0) as Z0.
  destruct (rd_ok c0 0 ltac:(lia)) as (e0 & Ee0). destruct (rd_ok c1 0 ltac:(lia)) as (e1 & Ee1). pose proof (Forall_rd _ _ _ _ Z0 Ee0) as Ze.
  assert (E3 : exists e2, (if tns_nsub dt =? 2 then Some e0 else rd c2 0) = Some e2).
  { destruct HN as [HN|HN]; rewrite HN; cbn [Z.eqb Pos.eqb]; [eauto|]. apply rd_ok. lia. }
  destruct E3 as (e2 & E3). unfold wr at 1. change (inb 0 (zlen (repeat junk 9))) with true. cbv iota. cbn [bind]. rewrite Ee0. cbn [bind]. rewrite Ee1. cbn [bind]. rewrite E3. cbn [bind].
  match goal with |- for_ _ _ ?g _ = _ => rewrite (for_ext g (fun k r => wr r k f0)) end.
  - unfold null_corr. destruct HO as [HO|HO]; rewrite HO; reflexivity.
  - intros k r Hk. destruct (rd_ok c0 k ltac:(lia)) as (v0 & ->). destruct (rd_ok c1 k ltac:(lia)) as (v1 & ->). cbn [bind].
    assert (E4 : exists v2, (if tns_nsub dt =? 2 then Some v0 else rd c2 k) = Some v2).
    { destruct HN as [HN|HN]; rewrite HN; cbn [Z.eqb Pos.eqb]; [eauto|]. apply rd_ok. lia. }
    destruct E4 as (v2 & ->). cbn [bind]. destruct (rd_ok tns_lag_window k) as (w & ->); [change (zlen tns_lag_window) with 9; lia|]. cbn [bind].
    change (f_z fl 0) with f0. rewrite (zero_eq e0 Ze). reflexivity.
Qed.

Lemma levinson_null dt : match levinson fl junk (tns_order dt) (null_corr dt) with Some (_, g) => f_le fl g (f_dy fl 3 1) | None => false end = true.
Proof.
  unfold null_corr. destruct (order_cases dt) as [->| ->], (nsub_cases dt) as [->| ->]; vm_compute; reflexivity.
Qed.

Lemma filter_zero dt bw nbytes nn x f : tns_cfg dt bw -> tns_end dt bw <= zlen x -> 0 <= f < nfil dt bw -> Forall zero32 x ->
  tns_analyze_filter fl junk dt bw nbytes nn x f = Some ([], repeat junk 8).
Proof.
  intros C L Hf Hx. unfold tns_analyze_filter. cbv zeta. fold (tns_order dt). rewrite (autocorr_zero dt bw x f C L Hf Hx). cbn [bind].
  pose proof (levinson_null dt) as H. destruct (levinson fl junk (tns_order dt) (null_corr dt)) as [[a g]|]; [|discriminate H]. cbn [bind]. rewrite H, orb_true_r. reflexivity.
Qed.

(** No filter is used, and the spectrum is kept. *)
Lemma tns_zero dt bw nbytes nn x : tns_cfg dt bw -> tns_end dt bw <= zlen x -> Forall zero32 x ->
  tns_analyze fl junk dt bw nn nbytes x = Some (mkTns (resolve_lpc_weighting dt nbytes) (repeat [] (tns_nfilters dt bw)), x).
Proof.
  intros C L Hx. unfold tns_analyze. rewrite (filter_zero dt bw nbytes nn x 0 C L) by (try assumption; destruct (nfil_cases dt bw); lia). cbn [bind].
  destruct (nfil_cases dt bw) as [N|N]; unfold nfil in N.
  - replace (tns_nfilters dt bw) with 1%nat by lia. cbn [Nat.eqb bind map fst snd]. unfold forward_filtering. replace (tns_nfilters dt bw) with 1%nat by lia. reflexivity.
  - replace (tns_nfilters dt bw) with 2%nat by lia. cbn [Nat.eqb]. rewrite (filter_zero dt bw nbytes nn x 1 C L) by (try assumption; unfold nfil; lia). cbn [bind map fst snd].
    unfold forward_filtering. replace (tns_nfilters dt bw) with 2%nat by lia. reflexivity.
Qed.

(** The decoder without filter. *)
Lemma tns_synth_none dt bw lpc x : tns_synthesize fl dt bw (mkTns lpc (repeat [] (tns_nfilters dt bw))) x = Some x.
Proof.
  unfold tns_synthesize, tns_nfilters. destruct ((DT_5M <=? dt) && (SRATE_32K <=? bw)) eqn:E; cbn [t_filters repeat]; unfold inverse_filtering, tns_nfilters; rewrite E; reflexivity.
Qed.
End Zero.
