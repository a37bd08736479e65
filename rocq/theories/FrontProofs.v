(** * The front end of the encoder stays in its arrays, and does not overflow *)
From Coq Require Import ZArith List Bool Lia.
From Verif Require Import Base BaseProofs ConfigModel SideModel LtpfTables LtpfModel LtpfSpec LtpfProofs FrontModel FrontHp50.
Import ListNotations.
Local Open Scope Z_scope.

Definition s16 (v : Z) : Prop := - 2 ^ 15 <= v < 2 ^ 15.
Definition amp (A v : Z) : Prop := Z.abs v <= A.

(** No access out of an array, a result in [P], and no overflow under [Q]. *)
Definition spec {A} (Q : Prop) (m : M A) (P : A -> Prop) : Prop :=
  match m with Some (a, o) => P a /\ (Q -> o = false) | None => False end.

Section rules.
  Context (Q : Prop).

  Lemma s_bind {A C} (m : M A) (f : A -> M C) P R :
    spec Q m P -> (forall a, P a -> spec Q (f a) R) -> spec Q (bindm m f) R.
  Proof.
    unfold spec, bindm. destruct m as [[a o]|]; [|contradiction]. intros [Ha Ho] H. specialize (H a Ha).
    destruct (f a) as [[b o']|]; [|contradiction]. destruct H as [Hb Ho']. split; [exact Hb|].
    intros q. rewrite Ho, Ho' by exact q. reflexivity.
  Qed.
  Lemma s_ret {A} (a : A) (P : A -> Prop) : P a -> spec Q (ret a) P.
  Proof. intros H. split; auto. Qed.
  Lemma s_weaken {A} (m : M A) (P R : A -> Prop) : spec Q m P -> (forall a, P a -> R a) -> spec Q m R.
  Proof. unfold spec. destruct m as [[a o]|]; [|trivial]. intros [H1 H2] H. auto. Qed.

  Lemma s_m16 x : (Q -> s16 x) -> spec Q (m16 x) (fun v => s16 v /\ (Q -> v = x)).
  Proof.
    intros H. unfold m16, spec. split; [split|].
    - unfold i16, s16. pose proof (Z.mod_pos_bound (x + 2 ^ 15) (2 ^ 16)). lia.
    - intros q. apply i16_in, H, q.
    - intros q. rewrite i16_in by (apply H, q). rewrite Z.eqb_refl. reflexivity.
  Qed.
  Lemma s_m32 x : (Q -> - 2 ^ 31 <= x < 2 ^ 31) -> spec Q (m32 x) (fun v => - 2 ^ 31 <= v < 2 ^ 31 /\ (Q -> v = x)).
  Proof.
    intros H. unfold m32, spec. split; [split|].
    - unfold i32. pose proof (Z.mod_pos_bound (x + 2 ^ 31) (2 ^ 32)). lia.
    - intros q. apply i32_in, H, q.
    - intros q. rewrite i32_in by (apply H, q). rewrite Z.eqb_refl. reflexivity.
  Qed.
  Lemma s_m64 x : (Q -> - 2 ^ 63 <= x < 2 ^ 63) -> spec Q (m64 x) (fun v => - 2 ^ 63 <= v < 2 ^ 63 /\ (Q -> v = x)).
  Proof.
    intros H. unfold m64, spec. split; [split|].
    - unfold i64. pose proof (Z.mod_pos_bound (x + 2 ^ 63) (2 ^ 64)). lia.
    - intros q. apply i64_in, H, q.
    - intros q. rewrite i64_in by (apply H, q). rewrite Z.eqb_refl. reflexivity.
  Qed.
  Lemma s_rd {A} (l : list A) i (P : A -> Prop) : 0 <= i < zlen l -> Forall P l -> spec Q (rdm l i) P.
  Proof.
    intros Hi H. unfold rdm. destruct (rd_in l i Hi) as [a E]. rewrite E. cbn [option_map spec]. split; [|auto].
    rewrite Forall_forall in H. apply H. unfold rd in E. destruct (i <? 0); [discriminate|]. exact (nth_error_In _ _ E).
  Qed.
  Lemma s_wr {A} (l : list A) i v (P : A -> Prop) : 0 <= i < zlen l -> Forall P l -> P v ->
    spec Q (wrm l i v) (fun l' => zlen l' = zlen l /\ Forall P l').
  Proof.
    intros Hi H Hv. unfold wrm. rewrite wr_in by exact Hi. cbn [option_map spec]. split; [|auto].
    split; [apply zlen_upd|]. apply upd_Forall; assumption.
  Qed.
  Lemma s_assert b : b = true -> spec Q (assertm b) (fun _ => True).
  Proof. intros ->. split; auto. Qed.
End rules.

Lemma shr_s16 x : - 2 ^ 31 <= x < 2 ^ 31 -> s16 (shr x 16).
Proof. unfold s16, shr. intros H. Z.div_mod_to_equations. lia. Qed.

Lemma rdm_znth l i : 0 <= i < zlen l -> rdm l i = ret (znth l i 0).
Proof. intros H. unfold rdm. rewrite (rd_znth l i 0) by exact H. reflexivity. Qed.

(** ** Resampling filter *)

(** Sum of products, and sum of the magnitudes of the coefficients. *)
Fixpoint conv (n : nat) (x : list Z) (px : Z) (h : list Z) (ph : Z) : Z :=
  match n with O => 0 | S n => znth x px 0 * znth h ph 0 + conv n x (px + 1) h (ph + 1) end.
Fixpoint asum (n : nat) (h : list Z) (ph : Z) : Z :=
  match n with O => 0 | S n => Z.abs (znth h ph 0) + asum n h (ph + 1) end.

Lemma asum_nonneg n : forall h ph, 0 <= asum n h ph.
Proof. induction n as [|n IH]; intros h ph; cbn [asum]; [lia|]. specialize (IH h (ph + 1)). lia. Qed.

Lemma znth_amp A l i : 0 <= A -> Forall (amp A) l -> Z.abs (znth l i 0) <= A.
Proof. intros HA H. apply (znth_Forall (amp A)); [exact H|]. unfold amp. lia. Qed.

Lemma conv_bound A x : 0 <= A -> Forall (amp A) x -> forall n px h ph, Z.abs (conv n x px h ph) <= A * asum n h ph.
Proof.
  intros HA H. induction n as [|n IH]; intros px h ph; cbn [conv asum]; [lia|].
  eapply Z.le_trans; [apply Z.abs_triangle|]. rewrite Z.mul_add_distr_l. apply Z.add_le_mono; [|apply IH].
  rewrite Z.abs_mul. apply Z.mul_le_mono_nonneg_r; [lia|]. apply znth_amp; assumption.
Qed.

Lemma s16_amp l : Forall s16 l -> Forall (amp (2 ^ 15)) l.
Proof. apply Forall_impl. intros a. unfold s16, amp. lia. Qed.

(** The filter is exact for every signal of 16 bits. *)
Lemma fir_ok x h : Forall s16 x -> Forall s16 h -> forall n px ph un,
  0 <= px -> px + Z.of_nat n <= zlen x -> 0 <= ph -> ph + Z.of_nat n <= zlen h ->
  Z.abs un + 2 ^ 15 * asum n h ph < 2 ^ 31 ->
  fir n x px h ph un = ret (un + conv n x px h ph).
Proof.
  intros Hx Hh. induction n as [|n IH]; intros px ph un H1 H2 H3 H4 H; cbn [fir conv asum] in *; [rewrite Z.add_0_r; reflexivity|].
  rewrite (rdm_znth x px), bind_ret, (rdm_znth h ph), bind_ret by lia.
  pose proof (znth_amp (2 ^ 15) x px ltac:(lia) (s16_amp _ Hx)) as Ax.
  pose proof (znth_amp (2 ^ 15) h ph ltac:(lia) (s16_amp _ Hh)) as Ah.
  pose proof (asum_nonneg n h (ph + 1)) as Hn.
  assert (Aq : Z.abs (znth x px 0 * znth h ph 0) <= 2 ^ 15 * Z.abs (znth h ph 0))
    by (rewrite Z.abs_mul; apply Z.mul_le_mono_nonneg_r; lia).
  rewrite m32_in, bind_ret, m32_in, bind_ret by lia.
  rewrite IH by lia. f_equal. lia.
Qed.

Record resampler_ok (sr p step w : Z) (h : list Z) (S : Z) : Prop := {
  ro_p : 0 < p; ro_step : 0 < step; ro_w : 0 < w; ro_h : zlen h = p * w;
  ro_s16 : Forall s16 h;
  ro_S : forall i, 0 <= i < p -> asum (Z.to_nat w) h (i * w) <= S;
  ro_U : 0 <= S /\ 2 ^ 15 * S < 2 ^ 31;
  ro_nt : w <= c_nt sr + 1;
  ro_ns : forall dt, 0 <= dt < 4 -> step * ((1 + dt) * 32) = p * c_ns dt sr }.

Lemma range7 (P : Z -> Prop) : P 0 -> P 1 -> P 2 -> P 3 -> P 4 -> P 5 -> P 6 -> forall s, 0 <= s < 7 -> P s.
Proof.
  intros. assert (E : s = 0 \/ s = 1 \/ s = 2 \/ s = 3 \/ s = 4 \/ s = 5 \/ s = 6) by lia.
  intuition (subst; assumption).
Qed.

Definition check_resampler (sr p step w : Z) (h : list Z) (S : Z) : bool :=
  (0 <? p) && (0 <? step) && (0 <? w) && (zlen h =? p * w) &&
  forallb (fun v => (- 2 ^ 15 <=? v) && (v <? 2 ^ 15)) h &&
  forallb (fun i => asum (Z.to_nat w) h (Z.of_nat i * w) <=? S) (seq 0 (Z.to_nat p)) &&
  (0 <=? S) && (2 ^ 15 * S <? 2 ^ 31) && (w <=? c_nt sr + 1) &&
  forallb (fun dt => step * ((1 + dt) * 32) =? p * c_ns dt sr) [0; 1; 2; 3].

Lemma check_resampler_ok sr p step w h S : check_resampler sr p step w h S = true -> resampler_ok sr p step w h S.
Proof.
  unfold check_resampler. intros H.
  repeat match goal with H : _ && _ = true |- _ => apply andb_prop in H as [H ?] end.
  repeat match goal with H : (_ <? _) = true |- _ => apply Z.ltb_lt in H | H : (_ <=? _) = true |- _ => apply Z.leb_le in H
                    | H : (_ =? _) = true |- _ => apply Z.eqb_eq in H
                    | H : forallb _ _ = true |- _ => rewrite forallb_forall in H end.
  constructor; try assumption; try (split; assumption).
  - apply Forall_forall. intros v Hv. specialize (H5 v Hv). unfold s16. lia.
  - intros i Hi. specialize (H4 (Z.to_nat i)). rewrite Z2Nat.id in H4 by lia. apply Z.leb_le, H4, in_seq. lia.
  - intros dt Hdt. specialize (H0 dt). apply Z.eqb_eq, H0. cbn [In]. lia.
Qed.

(** Largest amplitude proved free of overflow, by rate. *)
Definition amp_limit (sr : Z) : Z := if sr =? 0 then 23000 else 15600.

Lemma resampler_all sr : 0 <= sr < 7 -> exists p step w h S,
  resampler sr = ret (p, step, w, h) /\ resampler_ok sr p step w h S /\ amp_limit sr * S <= hp_U.
Proof.
  revert sr. apply range7.
  1: exists 8, 5, 10, h_8k, 38657. 2: exists 4, 5, 20, h_16k, 56941. 3: exists 8, 15, 30, h_24k, 56941. 4: exists 2, 5, 40, h_32k, 56941.
  5: exists 4, 15, 60, h_48k, 56941. 6: exists 4, 15, 60, h_48k, 56941. 7: exists 2, 15, 120, h_96k, 56941.
  all: split; [reflexivity|]; split; [apply check_resampler_ok; vm_compute; reflexivity|vm_compute; discriminate].
Qed.

(** Samples at 12.8 and 6.4 kHz under the limit. *)
Definition y_limit : Z := 32577.

Definition hp_state_ok (Q : Prop) (hp : Z * Z) : Prop := Q -> hp_inv hp.

Lemma hp50_spec Q hp un : hp_state_ok Q hp -> (Q -> Z.abs un <= hp_U) ->
  spec Q (filter_hp50 hp un) (fun r => - 2 ^ 31 <= fst r < 2 ^ 31 /\ (Q -> Z.abs (fst r) <= hp_Y) /\ hp_state_ok Q (snd r)).
Proof.
  intros Hhp Hun. assert (E : exists y s' o, filter_hp50 hp un = Some ((y, s'), o) /\ - 2 ^ 31 <= y < 2 ^ 31).
  { unfold filter_hp50. destruct hp as [s1 s2]. unfold m64, m32, bindm, ret.
    eexists _, (_, _), _. split; [reflexivity|]. unfold i32. pose proof (Z.mod_pos_bound (shr (i64 (s1 + un * hp_b2)) 30 + 2 ^ 31) (2 ^ 32)). lia. }
  destruct E as (y & s' & o & E & Hy). rewrite E. cbn [spec fst snd].
  assert (H : Q -> o = false /\ Z.abs y <= hp_Y /\ hp_inv s').
  { intros q. destruct (hp50_ok hp un (Hhp q) (Hun q)) as (y' & s'' & E' & H1 & H2). rewrite E' in E. injection E as <- <- <-. auto. }
  split; [split; [exact Hy|split; [intros q; apply H, q|intros q; apply H, q]]|]. intros q; apply H, q.
Qed.

(** [n] more samples, from output [j]. *)
Definition mem_ok (Q : Prop) (y : list Z) : Prop := Forall s16 y /\ (Q -> Forall (amp y_limit) y).

Lemma mem_wr Q y i v : 0 <= i < zlen y -> mem_ok Q y -> s16 v -> (Q -> amp y_limit v) ->
  spec Q (wrm y i v) (fun y' => zlen y' = zlen y /\ mem_ok Q y').
Proof.
  intros Hi [H1 H2] Hv Hv'. unfold wrm. rewrite wr_in by exact Hi. cbn [option_map spec]. split; [|auto].
  split; [apply zlen_upd|]. split; [apply upd_Forall; assumption|]. intros q. apply upd_Forall; auto.
Qed.

Lemma resample_spec (Q : Prop) sr dt p step w h S x px :
  resampler_ok sr p step w h S -> 0 <= dt < 4 ->
  Forall s16 x -> (Q -> Forall (amp (amp_limit sr)) x) -> amp_limit sr * S <= hp_U ->
  0 <= px -> px + (w - 1) + c_ns dt sr <= zlen x ->
  forall n hp y py j,
  0 <= j -> j + Z.of_nat n <= (1 + dt) * 32 -> 0 <= py -> py + Z.of_nat n <= zlen y ->
  hp_state_ok Q hp -> mem_ok Q y ->
  spec Q (resample n p step w h hp x px y py (step * j))
    (fun r => zlen (fst r) = zlen y /\ mem_ok Q (fst r) /\ hp_state_ok Q (snd r)).
Proof.
  intros R Hdt Hx HA HU Hpx Hlen. destruct (ro_U _ _ _ _ _ _ R) as [HS0 HS1].
  pose proof (ro_p _ _ _ _ _ _ R) as Hp. pose proof (ro_w _ _ _ _ _ _ R) as Hw. pose proof (ro_step _ _ _ _ _ _ R) as Hst.
  pose proof (ro_ns _ _ _ _ _ _ R dt Hdt) as Hns.
  induction n as [|n IH]; intros hp y py j Hj1 Hj2 Hy1 Hy2 Hhp Hm; cbn [resample].
  { apply s_ret. auto. }
  set (i := step * j).
  assert (Hi : 0 <= i / p < c_ns dt sr).
  { split; [apply Z.div_pos; unfold i; nia|]. apply Z.div_lt_upper_bound; [lia|]. rewrite <- Hns. unfold i. nia. }
  pose proof (Z.mod_pos_bound i p Hp) as Hmod.
  pose proof (ro_S _ _ _ _ _ _ R _ Hmod) as HS.
  assert (E : fir (Z.to_nat w) x (px + i / p) h ((i mod p) * w) 0 = ret (0 + conv (Z.to_nat w) x (px + i / p) h ((i mod p) * w))).
  { apply fir_ok; try assumption; try lia.
    - apply (ro_s16 _ _ _ _ _ _ R).
    - rewrite (ro_h _ _ _ _ _ _ R), Z2Nat.id by lia. revert Hmod Hw. generalize (i mod p). clear. intros. nia. }
  rewrite E, bind_ret. clear E. rewrite Z.add_0_l.
  assert (Hu : Q -> Z.abs (conv (Z.to_nat w) x (px + i / p) h ((i mod p) * w)) <= hp_U).
  { intros q. eapply Z.le_trans; [apply (conv_bound (amp_limit sr)); [unfold amp_limit; destruct (sr =? 0); lia|auto]|].
    eapply Z.le_trans; [|exact HU]. apply Z.mul_le_mono_nonneg_l; [unfold amp_limit; destruct (sr =? 0); lia|exact HS]. }
  eapply s_bind; [apply hp50_spec; [exact Hhp|exact Hu]|]. intros [yn hp'] (Hyn & HyQ & Hhp'). cbn [fst snd] in *.
  eapply s_bind; [apply s_m32; intros q; specialize (HyQ q); revert HyQ; unfold hp_Y; clear; lia|]. intros t [Ht1 Ht2].
  eapply s_bind; [apply s_m16; intros q; apply shr_s16; exact Ht1|]. intros v [Hv1 Hv2].
  eapply s_bind; [apply (mem_wr Q y py v); [lia|exact Hm|exact Hv1|]|].
  { intros q. rewrite (Hv2 q), (Ht2 q). specialize (HyQ q). revert HyQ. unfold amp, y_limit, hp_Y, shr. clear. intros. Z.div_mod_to_equations. lia. }
  intros y' [Hl Hm']. replace (i + step) with (step * (j + 1)) by (unfold i; lia).
  eapply s_weaken; [apply IH; try assumption; lia|]. intros r (H1 & H2). rewrite H1, Hl. auto.
Qed.

Lemma resample_12k8_spec (Q : Prop) sr dt hp x px y py :
  0 <= sr < 7 -> 0 <= dt < 4 -> Forall s16 x -> (Q -> Forall (amp (amp_limit sr)) x) ->
  c_nt sr <= px -> px + c_ns dt sr <= zlen x ->
  0 <= py -> py + (1 + dt) * 32 <= zlen y -> hp_state_ok Q hp -> mem_ok Q y ->
  spec Q (resample_12k8 sr hp x px y py ((1 + dt) * 32))
    (fun r => zlen (fst r) = zlen y /\ mem_ok Q (fst r) /\ hp_state_ok Q (snd r)).
Proof.
  intros Hsr Hdt Hx HA H1 H2 H3 H4 Hhp Hm.
  destruct (resampler_all sr Hsr) as (p & step & w & h & S & E & R & HU).
  unfold resample_12k8. rewrite E, bind_ret.
  pose proof (ro_nt _ _ _ _ _ _ R). replace 0 with (step * 0) at 1 by lia.
  apply (resample_spec Q sr dt p step w h S); try assumption; try lia.
Qed.

Lemma resample_6k4_spec Q x : mem_ok Q x -> forall n px y py,
  2 <= px -> (0 < n)%nat -> px + 2 * Z.of_nat n < zlen x -> 0 <= py -> py + Z.of_nat n <= zlen y -> mem_ok Q y ->
  spec Q (resample_6k4 n x px y py) (fun y' => zlen y' = zlen y /\ mem_ok Q y').
Proof.
  intros [Hx HA]. induction n as [|n IH]; intros px y py H1 Hn H2 H3 H4 Hm; [lia|]. cbn [resample_6k4].
  assert (Hrd : forall i, 0 <= i < zlen x -> spec Q (rdm x i) (fun v => s16 v /\ (Q -> amp y_limit v))).
  { intros i Hi. apply s_rd; [exact Hi|]. apply Forall_forall. intros v Hv. rewrite Forall_forall in Hx. split; [apply Hx, Hv|].
    intros q. specialize (HA q). rewrite Forall_forall in HA. apply HA, Hv. }
  eapply s_bind; [apply Hrd; lia|]. intros x0 [H0 H0']. eapply s_bind; [apply Hrd; lia|]. intros xm1 [Hm1 Hm1'].
  eapply s_bind; [apply Hrd; lia|]. intros x1 [Hx1 Hx1']. eapply s_bind; [apply Hrd; lia|]. intros xm2 [Hm2 Hm2'].
  eapply s_bind; [apply Hrd; lia|]. intros x2 [Hx2 Hx2'].
  eapply s_bind; [apply s_m32; intros _; revert H0 Hm1 Hx1; unfold s16; clear; lia|]. intros t [Ht1 Ht2].
  eapply s_bind; [apply s_m32; intros q; rewrite (Ht2 q); revert H0 Hm1 Hx1 Hm2 Hx2; unfold s16; clear; lia|]. intros t' [Ht1' Ht2'].
  eapply s_bind; [apply s_m16; intros q; apply shr_s16; exact Ht1'|]. intros v [Hv1 Hv2].
  eapply s_bind; [apply (mem_wr Q y py v); [lia|exact Hm|exact Hv1|]|].
  { intros q. rewrite (Hv2 q), (Ht2' q), (Ht2 q). specialize (H0' q). specialize (Hm1' q). specialize (Hx1' q). specialize (Hm2' q). specialize (Hx2' q).
    revert H0' Hm1' Hx1' Hm2' Hx2'. unfold amp, y_limit, shr. clear. intros. Z.div_mod_to_equations. lia. }
  intros y' [Hl Hm']. destruct n as [|n]; [apply s_ret; auto|].
  eapply s_weaken; [apply IH; try assumption; lia|]. intros r (E1 & E2). rewrite E1, Hl. auto.
Qed.
