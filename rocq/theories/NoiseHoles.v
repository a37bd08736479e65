(** * The holes of the encoder and of the decoder: values that are not null stay so *)
From Coq Require Import ZArith List Bool Lia ZifyBool.
From Verif Require Import Base BaseProofs ConfigModel BitsModel FloatModel FloatProofs SideModel SideSpec SpecModel ResidualModel ResidualInst ResidualModes FrameModel FrameSafe GainModel GainProofs.
From Verif Require Import BitsReadSafe SideProofs NoiseModel NoiseSpec NoiseProofs NoiseLevel.
Import ListNotations.
Local Open Scope Z_scope.

(** ** Residual: no coefficient becomes null, nor too large *)
Definition between (lo hi x : Z) : Prop := x = 0 \/ lo <= Z.abs x <= hi.

Lemma between_weak lo lo' hi hi' xs : lo' <= lo -> hi <= hi' -> Forall (between lo hi) xs -> Forall (between lo' hi') xs.
Proof. intros H H' A. eapply Forall_impl; [|exact A]. intros x. unfold between. lia. Qed.

Lemma step_between lo hi lo' hi' o1 o2 x (b : bool) : 0 < o1 -> 0 < o2 -> 0 < lo' -> o2 < lo -> lo' <= rnd (lo - o2) -> rnd (hi + o1) <= hi' -> x <> 0 -> lo <= Z.abs x <= hi ->
  lo' <= Z.abs (rnd (if b then x - (if x <? 0 then o1 else o2) else x + (if 0 <? x then o1 else o2))) <= hi'.
Proof.
  intros P1 P2 P3 P4 A B Hz Hx.
  assert (Up : forall v, lo - o2 <= v <= hi + o1 -> lo' <= rnd v <= hi').
  { intros v Hv. pose proof (rnd_mono (lo - o2) v ltac:(lia)). pose proof (rnd_mono v (hi + o1) ltac:(lia)). lia. }
  assert (Un : forall v, lo - o2 <= Z.abs v <= hi + o1 -> lo' <= Z.abs (rnd v) <= hi').
  { intros v Hv. destruct (Z_le_gt_dec 0 v).
    - specialize (Up v ltac:(lia)). lia.
    - specialize (Up (- v) ltac:(lia)). rewrite rnd_opp in Up. lia. }
  apply Un. destruct b, (x <? 0) eqn:C, (0 <? x) eqn:C2; lia.
Qed.

Lemma pass_between lo hi lo' hi' o1 o2 : 0 < o1 -> 0 < o2 -> 0 < lo' <= lo -> hi <= hi' -> o2 < lo -> lo' <= rnd (lo - o2) -> rnd (hi + o1) <= hi' ->
  forall xs n r, Forall (between lo hi) xs -> Forall (between lo' hi') (fst (fst (get_res_pass rnd o1 o2 n xs r))).
Proof.
  intros P1 P2 P3 P4 P5 A B. induction xs as [|x xs IH]; intros n r H; [constructor|]. cbn [get_res_pass].
  destruct (n <=? 0); [cbn [fst]; eapply between_weak; [| |exact H]; lia|].
  inversion H as [|? ? Hx H']. subst. destruct (x =? 0) eqn:Z0.
  - specialize (IH n r H'). destruct (get_res_pass rnd o1 o2 n xs r) as [[ys n'] r']. cbn [fst] in *. constructor; [left; lia|exact IH].
  - destruct (get_bit r) as [b r1]. specialize (IH (n - 1) r1 H'). destruct (get_res_pass rnd o1 o2 (n - 1) xs r1) as [[ys n'] r']. cbn [fst] in *. constructor; [|exact IH].
    right. apply (step_between lo hi lo' hi' o1 o2 x (b =? 0)); try lia; try assumption. destruct Hx as [Hx|Hx]; [lia|exact Hx].
Qed.

Definition top (k : Z) : Z := (2 ^ 24 + 2 * k) * one.
Lemma top_le k k' : k <= k' -> top k <= top k'.
Proof. intros H. unfold top. apply Z.mul_le_mono_nonneg_r; [discriminate|lia]. Qed.
Lemma top_exact k : 0 <= k <= 100 -> rnd (top k) = top k.
Proof.
  intros H. apply (rnd_exact _ 150); [lia| |].
  - unfold top. rewrite Z.abs_eq by (apply Z.mul_nonneg_nonneg; [lia|discriminate]). change (2 ^ (150 + 24)) with (2 ^ 25 * one). apply Z.mul_le_mono_nonneg_r; [discriminate|lia].
  - unfold top. change one with (2 ^ 149). replace ((2 ^ 24 + 2 * k) * 2 ^ 149) with ((2 ^ 23 + k) * 2 ^ 150) by (change (2 ^ 150) with (2 * 2 ^ 149); ring). apply Z.mod_mul. discriminate.
Qed.
Lemma top_next k o : 0 <= k <= 99 -> 0 <= o <= one -> rnd (top k + o) <= top (k + 1).
Proof. intros H Ho. rewrite <- (top_exact (k + 1)) by lia. apply rnd_mono. unfold top. replace ((2 ^ 24 + 2 * (k + 1)) * one) with ((2 ^ 24 + 2 * k) * one + 2 * one) by ring. lia. Qed.

Lemma iter_hr_between m : forall k xs n r, 0 <= k -> k + Z.of_nat m = 20 -> Forall (between (2 ^ 148 + 2 ^ (148 - k)) (top k)) xs ->
  Forall (between (one / 8) (top 20)) (fst (get_res_iter m rnd (2 ^ (147 - k)) (2 ^ (147 - k)) n xs r)).
Proof.
  assert (E : forall k, 0 <= k <= 20 -> forall xs, Forall (between (2 ^ 148 + 2 ^ (148 - k)) (top k)) xs -> Forall (between (one / 8) (top 20)) xs).
  { intros k Hk xs. apply between_weak; [|apply top_le; lia]. pose proof (pow2_pos (148 - k) ltac:(lia)). assert (one / 8 <= 2 ^ 148) by (vm_compute; discriminate). lia. }
  induction m as [|m IH]; intros k xs n r Hk Hm H; cbn [get_res_iter]; [cbn [fst]; apply (E k); [lia|exact H]|].
  destruct (n <=? 0); [cbn [fst]; apply (E k); [lia|exact H]|].
  destruct (half_step k ltac:(lia)) as (_ & E2).
  pose proof (pass_between (2 ^ 148 + 2 ^ (148 - k)) (top k) (2 ^ 148 + 2 ^ (148 - (k + 1))) (top (k + 1)) (2 ^ (147 - k)) (2 ^ (147 - k))) as P.
  pose proof (pow2_pos (147 - k) ltac:(lia)) as P0. pose proof (pow2_pos 148 ltac:(lia)) as P1.
  assert (D : 2 ^ (148 - k) = 2 * 2 ^ (147 - k)) by (replace (148 - k) with (147 - k + 1) by lia; rewrite Z.pow_add_r by lia; change (2 ^ 1) with 2; lia).
  assert (D' : 148 - (k + 1) = 147 - k) by lia. rewrite D' in *.
  assert (Lo : rnd (2 ^ 148 + 2 ^ (147 - k)) = 2 ^ 148 + 2 ^ (147 - k)).
  { pose proof (fl_lower rnd ltac:(intros; apply rnd_exact with (e := e); assumption) (k + 1) ltac:(lia)) as F. rewrite D' in F. exact F. }
  specialize (P P0 P0 ltac:(lia) (top_le k (k + 1) ltac:(lia)) ltac:(lia)).
  rewrite D in P at 1. replace (2 ^ 148 + 2 * 2 ^ (147 - k) - 2 ^ (147 - k)) with (2 ^ 148 + 2 ^ (147 - k)) in P by lia. rewrite Lo in P. specialize (P ltac:(lia)).
  assert (Q : 2 ^ (147 - k) <= one) by (change one with (2 ^ 149); apply Z.pow_le_mono_r; lia).
  specialize (P (top_next k (2 ^ (147 - k)) ltac:(lia) ltac:(lia)) xs n r H).
  destruct (get_res_pass rnd (2 ^ (147 - k)) (2 ^ (147 - k)) n xs r) as [[ys n'] r']. cbn [fst] in P. rewrite E2.
  apply IH; [lia|lia|]. rewrite D'. exact P.
Qed.

Lemma residual_between hr n qs r : Forall (fun q => Z.abs q <= 2 ^ 24) qs ->
  Forall (between (one / 8) (top 20)) (fst (get_residual rnd r n hr (map (fun q => q * one) qs))).
Proof.
  intros H. assert (H1 : Forall (between one (top 0)) (map (fun q => q * one) qs)).
  { apply Forall_map. eapply Forall_impl; [|exact H]. intros q Hq. cbv beta in *. unfold between, top. rewrite Z.abs_mul. change (Z.abs one) with one.
    destruct (Z.eq_dec q 0) as [->|]; [left; reflexivity|right]. assert (one * 1 <= one * Z.abs q <= one * 2 ^ 24); [|lia]. split; apply Z.mul_le_mono_nonneg_l; try discriminate; lia. }
  unfold get_residual. destruct hr; cbn [res_iters].
  - change (one / 4) with (2 ^ (147 - 0)). apply iter_hr_between; [lia|reflexivity|]. eapply between_weak; [| |exact H1]; [vm_compute; discriminate|lia].
  - cbn [get_res_iter]. destruct (n <=? 0); [cbn [fst]; eapply between_weak; [| |exact H1]; vm_compute; discriminate|].
    pose proof (pass_between one (top 0) (one / 8) (top 20) (5 * one / 16) (3 * one / 16)) as P.
    specialize (P eq_refl eq_refl ltac:(vm_compute; split; [reflexivity|discriminate]) ltac:(vm_compute; discriminate) eq_refl ltac:(vm_compute; discriminate) ltac:(vm_compute; discriminate) (map (fun q => q * one) qs) n r H1).
    destruct (get_res_pass rnd (5 * one / 16) (3 * one / 16) n (map (fun q => q * one) qs) r) as [[ys n'] r']. exact P.
Qed.

(** ** Gains *)
Definition gain_low (g : Z) : bool :=
  match unquantize_gain g with Some a => (one <=? 2 ^ 32 * gain_float a) && (gain_float a <=? 2 ^ 31 * one) | None => false end.
Lemma gains_low : forallb gain_low (map (fun i => Z.of_nat i - 255) (seq 0 511)) = true.
Proof. vm_compute. reflexivity. Qed.
Lemma gain_float_range g : -255 <= g <= 255 -> exists a, unquantize_gain g = Some a /\ one <= 2 ^ 32 * gain_float a /\ gain_float a <= 2 ^ 31 * one.
Proof.
  intros H. pose proof gains_low as A. rewrite forallb_forall in A. specialize (A g).
  assert (I : In g (map (fun i => Z.of_nat i - 255) (seq 0 511))) by (apply in_map_iff; exists (Z.to_nat (g + 255)); split; [lia|apply in_seq; lia]).
  specialize (A I). unfold gain_low in A. destruct (unquantize_gain g) as [a|]; [|discriminate]. exists a. split; [reflexivity|]. lia.
Qed.

(** ** Any frame *)
Lemma decode_between lf hw data dt sr d : bytes data -> 0 <= dt <= 3 -> 0 <= sr <= 6 -> decode lf hw data dt sr = Some d ->
  decoded_ok dt sr (zlen data) d /\ Forall (between (one / 8) (top 20)) (d_x d).
Proof.
  intros Hb Hd Hs E. pose proof (r_setup_RB hw data Hb) as HR. split.
  - pose proof (get_frame_safe lf dt sr (zlen data) Hd Hs _ _ HR) as G. unfold decode in E. destruct (get_frame lf (r_setup hw data) dt sr (zlen data)) as [o r]. cbn [fst] in E. subst o. apply G.
  - pose proof (get_main_safe lf dt sr (zlen data) Hd Hs _ _ HR) as G. unfold decode, get_frame in E. destruct (get_main lf (r_setup hw data) dt sr (zlen data)) as [[m|] r]; [|discriminate].
    destruct G as ((G0 & G) & R). 
    assert (B : Forall (fun q => Z.abs q + 1 <= 2 ^ 24) (d_x m)).
    { eapply Forall_impl; [|exact G]. intros q Hq. cbv beta in Hq. assert (2 ^ dec_bits sr <= 2 ^ 24) by (apply Z.pow_le_mono_r; [lia|unfold dec_bits; destruct (is_hr sr); lia]). lia. }
    clear G HR Hb. set (n := r_get_bits_left r) in *. clearbody n. unfold get_tail in E. destruct (q_lsb (d_side m)).
    + pose proof (get_lsb_safe (d_x m) n 0 (d_seed m) (proj2 (proj2 (proj2 (proj2 (proj2 (proj2 (proj2 G0))))))) _ _ R) as L. destruct (get_lsb r n (d_x m) 0 (d_seed m)) as [[ys sd] r2].
      destruct L as ((L & _) & _). cbn [fst] in E. destruct (r_check r2 <? 0); [discriminate|]. injection E as <-. cbn [d_set_x d_x].
      apply Forall_map. clear - L B. induction L as [|x y xs ys H L IH]; [constructor|]. inversion B as [|? ? B1 B2]. subst. constructor; [|apply IH; exact B2].
      unfold between. destruct (Z.eq_dec y 0) as [->|]; [left; reflexivity|right]. rewrite Z.abs_mul. change (Z.abs one) with one. unfold top.
      assert (one * 1 <= one * Z.abs y <= one * (2 ^ 24 + 2 * 20)) by (split; apply Z.mul_le_mono_nonneg_l; try discriminate; lia).
      assert (one / 8 <= one) by (vm_compute; discriminate). lia.
    + pose proof (residual_between (is_hr sr) n (d_x m) r) as P. destruct (get_residual rnd r n (is_hr sr) (map (fun q => q * one) (d_x m))) as [ys r2]. cbn [fst] in *.
      destruct (r_check r2 <? 0); [discriminate|]. injection E as <-. cbn [d_set_x d_x]. apply P. eapply Forall_impl; [|exact B]. cbv beta. intros q Hq. lia.
Qed.

(** The bandwidth is in the spectrum. *)
Lemma band_in dt sr bw : 0 <= dt <= 3 -> bw_ok sr bw -> 0 <= bw /\ band_lines dt bw <= c_ne dt sr.
Proof.
  intros Hd (Hs & Hb). assert (B : 0 <= bw) by (destruct (is_hr sr); lia). split; [exact B|]. rewrite <- stop_eq by exact B. unfold bw_stop, c_ne. apply Z.mul_le_mono_nonneg_r; [lia|].
  assert (C : sr = 0 \/ sr = 1 \/ sr = 2 \/ sr = 3 \/ sr = 4 \/ sr = 5 \/ sr = 6) by lia.
  destruct C as [->|[->|[->|[->|[->|[->| ->]]]]]]; cbn in Hb;
    match type of Hb with
    | bw = _ => subst bw; vm_compute; discriminate
    | _ => assert (C : bw = 0 \/ bw = 1 \/ bw = 2 \/ bw = 3 \/ bw = 4) by lia; destruct C as [->|[->|[->|[->| ->]]]]; try lia; vm_compute; discriminate
    end.
Qed.

(** ** Products *)
Lemma fmul_err x g : 2 ^ 23 * one <= Z.abs x * Z.abs g -> Z.abs (fmul x g * one - x * g) * 2 ^ 23 <= Z.abs (x * g).
Proof.
  intros H. unfold fmul. set (a := Z.abs x * Z.abs g) in *. assert (P : 0 < one) by reflexivity. assert (A : 0 <= a) by lia.
  pose proof (Z.div_mod a one ltac:(lia)) as D. pose proof (Z.mod_pos_bound a one P) as M.
  assert (V : 2 ^ 23 <= a / one) by (apply Z.div_le_lower_bound; lia).
  pose proof (quot_err a one (a / one + 1) A P ltac:(lia) ltac:(lia)) as E. set (q := rnd_quot a one) in *. clearbody q.
  assert (S : x * g = Z.sgn x * Z.sgn g * a) by (transitivity ((Z.abs x * Z.sgn x) * (Z.abs g * Z.sgn g)); [rewrite !Z.abs_sgn; reflexivity|unfold a; ring]).
  assert (Xn : Z.abs (Z.sgn x * Z.sgn g) = 1).
  { rewrite Z.abs_mul. assert (x <> 0) by (intros ->; unfold a in H; rewrite Z.abs_0, Z.mul_0_l in H; vm_compute in H; apply H; reflexivity).
    assert (g <> 0) by (intros ->; unfold a in H; rewrite Z.abs_0, Z.mul_0_r in H; vm_compute in H; apply H; reflexivity). lia. }
  rewrite S. replace (Z.sgn x * Z.sgn g * q * one - Z.sgn x * Z.sgn g * a) with (Z.sgn x * Z.sgn g * (q * one - a)) by ring. rewrite !(Z.abs_mul (Z.sgn x * Z.sgn g)), Xn, (Z.abs_eq a) by exact A. 
  assert (one * (a / one + 1) <= 2 * a) by lia. lia.
Qed.

Lemma scaled_line x g : between (one / 8) (top 20) x -> one <= 2 ^ 32 * g -> g <= 2 ^ 31 * one ->
  Z.abs (fmul x g * one - x * g) * 2 ^ 23 <= Z.abs (x * g) /\ Z.abs (fmul x g) <= 2 ^ 60 * one.
Proof.
  intros [->|Hx] G1 G2; [split; vm_compute; discriminate|].
  assert (L : 2 ^ 23 * one <= Z.abs x * Z.abs g).
  { rewrite (Z.abs_eq g) by (pose proof one_pos; lia). apply (Z.le_trans _ (one / 8 * (one / 2 ^ 32))); [vm_compute; discriminate|].
    apply Z.mul_le_mono_nonneg; [vm_compute; discriminate|lia|vm_compute; discriminate|]. apply Z.div_le_upper_bound; lia. }
  pose proof (fmul_err x g L) as E. split; [exact E|].
  assert (U : Z.abs (x * g) <= top 20 * (2 ^ 31 * one)). { rewrite Z.abs_mul, (Z.abs_eq g) by (pose proof one_pos; lia). apply Z.mul_le_mono_nonneg; pose proof one_pos; lia. }
  assert (K : top 20 * (2 ^ 31 * one) * 2 <= 2 ^ 60 * one * one) by (vm_compute; discriminate).
  assert (F : Z.abs (fmul x g) * one <= 2 ^ 60 * one * one). { replace (Z.abs (fmul x g) * one) with (Z.abs (fmul x g * one)) by (rewrite Z.abs_mul; reflexivity). lia. }
  apply (Z.mul_le_mono_pos_r _ _ one); [reflexivity|exact F].
Qed.

Lemma noise_amplitude g nf : one <= 2 ^ 32 * g -> g <= 2 ^ 31 * one -> 0 <= nf < 8 ->
  let s := fmul g ((8 - nf) * one) / 16 in Z.abs (16 * s - (8 - nf) * g) * 2 ^ 24 <= 16 * g /\ 0 <= s <= 2 ^ 60 * one.
Proof.
  intros G1 G2 Hn s. unfold s, fmul. assert (P : 0 < one) by reflexivity. rewrite (Z.sgn_pos g) by lia. rewrite (Z.sgn_pos ((8 - nf) * one)) by (apply Z.mul_pos_pos; lia).
  rewrite (Z.abs_eq g), (Z.abs_eq ((8 - nf) * one)) by (try lia; apply Z.mul_nonneg_nonneg; lia). replace (1 * 1 * rnd_quot (g * ((8 - nf) * one)) one) with (rnd_quot ((8 - nf) * g * one) one) by (rewrite !Z.mul_1_l; f_equal; ring).
  assert (G0 : one / 2 ^ 32 <= g) by (apply Z.div_le_upper_bound; lia). assert (G3 : 2 ^ 100 <= one / 2 ^ 32) by (vm_compute; discriminate).
  assert (B : g <= (8 - nf) * g <= 8 * g) by (clear - Hn G0 G3; split; [replace g with (1 * g) at 1 by lia|]; apply Z.mul_le_mono_nonneg_r; lia).
  assert (A0 : 0 <= (8 - nf) * g * one) by (apply Z.mul_nonneg_nonneg; lia).
  pose proof (quot_err ((8 - nf) * g * one) one (8 * g) A0 P) as E. set (v := (8 - nf) * g) in *. clearbody v.
  specialize (E ltac:(rewrite (Z.mul_comm v); apply Z.mul_le_mono_nonneg_l; lia) ltac:(lia)).
  pose proof (quot_nonneg (v * one) one A0 P) as Q0. set (q := rnd_quot (v * one) one) in *. clearbody q. replace (q * one - v * one) with (one * (q - v)) in E by ring. rewrite Z.abs_mul, (Z.abs_eq one), <- Z.mul_assoc in E by lia.
  apply Z.mul_le_mono_pos_l in E; [|exact P]. pose proof (Z.div_mod q 16 ltac:(lia)) as D. pose proof (Z.mod_pos_bound q 16 ltac:(lia)) as M. clear A0 G1 Hn s.
  assert (K : 2 ^ 31 * one * 16 <= 2 ^ 60 * one) by (vm_compute; discriminate). lia.
Qed.

(** ** End of the decoding of the spectrum *)
Lemma znth_app_zero l n k : znth (l ++ repeat 0 n) k 0 = znth l k 0.
Proof.
  unfold znth. destruct (k <? 0); [reflexivity|]. destruct (Nat.lt_ge_cases (Z.to_nat k) (length l)) as [H|H].
  - rewrite app_nth1 by exact H. reflexivity.
  - rewrite app_nth2 by exact H. rewrite (nth_overflow l) by exact H. generalize (Z.to_nat k - length l)%nat. intros m. clear. revert m. induction n as [|n IH]; intros [|m]; cbn [repeat nth]; auto.
Qed.
Lemma unquantize_at dt sr g xs k : znth (unquantize dt sr g xs) k 0 = fmul (znth xs k 0) g.
Proof.
  unfold unquantize. rewrite znth_app_zero. unfold znth. destruct (k <? 0); [reflexivity|]. rewrite <- (fmul_zero g) at 1. apply (map_nth (fun x => fmul x g)).
Qed.
Lemma unquantize_len dt sr g xs : zlen xs <= c_ne dt sr -> zlen (unquantize dt sr g xs) = c_ne dt sr.
Proof. intros H. unfold unquantize. rewrite zlen_app, zlen_map. unfold zlen at 2. rewrite repeat_length. lia. Qed.
Lemma between_at lo hi xs k : Forall (between lo hi) xs -> between lo hi (znth xs k 0).
Proof.
  intros H. unfold znth. destruct (k <? 0); [left; reflexivity|]. destruct (nth_in_or_default (Z.to_nat k) xs 0) as [I|I]; [|rewrite I; left; reflexivity].
  rewrite Forall_forall in H. apply H. exact I.
Qed.
Lemma unquantize_zero dt sr g xs k : Forall (between (one / 8) (top 20)) xs -> one <= 2 ^ 32 * g ->
  zero_at (unquantize dt sr g xs) k = (znth xs k 0 =? 0).
Proof.
  intros H G. unfold zero_at. rewrite unquantize_at. pose proof (between_at _ _ xs k H) as B. pose proof (fmul_sgn (znth xs k 0) g) as S.
  assert (C : znth xs k 0 = 0 \/ one <= 8 * Z.abs (znth xs k 0)).
  { destruct B as [B|B]; [left; exact B|right]. assert (8 * (one / 8) = one) by reflexivity. lia. }
  specialize (S C G). destruct (Z.eq_dec (znth xs k 0) 0) as [Z0|Z0].
  - rewrite Z0. reflexivity.
  - lia.
Qed.
