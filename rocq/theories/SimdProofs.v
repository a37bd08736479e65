(** * Proofs about the ARM kernels *)
From Coq Require Import ZArith List Bool Lia.
From Verif Require Import Base BaseProofs ConfigModel SideModel LtpfTables LtpfModel FrontModel FrontSpec FrontHp50 FrontProofs SimdTables SimdModel LtpfProofs.
Import ListNotations.
Local Open Scope Z_scope.

(** The computation [m'] has the result of [m] when [m] has one, and overflows only if it does. *)
Definition refines {A} (m' m : M A) : Prop :=
  match m with Some (r, o) => exists o', m' = Some (r, o') /\ (o' = true -> o = true) | None => True end.
Lemma refines_refl {A} (m : M A) : refines m m.
Proof. unfold refines. destruct m as [[r o]|]; [|exact I]. exists o. auto. Qed.
Lemma refines_bind {A B} (m' m : M A) (f' f : A -> M B) : refines m' m -> (forall a, refines (f' a) (f a)) -> refines (bindm m' f') (bindm m f).
Proof.
  unfold refines, bindm. intros H G. destruct m as [[a o]|]; [|exact I]. destruct H as (o' & -> & Ho). specialize (G a).
  destruct (f a) as [[b o2]|]; [|exact I]. destruct G as (o2' & -> & Ho2). exists (o' || o2'). split; [reflexivity|]. destruct o', o2'; intros; destruct o, o2; auto.
Qed.
Lemma bindm_ret {A B} (a : A) (f : A -> M B) : bindm (ret a) f = f a.
Proof. unfold bindm, ret. destruct (f a) as [[b o]|]; reflexivity. Qed.
Lemma bindm_assoc {A B C} (m : M A) (f : A -> M B) (g : B -> M C) : bindm (bindm m f) g = bindm m (fun a => bindm (f a) g).
Proof. unfold bindm. destruct m as [[a o]|]; [|reflexivity]. destruct (f a) as [[b o2]|]; [|reflexivity]. destruct (g b) as [[c o3]|]; [|reflexivity]. rewrite orb_assoc. reflexivity. Qed.
Lemma refines_ret {A A' B} (a' : A') (a : A) (f' : A' -> M B) (f : A -> M B) : refines (f' a') (f a) -> refines (bindm (ret a') f') (bindm (ret a) f).
Proof. unfold refines, bindm, ret. destruct (f a) as [[b o2]|]; [|auto]. intros (o' & -> & H). exists o'. auto. Qed.
Lemma refines_after {A B} (a : A) (m : M A) o (m' : M B) f : m = Some (a, o) -> refines m' (f a) -> refines m' (bindm m f).
Proof. intros ->. unfold refines, bindm. destruct (f a) as [[b o2]|]; [|auto]. intros (o' & -> & H). exists o'. split; [reflexivity|]. intros G. rewrite (H G). apply orb_true_r. Qed.
Lemma refines_val {A} (a : A) (m : M A) o : m = Some (a, o) -> refines (ret a) m.
Proof. intros ->. exists false. split; [reflexivity|discriminate]. Qed.
Lemma refines_trans {A} (m1 m2 m3 : M A) : refines m1 m2 -> refines m2 m3 -> refines m1 m3.
Proof. unfold refines. destruct m3 as [[r o]|]; [|auto]. intros H (o' & -> & Ho). destruct H as (o2 & -> & Ho2). exists o2. auto. Qed.

(** ** Wrapped sums *)
Lemma i32_add a b : i32 (i32 a + b) = i32 (a + b).
Proof. unfold i32. f_equal. replace ((a + 2 ^ 31) mod 2 ^ 32 - 2 ^ 31 + b + 2 ^ 31) with ((a + 2 ^ 31) mod 2 ^ 32 + b) by lia. rewrite Zplus_mod_idemp_l. f_equal. lia. Qed.
Lemma i64_add a b : i64 (i64 a + b) = i64 (a + b).
Proof. unfold i64. f_equal. replace ((a + 2 ^ 63) mod 2 ^ 64 - 2 ^ 63 + b + 2 ^ 63) with ((a + 2 ^ 63) mod 2 ^ 64 + b) by lia. rewrite Zplus_mod_idemp_l. f_equal. lia. Qed.
Lemma i64_add3 a p q r : i64 (i64 a + p + q + r) = i64 (a + p + q + r).
Proof. rewrite <- !Z.add_assoc. apply i64_add. Qed.
Lemma i32_idem a : i32 (i32 a) = i32 a. Proof. pose proof (i32_add a 0) as H. rewrite !Z.add_0_r in H. exact H. Qed.
Lemma i64_idem a : i64 (i64 a) = i64 a. Proof. pose proof (i64_add a 0) as H. rewrite !Z.add_0_r in H. exact H. Qed.
Lemma i32_eq a b : a = b -> i32 a = i32 b. Proof. congruence. Qed.
Lemma i64_eq a b : a = b -> i64 a = i64 b. Proof. congruence. Qed.

(** ** Sums of products *)
Lemma sp_app a b x px h ph : conv (a + b) x px h ph = conv a x px h ph + conv b x (px + Z.of_nat a) h (ph + Z.of_nat a).
Proof.
  revert px ph. induction a as [|a IH]; intros px ph; cbn [conv Nat.add]; [rewrite !Z.add_0_r; lia|]. rewrite IH.
  replace (px + 1 + Z.of_nat a) with (px + Z.of_nat (S a)) by lia. replace (ph + 1 + Z.of_nat a) with (ph + Z.of_nat (S a)) by lia. lia.
Qed.
Lemma sp_zero n x px h ph : (forall k, 0 <= k < Z.of_nat n -> znth h (ph + k) 0 = 0) -> conv n x px h ph = 0.
Proof.
  revert px ph. induction n as [|n IH]; intros px ph H; cbn [conv]; [reflexivity|]. rewrite IH; [|intros k Hk; replace (ph + 1 + k) with (ph + (k + 1)) by lia; apply H; lia].
  pose proof (H 0 ltac:(lia)) as H0. rewrite Z.add_0_r in H0. rewrite H0. lia.
Qed.
Lemma sp_ext n x px h ph h' ph' : (forall k, 0 <= k < Z.of_nat n -> znth h (ph + k) 0 = znth h' (ph' + k) 0) -> conv n x px h ph = conv n x px h' ph'.
Proof.
  revert px ph ph'. induction n as [|n IH]; intros px ph ph' H; cbn [conv]; [reflexivity|]. rewrite (IH (px + 1) (ph + 1) (ph' + 1)).
  - pose proof (H 0 ltac:(lia)) as H0. rewrite !Z.add_0_r in H0. rewrite H0. reflexivity.
  - intros k Hk. replace (ph + 1 + k) with (ph + (k + 1)) by lia. replace (ph' + 1 + k) with (ph' + (k + 1)) by lia. apply H. lia.
Qed.

Lemma znth_s16 l i : Forall s16 l -> 0 <= i < zlen l -> s16 (znth l i 0).
Proof. intros H Hi. rewrite Forall_forall in H. apply H. unfold znth, zlen in *. destruct (i <? 0) eqn:E; [lia|]. apply nth_In. lia. Qed.
Lemma prod32 a b : s16 a -> s16 b -> i32 (a * b) = a * b.
Proof. unfold s16. intros Ha Hb. apply i32_in. nia. Qed.

(** The portable loops. *)
Lemma fir_value x h : Forall s16 x -> Forall s16 h -> forall n px ph un, 0 <= px -> px + Z.of_nat n <= zlen x -> 0 <= ph -> ph + Z.of_nat n <= zlen h -> i32 un = un ->
  exists o, fir n x px h ph un = Some (i32 (un + conv n x px h ph), o).
Proof.
  intros Sx Sh. induction n as [|n IH]; intros px ph un H1 H2 H3 H4 H5; cbn [fir conv].
  - rewrite Z.add_0_r, H5. exists false. reflexivity.
  - rewrite (rdm_znth x px), (rdm_znth h ph) by lia. unfold m32. cbn [bindm ret]. rewrite prod32 by (apply znth_s16; auto; lia).
    destruct (IH (px + 1) (ph + 1) (i32 (un + znth x px 0 * znth h ph 0)) ltac:(lia) ltac:(lia) ltac:(lia) ltac:(lia) (i32_idem _)) as (o & E). rewrite E. eexists. rewrite i32_add.
    replace (un + znth x px 0 * znth h ph 0 + conv n x (px + 1) h (ph + 1)) with (un + (znth x px 0 * znth h ph 0 + conv n x (px + 1) h (ph + 1))) by lia. reflexivity.
Qed.
Lemma dot_acc_value x h : Forall s16 x -> Forall s16 h -> forall n px ph un, 0 <= px -> px + Z.of_nat n <= zlen x -> 0 <= ph -> ph + Z.of_nat n <= zlen h -> i64 un = un ->
  exists o, dot_acc n x px h ph un = Some (i64 (un + conv n x px h ph), o).
Proof.
  intros Sx Sh. induction n as [|n IH]; intros px ph un H1 H2 H3 H4 H5; cbn [dot_acc conv].
  - rewrite Z.add_0_r, H5. exists false. reflexivity.
  - rewrite (rdm_znth x px), (rdm_znth h ph) by lia. unfold m32, m64. cbn [bindm ret]. rewrite prod32 by (apply znth_s16; auto; lia).
    destruct (IH (px + 1) (ph + 1) (i64 (un + znth x px 0 * znth h ph 0)) ltac:(lia) ltac:(lia) ltac:(lia) ltac:(lia) (i64_idem _)) as (o & E). rewrite E. eexists. rewrite i64_add.
    replace (un + znth x px 0 * znth h ph 0 + conv n x (px + 1) h (ph + 1)) with (un + (znth x px 0 * znth h ph 0 + conv n x (px + 1) h (ph + 1))) by lia. reflexivity.
Qed.

(** ** SIMD of 32 bits *)
Lemma rd2_ok l p : Z.even p = true -> 0 <= p -> p + 2 <= zlen l -> rd2 l p = ret (znth l p 0, znth l (p + 1) 0).
Proof. intros E H1 H2. unfold rd2, assertm. rewrite E, (rdm_znth l p), (rdm_znth l (p + 1)) by lia. reflexivity. Qed.
Lemma even_add2 p k : Z.even p = true -> Z.even (p + 2 * k) = true.
Proof. intros H. rewrite Z.even_add_mul_2. exact H. Qed.

Lemma arm_fir_value x h : forall n px ph un, Z.even px = true -> Z.even ph = true -> 0 <= px -> px + 2 * Z.of_nat n <= zlen x -> 0 <= ph -> ph + 2 * Z.of_nat n <= zlen h -> i32 un = un ->
  arm_fir n x px h ph un = ret (i32 (un + conv (2 * n) x px h ph)).
Proof.
  induction n as [|n IH]; intros px ph un E1 E2 H1 H2 H3 H4 H5; cbn [arm_fir].
  - cbn [conv Nat.mul]. rewrite Z.add_0_r, H5. reflexivity.
  - rewrite (rd2_ok x px), (rd2_ok h ph) by (auto; lia). cbn [bindm ret]. fold (ret (A := Z)). rewrite IH; try lia; [|apply (even_add2 px 1), E1|apply (even_add2 ph 1), E2|apply i32_idem].
    replace (2 * S n)%nat with (S (S (2 * n))) by lia. cbn [conv]. unfold smlad. cbn [fst snd]. rewrite i32_add. replace (px + 1 + 1) with (px + 2) by lia. replace (ph + 1 + 1) with (ph + 2) by lia. unfold ret. cbn [orb]. do 3 f_equal. lia.
Qed.

(** The rows of a table for pairs: those of the portable table, delayed by 1 or 2. *)
Definition arm_rows (p w row : Z) (h ha : list Z) : bool :=
  forallb (fun r => (2 * (r * row) + 2 * w + 2 <=? zlen ha) && ((r mod p) * (2 * w) + 2 * w <=? zlen h) &&
    forallb (fun k => znth ha (2 * (r * row) + k) 0 =? (if (0 <=? k - 1 - r / p) && (k - 1 - r / p <? 2 * w) then znth h ((r mod p) * (2 * w) + (k - 1 - r / p)) 0 else 0))
      (map Z.of_nat (seq 0 (Z.to_nat (2 * w + 2))))) (map Z.of_nat (seq 0 (Z.to_nat (2 * p)))).
Lemma in_range_z n k : 0 <= k < n -> In k (map Z.of_nat (seq 0 (Z.to_nat n))).
Proof. intros H. apply in_map_iff. exists (Z.to_nat k). split; [lia|]. apply in_seq. lia. Qed.
Lemma arm_row_sum p w row h ha x q r : arm_rows p w row h ha = true -> 0 < p -> 0 <= w -> 0 <= r < 2 * p ->
  conv (2 * Z.to_nat (1 + w)) x q ha (2 * (r * row)) = conv (Z.to_nat (2 * w)) x (q + 1 + r / p) h ((r mod p) * (2 * w)) /\
  2 * (r * row) + 2 * (1 + w) <= zlen ha /\ (r mod p) * (2 * w) + 2 * w <= zlen h.
Proof.
  intros H Hp Hw Hr. unfold arm_rows in H. rewrite forallb_forall in H. specialize (H r (in_range_z _ _ Hr)). cbv beta in H. apply andb_prop in H as (H & H2). apply andb_prop in H as (H0 & H1).
  split; [|lia]. rewrite forallb_forall in H2.
  assert (V : forall k, 0 <= k < 2 * w + 2 -> znth ha (2 * (r * row) + k) 0 = if (0 <=? k - 1 - r / p) && (k - 1 - r / p <? 2 * w) then znth h ((r mod p) * (2 * w) + (k - 1 - r / p)) 0 else 0).
  { intros k Hk. specialize (H2 k (in_range_z _ _ Hk)). cbv beta in H2. lia. }
  clear H0 H1 H2. assert (Hs : r / p = 0 \/ r / p = 1). { assert (0 <= r / p < 2); [|lia]. split; [apply Z.div_pos; lia|apply Z.div_lt_upper_bound; lia]. }
  set (s := r / p) in *. clearbody s. set (b := 2 * (r * row)) in *. clearbody b. set (c := r mod p * (2 * w)) in *. clearbody c.
  replace (2 * Z.to_nat (1 + w))%nat with (Z.to_nat (1 + s) + (Z.to_nat (2 * w) + Z.to_nat (1 - s)))%nat by lia. rewrite !sp_app.
  rewrite (sp_zero (Z.to_nat (1 + s))); [|intros k Hk; rewrite V by lia; replace (0 <=? k - 1 - s) with false by lia; reflexivity].
  rewrite (sp_zero (Z.to_nat (1 - s))); [|intros k Hk; rewrite <- !Z.add_assoc, V by lia; match goal with |- (if ?b then _ else _) = 0 => replace b with false by lia end; reflexivity].
  rewrite (sp_ext _ _ _ _ _ h c); [replace (q + 1 + s) with (q + Z.of_nat (Z.to_nat (1 + s))) by lia; lia|].
  intros k Hk. rewrite <- !Z.add_assoc, V by lia. match goal with |- (if ?b then _ else _) = _ => replace b with true by lia end. do 2 f_equal. lia.
Qed.

Lemma arm_resample_refines p step w row h ha x px K : arm_rows p w row h ha = true -> 0 < p -> 0 <= w -> 0 <= row -> 0 < step -> Forall s16 x -> Forall s16 h ->
  Z.even px = true -> 2 * w <= px -> px + 2 * K <= zlen x ->
  forall n hp y py i, 0 <= i -> i + step * Z.of_nat n <= 2 * p * K ->
  refines (arm_resample n p step w row ha hp x (px - 2 * w) y py i) (resample n p step (2 * w) h hp x (px - (2 * w - 1)) y py i).
Proof.
  intros Ht Hp Hw Hrow Hst Sx Sh Ep H1 H2. induction n as [|n IH]; intros hp y py i Hi Hn; cbn [arm_resample resample]; [apply refines_refl|].
  set (q := i / (2 * p)). set (r := i mod (2 * p)).
  assert (D : i = 2 * p * q + r) by (apply Z.div_mod; lia). assert (Hr : 0 <= r < 2 * p) by (apply Z.mod_pos_bound; lia).
  assert (Hq : 0 <= q) by (apply Z.div_pos; lia). assert (HqK : q < K) by nia.
  assert (M1 : i mod p = r mod p) by (rewrite D; replace (2 * p * q + r) with (r + 2 * q * p) by ring; apply Z.mod_add; lia).
  assert (M2 : i / p = 2 * q + r / p) by (rewrite D; replace (2 * p * q + r) with (2 * q * p + r) by ring; apply Z.div_add_l; lia).
  destruct (arm_row_sum p w row h ha x (px - 2 * w + 2 * q) r Ht Hp Hw Hr) as (S1 & B1 & B2).
  assert (Hs : 0 <= r / p < 2) by (split; [apply Z.div_pos; lia|apply Z.div_lt_upper_bound; lia]). assert (Hm : 0 <= r mod p) by (apply Z.mod_pos_bound; lia).
  assert (Rw : 0 <= 2 * (r * row)).
  { clear - Hr Hrow. nia. }
  apply refines_bind.
  - rewrite M1, M2. assert (Hc : 0 <= r mod p * (2 * w)) by (apply Z.mul_nonneg_nonneg; lia). clearbody q r. set (s := r / p) in *. clearbody s. set (c := r mod p * (2 * w)) in *. clearbody c. destruct (fir_value x h Sx Sh (Z.to_nat (2 * w)) (px - (2 * w - 1) + (2 * q + s)) c 0) as (o & E); try lia; [reflexivity|].
    rewrite arm_fir_value; try lia; [| |rewrite Z.even_mul; reflexivity|reflexivity].
    + rewrite S1. apply (refines_val _ _ o). rewrite E. replace (px - 2 * w + 2 * q + 1 + s) with (px - (2 * w - 1) + (2 * q + s)) by lia. reflexivity.
    + replace (px - 2 * w + 2 * q) with (px + 2 * (q - w)) by lia. apply even_add2, Ep.
  - intros un. apply refines_bind; [apply refines_refl|]. intros s. apply refines_bind; [apply refines_refl|]. intros t. apply refines_bind; [apply refines_refl|]. intros v. apply refines_bind; [apply refines_refl|]. intros y'. apply IH; lia.
Qed.

Lemma even_half p : Z.even p = true -> exists k, p = 2 * k.
Proof. intros H. apply Z.even_spec in H. exact H. Qed.

(** Rates with a resampler: numerator of the ratio, step, and taps. *)
Definition ratio (sr : Z) : Z * Z := znth [(8, 5); (4, 5); (8, 15); (2, 5); (4, 15); (4, 15); (2, 15)] sr (1, 1).
Definition taps (sr : Z) : Z := znth [10; 20; 30; 40; 60; 60; 120] sr 0.

Ltac cases6 sr H := let E := fresh in assert (E : sr = 0 \/ sr = 1 \/ sr = 2 \/ sr = 3 \/ sr = 4 \/ sr = 5 \/ sr = 6) by lia; clear H; destruct E as [-> | [-> | [-> | [-> | [-> | [-> | ->]]]]]].
Definition all16 (l : list Z) : bool := forallb (fun v => (- 2 ^ 15 <=? v) && (v <? 2 ^ 15)) l.
Lemma all16_s16 l : all16 l = true -> Forall s16 l.
Proof. unfold all16, s16. rewrite forallb_forall, Forall_forall. intros H v Hv. specialize (H v Hv). cbv beta in H. lia. Qed.

Theorem arm_resample_12k8_refines sr hp x px y py n K : 0 <= sr <= 6 -> Forall s16 x -> Z.even px = true -> taps sr <= px -> px + 2 * K <= zlen x -> 0 <= n ->
  snd (ratio sr) * n <= 2 * fst (ratio sr) * K ->
  refines (arm_resample_12k8 sr hp x px y py n) (resample_12k8 sr hp x px y py n).
Proof.
  intros Hs Sx Ep H1 H2 Hn HK. unfold arm_resample_12k8, resample_12k8.
  cases6 sr Hs; [| | | | | |apply refines_refl].
  1: refine (refines_ret (8, 5, 5, 6, arm_h_8k) (8, 5, 2 * 5, h_8k) _ _ _).
  2: refine (refines_ret (4, 5, 10, 12, arm_h_16k) (4, 5, 2 * 10, h_16k) _ _ _).
  3: refine (refines_ret (8, 15, 15, 16, arm_h_24k) (8, 15, 2 * 15, h_24k) _ _ _).
  4: refine (refines_ret (2, 5, 20, 24, arm_h_32k) (2, 5, 2 * 20, h_32k) _ _ _).
  5: refine (refines_ret (4, 15, 30, 32, arm_h_48k) (4, 15, 2 * 30, h_48k) _ _ _).
  6: refine (refines_ret (4, 15, 30, 32, arm_h_48k) (4, 15, 2 * 30, h_48k) _ _ _).
  all: cbv beta iota; match type of H1 with ?t <= _ => let v := eval vm_compute in t in change t with v in H1 end; match type of HK with ?a * _ <= 2 * ?b * _ => let v := eval vm_compute in a in let w := eval vm_compute in b in change a with v in HK; change b with w in HK end; apply (arm_resample_refines _ _ _ _ _ _ _ _ K);
    first [assumption | lia | apply all16_s16; vm_compute; reflexivity | vm_compute; reflexivity].
Qed.

(** ** Correlations with SIMD of 32 bits *)
Lemma arm_dots_value a b : forall n pa pb b1 v0 v1, Z.even pa = true -> Z.even pb = true -> 0 <= pa -> pa + 4 * Z.of_nat n <= zlen a -> 1 <= pb -> pb + 4 * Z.of_nat n <= zlen b ->
  snd b1 = znth b (pb - 1) 0 -> i64 v0 = v0 -> i64 v1 = v1 ->
  arm_dots n a pa b pb b1 v0 v1 = ret (i64 (v0 + conv (4 * n) a pa b pb), i64 (v1 + conv (4 * n) a pa b (pb - 1))).
Proof.
  induction n as [|n IH]; intros pa pb b1 v0 v1 E1 E2 H1 H2 H3 H4 H5 H6 H7; cbn [arm_dots].
  - cbn [conv Nat.mul]. rewrite !Z.add_0_r, H6, H7. reflexivity.
  - rewrite (rd2_ok a pa), (rd2_ok b pb), (rd2_ok a (pa + 2)), (rd2_ok b (pb + 2)) by (try apply (even_add2 _ 1); auto; lia). cbn [bindm ret]. unfold smlald, smlaldx, pkhbt. cbn [fst snd].
    fold (ret (A := Z * Z)). rewrite IH; cbn [fst snd]; try lia; try apply i64_idem; [|apply (even_add2 pa 2), E1|apply (even_add2 pb 2), E2|f_equal; lia].
    replace (4 * S n)%nat with (4 + 4 * n)%nat by lia. rewrite !sp_app. cbn [conv Z.of_nat Pos.of_succ_nat Pos.succ].
    unfold ret. cbn [orb]. replace (pb + 4 - 1) with (pb - 1 + 4) by lia. rewrite H5, !i64_add.
    replace (pb - 1 + 1) with pb by lia. replace (pb - 1 + 1 + 1) with (pb + 1) by lia. replace (pb + 1 + 1) with (pb + 2) by lia. 
    rewrite !i64_add3. replace (pa + 1 + 1) with (pa + 2) by lia.
    match goal with |- Some (i64 ?a, i64 ?b, _) = Some (i64 ?c, i64 ?d, _) => replace a with c by lia; replace b with d by lia end. reflexivity.
Qed.

Section correlations.
  Context {F : Type} (ofz : Z -> F).

  Lemma dot_value a pa b pb n : Forall s16 a -> Forall s16 b -> 0 <= n -> 0 <= pa -> pa + n <= zlen a -> 0 <= pb -> pb + n <= zlen b ->
    exists o, dot ofz a pa b pb n = bindm (Some (i64 (conv (Z.to_nat (16 * (n / 16))) a pa b pb), o)) (to_float ofz).
  Proof.
    intros Sa Sb Hn H1 H2 H3 H4. unfold dot. assert (B : 0 <= 16 * (n / 16) <= n) by (Z.div_mod_to_equations; lia).
    destruct (dot_acc_value a b Sa Sb (Z.to_nat (16 * (n / 16))) pa pb 0) as (o & E); try lia; [reflexivity|]. exists o. rewrite E. reflexivity.
  Qed.
  Lemma float_refines v m o : m = bindm (Some (v, o)) (to_float ofz) -> refines (to_float ofz v) m.
  Proof.
    intros ->. unfold bindm. destruct (to_float ofz v) as [[r o2]|]; [|exact I]. exists o2. split; [reflexivity|]. intros ->. apply orb_true_r.
  Qed.

  Lemma arm_pairs_refines a pa n : Forall s16 a -> Z.even pa = true -> 0 <= n -> 0 <= pa -> pa + n <= zlen a ->
    forall fuel nc b pb, (nc < fuel)%nat -> Forall s16 b -> Z.even pb = true -> Z.of_nat nc - 1 <= pb -> 0 <= pb -> pb + n <= zlen b ->
    refines (arm_pairs ofz fuel (Z.of_nat nc) a pa b pb n) (correlate ofz nc a pa b pb n).
  Proof.
    intros Sa Ea Hn H1 H2. induction fuel as [|fuel IH]; intros nc b pb Hf Sb Eb H3 H3' H4; [lia|]. cbn [arm_pairs].
    destruct nc as [|[|nc]].
    - apply refines_refl.
    - apply refines_refl.
    - replace (2 <=? Z.of_nat (S (S nc))) with true by lia. cbn [correlate]. assert (B : 0 <= 16 * (n / 16) <= n) by (Z.div_mod_to_equations; lia).
      destruct (dot_value a pa b pb n Sa Sb Hn H1 H2 ltac:(lia) H4) as (o0 & E0).
      destruct (dot_value a pa b (pb - 1) n Sa Sb Hn H1 H2 ltac:(lia) ltac:(lia)) as (o1 & E1).
      rewrite rdm_znth by (destruct (even_half _ Eb); lia). unfold shr. change (2 ^ 4) with 16. cbv zeta.
      assert (Pb : 1 <= pb) by lia. 
      rewrite bindm_ret, (arm_dots_value a b); cbn [snd]; try assumption; try lia; try reflexivity. rewrite bindm_ret. cbn [fst snd].
      replace (4 * Z.to_nat (4 * (n / 16)))%nat with (Z.to_nat (16 * (n / 16))) by lia.
      apply refines_bind; [apply (float_refines _ _ o0), E0|]. intros y0. rewrite bindm_assoc.
      apply refines_bind; [apply (float_refines _ _ o1), E1|]. intros y1. rewrite bindm_assoc.
      replace (Z.of_nat (S (S nc)) - 2) with (Z.of_nat nc) by lia. replace (pb - 1 - 1) with (pb - 2) by lia.
      destruct nc as [|nc]; [destruct fuel; [lia|]; apply refines_refl|].
      apply refines_bind; [|intros r; rewrite bindm_ret; apply refines_refl].
      apply IH; try lia; try assumption; apply (even_add2 pb (-1)), Eb.
  Qed.

  Theorem arm_correlate_refines a pa b pb nc n : Forall s16 a -> Forall s16 b -> Z.even pa = true -> 0 <= n -> 0 <= pa -> pa + n <= zlen a ->
    0 <= pb -> Z.of_nat nc - 1 <= pb -> pb + n <= zlen b -> (0 < nc)%nat ->
    refines (arm_correlate ofz nc a pa b pb n) (correlate ofz nc a pa b pb n).
  Proof.
    intros Sa Sb Ea Hn H1 H2 H3 H3' H4 Hc. unfold arm_correlate. destruct (Z.odd pb) eqn:O.
    - destruct nc as [|nc]; [lia|]. cbn [correlate]. apply refines_bind; [apply refines_refl|]. intros d. apply refines_bind; [|intros; apply refines_refl].
      replace (Z.of_nat (S nc) - 1) with (Z.of_nat nc) by lia. assert (pb <> 0) by (intros ->; discriminate O).
      apply arm_pairs_refines; try assumption; try lia. replace (pb - 1) with (Z.pred pb) by lia. rewrite Z.even_pred. exact O.
    - apply arm_pairs_refines; try assumption; try lia. rewrite <- Z.negb_odd, O. reflexivity.
  Qed.
End correlations.

(** ** NEON *)
Definition quad (l : list Z) (p : Z) : q4 := (znth l p 0, znth l (p + 1) 0, znth l (p + 2) 0, znth l (p + 3) 0).
Definition vsum (u : q4) : Z := let '(u0, u1, u2, u3) := u in u0 + u1 + u2 + u3.
Lemma vld1_ok l p : 0 <= p -> p + 4 <= zlen l -> vld1 l p = ret (quad l p).
Proof. intros H1 H2. unfold vld1. rewrite !rdm_znth by lia. reflexivity. Qed.
Lemma i32_sum4 a b c d : i32 (i32 a + i32 b + i32 c + i32 d) = i32 (a + b + c + d).
Proof.
  replace (i32 a + i32 b + i32 c + i32 d) with (i32 a + (i32 b + i32 c + i32 d)) by lia. rewrite i32_add. replace (a + (i32 b + i32 c + i32 d)) with (i32 b + (a + (i32 c + i32 d))) by lia. rewrite i32_add.
  replace (b + (a + (i32 c + i32 d))) with (i32 c + (b + a + i32 d)) by lia. rewrite i32_add. replace (c + (b + a + i32 d)) with (i32 d + (c + (b + a))) by lia. rewrite i32_add. f_equal. lia.
Qed.
Lemma conv4 a p b q : conv 4 a p b q = znth a p 0 * znth b q 0 + znth a (p + 1) 0 * znth b (q + 1) 0 + znth a (p + 2) 0 * znth b (q + 2) 0 + znth a (p + 3) 0 * znth b (q + 3) 0.
Proof. cbn [conv]. replace (p + 1 + 1) with (p + 2) by lia. replace (q + 1 + 1) with (q + 2) by lia. replace (p + 2 + 1) with (p + 3) by lia. replace (q + 2 + 1) with (q + 3) by lia. lia. Qed.
Lemma vmlal_sum u x px h ph : vaddvq_s32 (vmlal u (quad x px) (quad h ph)) = i32 (vsum u + conv 4 x px h ph).
Proof. destruct u as [[[u0 u1] u2] u3]. unfold vmlal, quad, vaddvq_s32, vsum. rewrite i32_sum4, conv4. f_equal. lia. Qed.
Lemma vsum_vaddvq u : vaddvq_s32 u = i32 (vsum u).
Proof. destruct u as [[[u0 u1] u2] u3]. reflexivity. Qed.

Lemma neon_fir_value x h : forall n px ph u, 0 <= px -> px + 4 * Z.of_nat n <= zlen x -> 0 <= ph -> ph + 4 * Z.of_nat n <= zlen h ->
  exists u', neon_fir n x px h ph u = ret u' /\ vaddvq_s32 u' = i32 (vsum u + conv (4 * n) x px h ph).
Proof.
  induction n as [|n IH]; intros px ph u H1 H2 H3 H4; cbn [neon_fir].
  - exists u. split; [reflexivity|]. rewrite vsum_vaddvq. f_equal. change (4 * 0)%nat with O; cbn [conv]. lia.
  - rewrite (vld1_ok x px), (vld1_ok h ph), !bindm_ret by lia.
    destruct (IH (px + 4) (ph + 4) (vmlal u (quad x px) (quad h ph)) ltac:(lia) ltac:(lia) ltac:(lia) ltac:(lia)) as (u' & E & V). exists u'. split; [exact E|]. rewrite V.
    rewrite <- i32_add, <- vsum_vaddvq, vmlal_sum, i32_add. replace (4 * S n)%nat with (4 + 4 * n)%nat by lia. rewrite sp_app. f_equal. change (Z.of_nat 4) with 4. lia.
Qed.

Definition neon_rows (p w : Z) (h : list Z) (hn : list (list Z)) : bool :=
  (zlen hn =? p) && forallb (fun r => let row := znth hn r [] in (w <=? zlen row) && (r * w + w <=? zlen h) &&
    forallb (fun k => znth row k 0 =? znth h (r * w + k) 0) (map Z.of_nat (seq 0 (Z.to_nat w)))) (map Z.of_nat (seq 0 (Z.to_nat p))).

Lemma neon_resample_refines sh step n4 h hn x px K : neon_rows (2 ^ sh) (4 * n4) h hn = true -> 0 <= sh -> 0 < n4 -> 0 < step -> Forall s16 x -> Forall s16 h ->
  4 * n4 - 1 <= px -> px + K <= zlen x ->
  forall n hp y py i, 0 <= i -> i + step * (Z.of_nat n - 1) < 2 ^ sh * K \/ n = O ->
  refines (neon_resample n n4 sh step hn hp x (px - (4 * n4 - 1)) y py i) (resample n (2 ^ sh) step (4 * n4) h hp x (px - (4 * n4 - 1)) y py i).
Proof.
  intros Ht Hsh Hn4 Hst Sx Sh H1 H2. induction n as [|n IH]; intros hp y py i Hi Hn; cbn [neon_resample resample]; [apply refines_refl|].
  replace (2 ^ sh - 1) with (Z.ones sh) by (rewrite Z.ones_equiv; lia). rewrite Z.land_ones by lia. change (shr i sh) with (i / 2 ^ sh).
  assert (Hp : 0 < 2 ^ sh) by (apply Z.pow_pos_nonneg; lia). set (p := 2 ^ sh) in *. clearbody p.
  pose proof (Z.mod_pos_bound i p Hp) as Hr. set (r := i mod p) in *. assert (Hq : 0 <= i / p < K).
  { split; [apply Z.div_pos; lia|]. destruct Hn as [Hn|Hn]; [|lia]. apply Z.div_lt_upper_bound; [lia|]. nia. }
  set (q := i / p) in *. clearbody q r.
  unfold neon_rows in Ht. apply andb_prop in Ht as (Hl & Ht). rewrite forallb_forall in Ht. specialize (Ht r (in_range_z _ _ Hr)). cbv beta zeta in Ht. apply andb_prop in Ht as (Ht & Hv). apply andb_prop in Ht as (Hw & Hh). rewrite forallb_forall in Hv.
  assert (R : rdm hn r = ret (znth hn r [])). { unfold rdm. rewrite (rd_znth hn r []) by lia. reflexivity. } rewrite R, bindm_ret. set (row := znth hn r []) in *. clearbody row. clear R Hl.
  rewrite (vld1_ok x), (vld1_ok row), !bindm_ret by lia.
  destruct (neon_fir_value x row (Z.to_nat (n4 - 1)) (px - (4 * n4 - 1) + q + 4) 4 (vmull (quad x (px - (4 * n4 - 1) + q)) (quad row 0)) ltac:(lia) ltac:(lia) ltac:(lia) ltac:(lia)) as (u' & E & V).
  rewrite E, bindm_ret. assert (Hc : 0 <= r * (4 * n4)) by (apply Z.mul_nonneg_nonneg; lia).
  destruct (fir_value x h Sx Sh (Z.to_nat (4 * n4)) (px - (4 * n4 - 1) + q) (r * (4 * n4)) 0) as (o & G); try lia; [reflexivity|].
  assert (Ev : vaddvq_s32 u' = i32 (0 + conv (Z.to_nat (4 * n4)) x (px - (4 * n4 - 1) + q) h (r * (4 * n4)))).
  { rewrite V, <- i32_add, <- vsum_vaddvq. unfold vmull. rewrite vmlal_sum, i32_add. rewrite <- (sp_ext (Z.to_nat (4 * n4)) x (px - (4 * n4 - 1) + q) row 0 h (r * (4 * n4))).
    - replace (Z.to_nat (4 * n4)) with (4 + 4 * Z.to_nat (n4 - 1))%nat by lia. rewrite sp_app. change (Z.of_nat 4) with 4. change (0 + 4) with 4. f_equal.
    - intros k Hk. specialize (Hv k (in_range_z (4 * n4) k ltac:(lia))). cbv beta in Hv. rewrite Z.add_0_l. lia. }
  rewrite Ev. apply (refines_after _ _ o _ _ G). apply refines_bind; [apply refines_refl|]. intros s. apply refines_bind; [apply refines_refl|]. intros t. apply refines_bind; [apply refines_refl|]. intros v. apply refines_bind; [apply refines_refl|]. intros y'. apply IH; [lia|].
  destruct n; [right; reflexivity|left]. destruct Hn as [Hn|Hn]; [|lia]. lia.
Qed.

Theorem neon_resample_12k8_refines sr hp x px y py n K : 0 <= sr <= 6 -> Forall s16 x -> taps sr <= px -> px + K <= zlen x -> 0 <= n ->
  snd (ratio sr) * n <= fst (ratio sr) * K ->
  refines (neon_resample_12k8 sr hp x px y py n) (resample_12k8 sr hp x px y py n).
Proof.
  intros Hs Sx H1 H2 Hn HK. unfold resample_12k8.
  Ltac fin := match goal with H1 : taps ?s <= _, HK : snd (ratio ?s) * ?n <= fst (ratio ?s) * ?K |- _ => let t := eval vm_compute in (taps s) in change (taps s) with t in H1; let a := eval vm_compute in (ratio s) in change (ratio s) with a in HK; cbn [fst snd] in HK end.
  cases6 sr Hs.
  - apply refines_refl.
  - change (neon_resample_12k8 1 hp x px y py n) with (neon_resample (Z.to_nat n) 5 2 5 neon_h_16k hp x (px - (4 * 5 - 1)) y py 0).
    apply (refines_after (4, 5, 20, h_16k) _ false); [reflexivity|]. cbv beta iota. fin.
    apply (neon_resample_refines 2 5 5 h_16k neon_h_16k x px K); first [assumption | lia | apply all16_s16; vm_compute; reflexivity | vm_compute; reflexivity | change (2 ^ 2) with 4; lia].
  - apply refines_refl.
  - change (neon_resample_12k8 3 hp x px y py n) with (neon_resample (Z.to_nat n) 10 1 5 neon_h_32k hp x (px - (4 * 10 - 1)) y py 0).
    apply (refines_after (2, 5, 40, h_32k) _ false); [reflexivity|]. cbv beta iota. fin.
    apply (neon_resample_refines 1 5 10 h_32k neon_h_32k x px K); first [assumption | lia | apply all16_s16; vm_compute; reflexivity | vm_compute; reflexivity | change (2 ^ 1) with 2; lia].
  - change (neon_resample_12k8 4 hp x px y py n) with (neon_resample (Z.to_nat n) 15 2 15 neon_h_48k hp x (px - (4 * 15 - 1)) y py 0).
    apply (refines_after (4, 15, 60, h_48k) _ false); [reflexivity|]. cbv beta iota. fin.
    apply (neon_resample_refines 2 15 15 h_48k neon_h_48k x px K); first [assumption | lia | apply all16_s16; vm_compute; reflexivity | vm_compute; reflexivity | change (2 ^ 2) with 4; lia].
  - change (neon_resample_12k8 5 hp x px y py n) with (neon_resample (Z.to_nat n) 15 2 15 neon_h_48k hp x (px - (4 * 15 - 1)) y py 0).
    apply (refines_after (4, 15, 60, h_48k) _ false); [reflexivity|]. cbv beta iota. fin.
    apply (neon_resample_refines 2 15 15 h_48k neon_h_48k x px K); first [assumption | lia | apply all16_s16; vm_compute; reflexivity | vm_compute; reflexivity | change (2 ^ 2) with 4; lia].
  - apply refines_refl.
Qed.

(** Samples of 16 bits other than the least. *)
Definition sym16 (v : Z) : Prop := - 2 ^ 15 < v < 2 ^ 15.
Lemma sym16_s16 l : Forall sym16 l -> Forall s16 l.
Proof. apply Forall_impl. unfold sym16, s16. lia. Qed.
Lemma znth_sym16 l i : Forall sym16 l -> 0 <= i < zlen l -> sym16 (znth l i 0).
Proof. intros H Hi. rewrite Forall_forall in H. apply H. unfold znth, zlen in *. destruct (i <? 0) eqn:E; [lia|]. apply nth_In. lia. Qed.

Lemma lane a b c d : sym16 a -> s16 b -> sym16 c -> s16 d -> i32 (i32 (0 + a * b) + c * d) = a * b + c * d.
Proof. unfold sym16, s16. intros Ha Hb Hc Hd. rewrite i32_add. apply i32_in. assert (- (2 ^ 30 - 2 ^ 15) <= a * b <= 2 ^ 30 - 2 ^ 15) by nia. assert (- (2 ^ 30 - 2 ^ 15) <= c * d <= 2 ^ 30 - 2 ^ 15) by nia. lia. Qed.
Lemma i64_sum2 a b : i64 (i64 a + i64 b) = i64 (a + b).
Proof. rewrite i64_add, Z.add_comm, i64_add. f_equal. lia. Qed.

Definition tot (v : Z * Z) : Z := fst v + snd v.
Lemma vpadalq_sum v a p b q p' q' : Forall sym16 a -> Forall s16 b -> 0 <= p -> p + 8 <= zlen a -> 0 <= q -> q + 8 <= zlen b -> p' = p + 4 -> q' = q + 4 ->
  i64 (tot (vpadalq v (vmlal (vmull (quad a p) (quad b q)) (quad a p') (quad b q')))) = i64 (tot v + conv 8 a p b q).
Proof.
  intros Sa Sb H1 H2 H3 H4 -> ->. change 8%nat with (4 + 4)%nat. rewrite sp_app, !conv4. change (Z.of_nat 4) with 4. unfold vmull, vmlal, quad, vpadalq, tot. cbn [fst snd].
  assert (Va : forall i, p <= i < p + 8 -> sym16 (znth a i 0)) by (intros; apply znth_sym16; auto; lia). assert (Vb : forall i, q <= i < q + 8 -> s16 (znth b i 0)) by (intros; apply znth_s16; auto; lia).
  rewrite !lane by (try apply Va; try apply Vb; lia). rewrite i64_sum2. f_equal. lia.
Qed.
Lemma tot_add v w c d : i64 (tot w) = i64 (tot v + c) -> i64 (tot w + d) = i64 (tot v + (c + d)).
Proof. intros H. rewrite <- i64_add, H, i64_add. f_equal. lia. Qed.

Lemma neon_dot_acc_value a b : Forall sym16 a -> Forall s16 b -> forall n pa pb v, 0 <= pa -> pa + 16 * Z.of_nat n <= zlen a -> 0 <= pb -> pb + 16 * Z.of_nat n <= zlen b ->
  exists v', neon_dot_acc n a pa b pb v = ret v' /\ i64 (tot v') = i64 (tot v + conv (16 * n) a pa b pb).
Proof.
  intros Sa Sb. induction n as [|n IH]; intros pa pb v H1 H2 H3 H4; cbn [neon_dot_acc].
  - exists v. split; [reflexivity|]. change (16 * 0)%nat with O. cbn [conv]. f_equal. lia.
  - repeat (rewrite vld1_ok by lia; rewrite bindm_ret).
    edestruct (IH (pa + 16) (pb + 16)) as (v' & E & V); [lia|lia|lia|lia|]. exists v'. split; [exact E|]. rewrite V. clear E V.
    replace (16 * S n)%nat with (8 + (8 + 16 * n))%nat by lia. rewrite !sp_app. change (Z.of_nat 8) with 8. replace (pa + 8 + 8) with (pa + 16) by lia. replace (pb + 8 + 8) with (pb + 16) by lia.
    match goal with |- i64 (tot ?w + ?d) = i64 (tot ?v + (?c1 + (?c2 + ?d))) => replace (c1 + (c2 + d)) with ((c1 + c2) + d) by lia; apply tot_add end.
    rewrite vpadalq_sum by (auto; lia). apply tot_add. apply vpadalq_sum; auto; lia.
Qed.

Lemma vext_quad l p k : k = 1 \/ k = 2 \/ k = 3 -> vext (quad l p) (quad l (p + 4)) k = quad l (p + k).
Proof.
  unfold vext, quad. intros [-> | [-> | ->]]; cbn [Z.eqb Pos.eqb]; rewrite <- ?Z.add_assoc; reflexivity.
Qed.

Lemma neon_dots_value a b : Forall sym16 a -> Forall s16 b -> forall n pa pb v, 0 <= pa -> pa + 8 * Z.of_nat n <= zlen a -> 4 <= pb -> pb + 8 * Z.of_nat n <= zlen b ->
  exists v0 v1 v2 v3, neon_dots n a pa b pb (quad b (pb - 4)) v = ret (v0, v1, v2, v3) /\
    let '(u0, u1, u2, u3) := v in
    i64 (tot v0) = i64 (tot u0 + conv (8 * n) a pa b pb) /\ i64 (tot v1) = i64 (tot u1 + conv (8 * n) a pa b (pb - 1)) /\
    i64 (tot v2) = i64 (tot u2 + conv (8 * n) a pa b (pb - 2)) /\ i64 (tot v3) = i64 (tot u3 + conv (8 * n) a pa b (pb - 3)).
Proof.
  intros Sa Sb. induction n as [|n IH]; intros pa pb v H1 H2 H3 H4; cbn [neon_dots]; destruct v as [[[u0 u1] u2] u3].
  - exists u0, u1, u2, u3. split; [reflexivity|]. change (8 * 0)%nat with O. cbn [conv]. rewrite !Z.add_0_r. auto.
  - repeat (rewrite vld1_ok by lia; rewrite bindm_ret).
    pose proof (fun k H => vext_quad b (pb - 4) k H) as X. replace (pb - 4 + 4) with pb in X by lia. rewrite !X by auto. rewrite !(vext_quad b pb) by auto.
    match goal with |- context [neon_dots n a (pa + 8) b (pb + 8) _ ?v] => destruct (IH (pa + 8) (pb + 8) v) as (v0 & v1 & v2 & v3 & E & V0 & V1 & V2 & V3); [lia|lia|lia|lia|] end.
    replace (pb + 8 - 4) with (pb + 4) in E by lia. exists v0, v1, v2, v3. split; [exact E|]. clear E X.
    replace (8 * S n)%nat with (8 + 8 * n)%nat by lia. rewrite !sp_app. change (Z.of_nat 8) with 8.
    replace (pb + 8 - 1) with (pb - 1 + 8) in V1 by lia. replace (pb + 8 - 2) with (pb - 2 + 8) in V2 by lia. replace (pb + 8 - 3) with (pb - 3 + 8) in V3 by lia.
    rewrite V0, V1, V2, V3. replace (pb - 4 + 3) with (pb - 1) by lia. replace (pb - 4 + 2) with (pb - 2) by lia. replace (pb - 4 + 1) with (pb - 3) by lia.
    repeat split; apply tot_add, vpadalq_sum; auto; lia.
Qed.

Section neon_correlations.
  Context {F : Type} (ofz : Z -> F).
  Variables (a b : list Z) (pa n : Z).
  Hypotheses (Sa : Forall sym16 a) (Sb : Forall s16 b) (Hn : 0 <= n) (Hpa : 0 <= pa) (Hla : pa + n <= zlen a).

  Theorem neon_dot_refines pb : 0 <= pb -> pb + n <= zlen b -> refines (neon_dot ofz a pa b pb n) (dot ofz a pa b pb n).
  Proof.
    intros H3 H4. destruct (dot_value ofz a pa b pb n (sym16_s16 _ Sa) Sb Hn Hpa Hla H3 H4) as (o & E). unfold neon_dot, shr. change (2 ^ 4) with 16.
    assert (B : 0 <= 16 * (n / 16) <= n) by (Z.div_mod_to_equations; lia).
    destruct (neon_dot_acc_value a b Sa Sb (Z.to_nat (n / 16)) pa pb (0, 0)) as (v & G & V); try lia. rewrite G, bindm_ret.
    replace (16 * Z.to_nat (n / 16))%nat with (Z.to_nat (16 * (n / 16))) in V by lia. cbn [tot fst snd] in V. change (0 + 0) with 0 in V. rewrite Z.add_0_l in V.
    unfold vaddvq_s64. fold (tot v). rewrite V. apply (float_refines _ _ _ o), E.
  Qed.
  Lemma neon_rest_refines : forall nc pb, Z.of_nat nc - 1 <= pb -> 0 <= pb -> pb + n <= zlen b -> refines (neon_rest ofz nc a pa b pb n) (correlate ofz nc a pa b pb n).
  Proof.
    induction nc as [|nc IH]; intros pb H2 H3 H4; cbn [neon_rest correlate]; [apply refines_refl|].
    apply refines_bind; [apply neon_dot_refines; lia|]. intros d. destruct nc as [|nc]; [apply refines_refl|]. apply refines_bind; [|intros; apply refines_refl]. apply IH; lia.
  Qed.
  Theorem neon_correlate_refines : forall nc pb, Z.of_nat nc - 1 <= pb -> 0 <= pb -> pb + n <= zlen b -> Z.of_nat nc mod 4 <> 0 \/ Z.of_nat nc <= pb ->
    refines (neon_correlate ofz nc a pa b pb n) (correlate ofz nc a pa b pb n).
  Proof.
    assert (G : forall m nc pb, (nc < m)%nat -> Z.of_nat nc - 1 <= pb -> 0 <= pb -> pb + n <= zlen b -> Z.of_nat nc mod 4 <> 0 \/ Z.of_nat nc <= pb ->
      refines (neon_correlate ofz nc a pa b pb n) (correlate ofz nc a pa b pb n)); [|intros nc pb; apply (G (S nc)); lia].
    induction m as [|m IH]; intros nc pb Hm H2 H3 H4 H5; [lia|].
    destruct nc as [|[|[|[|nc]]]]; [apply (neon_rest_refines 0)|apply (neon_rest_refines 1)|apply (neon_rest_refines 2)|apply (neon_rest_refines 3)|]; try assumption.
    assert (P4 : 4 <= pb) by (destruct H5 as [H5|H5]; [destruct nc; [exfalso; apply H5; reflexivity|]|]; lia).
    assert (B : 0 <= 16 * (n / 16) <= n) by (Z.div_mod_to_equations; lia).
    destruct (dot_value ofz a pa b pb n (sym16_s16 _ Sa) Sb Hn Hpa Hla ltac:(lia) ltac:(lia)) as (o0 & E0).
    destruct (dot_value ofz a pa b (pb - 1) n (sym16_s16 _ Sa) Sb Hn Hpa Hla ltac:(lia) ltac:(lia)) as (o1 & E1).
    destruct (dot_value ofz a pa b (pb - 2) n (sym16_s16 _ Sa) Sb Hn Hpa Hla ltac:(lia) ltac:(lia)) as (o2 & E2).
    destruct (dot_value ofz a pa b (pb - 3) n (sym16_s16 _ Sa) Sb Hn Hpa Hla ltac:(lia) ltac:(lia)) as (o3 & E3).
    cbn [neon_correlate correlate]. rewrite vld1_ok, bindm_ret by lia. unfold shr. change (2 ^ 4) with 16.
    destruct (neon_dots_value a b Sa Sb (Z.to_nat (2 * (n / 16))) pa pb ((0, 0), (0, 0), (0, 0), (0, 0))) as (v0 & v1 & v2 & v3 & G & V0 & V1 & V2 & V3); try lia.
    rewrite G, bindm_ret. clear G. cbn [tot fst snd] in V0, V1, V2, V3. replace (8 * Z.to_nat (2 * (n / 16)))%nat with (Z.to_nat (16 * (n / 16))) in V0, V1, V2, V3 by lia. change (0 + 0) with 0 in V0, V1, V2, V3. rewrite Z.add_0_l in V0, V1, V2, V3.
    unfold vaddvq_s64. fold (tot v0) (tot v1) (tot v2) (tot v3). rewrite V0, V1, V2, V3.
    replace (pb - 1 - 1) with (pb - 2) by lia. replace (pb - 2 - 1) with (pb - 3) by lia. replace (pb - 3 - 1) with (pb - 4) by lia.
    apply refines_bind; [apply (float_refines _ _ _ o0), E0|]. intros y0. rewrite bindm_assoc.
    apply refines_bind; [apply (float_refines _ _ _ o1), E1|]. intros y1. rewrite !bindm_assoc.
    apply refines_bind; [apply (float_refines _ _ _ o2), E2|]. intros y2. rewrite !bindm_assoc.
    apply refines_bind; [apply (float_refines _ _ _ o3), E3|]. intros y3. rewrite !bindm_assoc.
    apply refines_bind; [|intros r; rewrite !bindm_ret; apply refines_refl].
    apply IH; try lia. destruct H5 as [H5|H5]; [left|right; lia]. replace (Z.of_nat (S (S (S (S nc))))) with (Z.of_nat nc + 1 * 4) in H5 by lia. rewrite Z.mod_add in H5 by lia. exact H5.
  Qed.
End neon_correlations.
