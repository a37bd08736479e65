(** * Transforms in binary32: bounds of the values, null signals
    The grades of [MdctGrade] with the tables of the code: a value of grade [k] is finite and
    at most 2^k, or null. *)
From Coq Require Import Reals ZArith List Bool Lia Lra ZifyBool.
From Flocq Require Import Core.Core IEEE754.BinarySingleNaN.
From Verif Require Import Base BaseProofs ConfigModel FloatLaws MdctModel MdctTables MdctTwiddles MdctProofs MdctFft MdctStream MdctWindows MdctGrade FloatOps F32Model F32Proofs SynthModel EncModel.
Import ListNotations.
Local Open Scope Z_scope.

(** A zero, of any sign. *)
Definition zero32 (x : f32) : Prop := exists s, x = B754_zero s.
Lemma zero_add x y : zero32 x -> zero32 y -> zero32 (Add x y).
Proof. intros (s & ->) (t & ->). destruct s, t; eexists; reflexivity. Qed.
Lemma zero_sub x y : zero32 x -> zero32 y -> zero32 (Sub x y).
Proof. intros (s & ->) (t & ->). destruct s, t; eexists; reflexivity. Qed.
Lemma zero_opp x : zero32 x -> zero32 (Bopp x).
Proof. intros (s & ->). eexists. reflexivity. Qed.
Lemma zero_mul x y : zero32 x -> fin y -> zero32 (Mul x y).
Proof. intros (s & ->) F. destruct y; try discriminate F; eexists; reflexivity. Qed.
Lemma zero_mul_l x y : fin x -> zero32 y -> zero32 (Mul x y).
Proof. intros F (s & ->). destruct x; try discriminate F; eexists; reflexivity. Qed.
Lemma zero_0 : zero32 (f32_dy 0 0).
Proof. exists false. reflexivity. Qed.
Lemma zero_dy k : zero32 (f32_dy 0 k).
Proof. exists false. reflexivity. Qed.
Lemma zero_pb e x : eok e -> zero32 x -> pb e x.
Proof. intros K (s & ->). split; [reflexivity|]. change (val (B754_zero s)) with 0%R. rewrite Rabs_R0, Rmult_1_l. apply bpow_ge_0. Qed.

(** ** The tables *)
Definition le1 (z : Z) : bool := Z.abs z <=? 2 ^ 80.
Definition le1c (c : Z * Z) : bool := le1 (fst c) && le1 (snd c).
Definition fft_small : bool :=
  le1 (k_cos1 tab_5) && le1 (k_cos2 tab_5) && le1 (k_sin1 tab_5) && le1 (k_sin2 tab_5) &&
  forallb (fun t => forallb (fun c => le1c (fst c) && le1c (snd c)) (t_t3 t)) tab_bf3 &&
  forallb (forallb (fun t => forallb le1c (t_t2 t))) tab_bf2.
Lemma fft_small_ok : fft_small = true. Proof. vm_compute. reflexivity. Qed.
Lemma rot_small_ok : MdctWindows.all_cfg (fun dt sr => forallb le1c (r_w (znth (znth tab_rot dt []) sr (mkRot 0 [])))) = true.
Proof. vm_compute. reflexivity. Qed.
Lemma win_small_ok : MdctWindows.all_cfg (fun dt sr => forallb (fun z => Z.abs z <=? 2 ^ 48) (znth (znth mdct_win dt []) sr [])) = true.
Proof. vm_compute. reflexivity. Qed.

Notation c80 := (fun z => f32_dy z 80).
Notation c47 := (fun z => f32_dy z 47).
Lemma le1_pb z : le1 z = true -> pb 0 (f32_dy z 80).
Proof. intros H. apply Z.leb_le in H. apply (pb_dy z 80 80); [unfold eok; lia|lia|exact H]. Qed.
Lemma le1c_W c : le1c c = true -> Wc (pb 0) (conv2 c80 c).
Proof. intros H. apply andb_prop in H. destruct H as (A & B). split; cbn [conv2 fst snd]; apply le1_pb; assumption. Qed.
Lemma znth_In_ {A} (l : list A) i d : 0 <= i < zlen l -> In (znth l i d) l.
Proof. intros H. unfold znth, zlen in *. destruct (i <? 0) eqn:E; [lia|]. apply nth_In. lia. Qed.
Lemma rdt_map_inv {A B} (g : A -> B) l i b : rdt (map g l) i = Some b -> exists a, rdt l i = Some a /\ b = g a.
Proof.
  unfold rdt. destruct (i <? 0); [discriminate|]. rewrite nth_error_map. destruct (nth_error l (Z.to_nat i)) as [a|]; [|discriminate]. cbn. intros [= <-]. eauto.
Qed.
Lemma rdt_In {A} (l : list A) i a : rdt l i = Some a -> In a l.
Proof. unfold rdt. destruct (i <? 0); [discriminate|]. apply nth_error_In. Qed.

Lemma code_fft_good : good_fft (f32_dy 0 0) (pb 0) (code_fft c80).
Proof.
  pose proof fft_small_ok as H. unfold fft_small in H. apply andb_prop in H as (H & H6). apply andb_prop in H as (H & H5). apply andb_prop in H as (H & H4). apply andb_prop in H as (H & H3). apply andb_prop in H as (H1 & H2).
  split; [|split].
  - repeat split; cbn [code_fft ft_5 conv_5 k_cos1 k_cos2 k_sin1 k_sin2]; apply le1_pb; assumption.
  - intros j tw i E Hi. cbn [code_fft ft_bf3] in E. apply rdt_map_inv in E. destruct E as (t & E & ->). apply rdt_In in E. rewrite forallb_forall in H5. specialize (H5 t E). cbv beta in H5. rewrite forallb_forall in H5.
    cbn [conv_3 t_t3] in *. pose proof (znth_In_ _ i (d2 (f32_dy 0 0)) Hi) as I. apply in_map_iff in I. destruct I as (c & <- & I). specialize (H5 c I). cbv beta in H5. apply andb_prop in H5. destruct H5. split; apply le1c_W; assumption.
  - intros j row a tw i Er E Hi. cbn [code_fft ft_bf2] in Er. apply rdt_map_inv in Er. destruct Er as (rw & Er & ->). apply rdt_map_inv in E. destruct E as (t & E & ->). apply rdt_In in Er, E.
    rewrite forallb_forall in H6. specialize (H6 rw Er). cbv beta in H6. rewrite forallb_forall in H6. specialize (H6 t E). cbv beta in H6. rewrite forallb_forall in H6.
    cbn [conv_2 t_t2] in *. pose proof (znth_In_ _ i (d1 (f32_dy 0 0)) Hi) as I. apply in_map_iff in I. destruct I as (c & <- & I). apply le1c_W, H6, I.
Qed.
Lemma code_rot_good dt sr : has_transform dt sr -> good_rot (f32_dy 0 0) (pb 0) (code_rot c80 dt sr).
Proof.
  intros Hc. pose proof (all_cfg_ok _ dt sr rot_small_ok Hc) as H. cbv beta in H. rewrite forallb_forall in H. intros i Hi. unfold code_rot in *. cbv zeta in *. cbn [r_w] in *.
  pose proof (znth_In_ _ i (d1 (f32_dy 0 0)) Hi) as I. apply in_map_iff in I. destruct I as (c & <- & I). apply le1c_W, H, I.
Qed.
Lemma code_win_good dt sr : has_transform dt sr -> good_win (f32_dy 0 0) (pb 1) (code_win c47 dt sr).
Proof.
  intros Hc. pose proof (all_cfg_ok _ dt sr win_small_ok Hc) as H. cbv beta in H. rewrite forallb_forall in H. intros i Hi. unfold code_win in *. unfold at_.
  assert (I : In (nth (Z.to_nat i) (map c47 (znth (znth mdct_win dt []) sr [])) (f32_dy 0 0)) (map c47 (znth (znth mdct_win dt []) sr []))) by (apply nth_In; unfold zlen in Hi; lia).
  apply in_map_iff in I. destruct I as (c & <- & I). apply (pb_dy c 47 48); [unfold eok; lia|lia|]. apply Z.leb_le, H, I.
Qed.

(** The factor of a change of the sample rate. *)
Definition ratio (a b : Z) : f32 := Bsqrt mode_NE (Div (f32_dy a 0) (f32_dy b 0)).
Definition ratio_check : bool := forallb (fun dt => forallb (fun sr => forallb (fun srp =>
  (srp <? sr) || (Bleb (ratio (c_ns dt sr) (c_ns dt srp)) (f32_dy 1 0) && Bleb (f32_dy 0 0) (ratio (c_ns dt sr) (c_ns dt srp)) &&
                  Bleb (ratio (c_ns dt srp) (c_ns dt sr)) (f32_dy 4 0) && Bleb (f32_dy 0 0) (ratio (c_ns dt srp) (c_ns dt sr))))
  [0; 1; 2; 3; 4; 5; 6]) [0; 1; 2; 3; 4; 5; 6]) [0; 1; 2; 3].
Lemma ratio_check_ok : ratio_check = true. Proof. vm_compute. reflexivity. Qed.
Lemma between_pb x k : 0 <= k <= 20 -> Bleb x (f32_dy (2 ^ k) 0) = true -> Bleb (f32_dy 0 0) x = true -> pb k x.
Proof.
  intros Hk H1 H2. destruct (dy_exact (2 ^ k) 0) as (F & V); [rewrite Z.abs_eq by (apply Z.pow_nonneg; lia); apply Z.pow_le_mono_r; lia|lia|].
  assert (Fx : is_finite x = true).
  { destruct x as [s|[|]| |s m e Hm]; try reflexivity; exfalso; [discriminate H2| |discriminate H2]. destruct (f32_dy (2 ^ k) 0); try discriminate F; discriminate H1. }
  split; [exact Fx|]. rewrite Bleb_correct in H1, H2 by (assumption || reflexivity). rewrite Rmult_1_l.
  change (B2R (f32_dy 0 0)) with 0%R in H2. fold (val x) (val (f32_dy (2 ^ k) 0)) in *. rewrite V in H1. change (p2 (- 0)) with 1%R in H1. rewrite Rmult_1_r in H1. change 2 with (radix_val radix2) in H1. rewrite IZR_Zpower in H1 by lia.
  destruct (Rle_bool_spec (val x) (p2 k)) as [L1|]; [|discriminate H1]. destruct (Rle_bool_spec 0 (val x)) as [L2|]; [|discriminate H2]. rewrite Rabs_pos_eq; assumption.
Qed.
Lemma ratio_down dt sr srp : 0 <= dt <= 3 -> 0 <= sr <= srp -> srp <= 6 -> pb 0 (ratio (c_ns dt sr) (c_ns dt srp)) /\ pb 2 (ratio (c_ns dt srp) (c_ns dt sr)).
Proof.
  intros Hd Hs Hp. pose proof ratio_check_ok as H. unfold ratio_check in H. rewrite forallb_forall in H. specialize (H dt ltac:(cbn [In]; lia)). cbv beta in H. rewrite forallb_forall in H. specialize (H sr ltac:(cbn [In]; lia)). cbv beta in H.
  rewrite forallb_forall in H. specialize (H srp ltac:(cbn [In]; lia)). cbv beta in H. replace (srp <? sr) with false in H by lia. cbn [orb] in H. apply andb_prop in H as (H & H4). apply andb_prop in H as (H & H3). apply andb_prop in H as (H1 & H2).
  split; apply between_pb; try lia; assumption.
Qed.

(** ** The transforms *)
Lemma opp_pb k x : pb k x -> pb k (Bopp x).
Proof. intros (F & H). split; [unfold fin; rewrite is_finite_Bopp; exact F|]. unfold val in *. rewrite B2R_Bopp, Rabs_Ropp. exact H. Qed.
Lemma shapes_f32 dt sr : has_transform dt sr -> shapes (code_fft c80) (code_rot c80 dt sr) (code_win c47 dt sr) dt sr.
Proof.
  intros Hc. pose proof (code_shapes c80 dt sr Hc) as (A & B & C & _). destruct (code_sizes c47 dt sr Hc) as (_ & _ & D). unfold shapes. cbv zeta. auto.
Qed.
Lemma ns_max dt sr : has_transform dt sr -> c_ns dt sr <= MAX_NS.
Proof. intros Hc. destruct (cfg_ok dt sr Hc) as (Q & H). tauto. Qed.
Lemma Forall_at (P : f32 -> Prop) l n : zlen l = n -> (forall q, 0 <= q < n -> P (at_ (f32_dy 0 0) l q)) -> Forall P l.
Proof.
  intros L H. apply Forall_forall. intros v Hv. destruct (In_nth l v (f32_dy 0 0) Hv) as (i & Hi & <-). specialize (H (Z.of_nat i)). unfold at_ in H. rewrite Nat2Z.id in H. apply H. unfold zlen in L. lia.
Qed.
Lemma at_Forall (P : f32 -> Prop) l q : Forall P l -> 0 <= q < zlen l -> P (at_ (f32_dy 0 0) l q).
Proof. intros H Hq. rewrite Forall_forall in H. apply H. unfold at_, zlen in *. apply nth_In. lia. Qed.

Section Float.
Context (nan : Z) (junk : f32).
Variable P : Z -> f32 -> Prop.
Hypothesis P_mono : forall k k' x, P k x -> k <= k' -> P k' x.
Hypothesis P_add : forall k x y, 0 <= k <= 90 -> P k x -> P k y -> P (k + 1) (Add x y).
Hypothesis P_sub : forall k x y, 0 <= k <= 90 -> P k x -> P k y -> P (k + 1) (Sub x y).
Hypothesis P_opp : forall k x, P k x -> P k (Bopp x).
Hypothesis P_mul : forall k e x w, 0 <= k <= 90 -> 0 <= e <= 2 -> P k x -> pb e w -> P (k + e) (Mul x w).
Let P_mul0 k x w : 0 <= k <= 90 -> P k x -> pb 0 w -> P k (Mul x w).
Proof. intros Hk Hx Hw. replace k with (k + 0) by lia. apply P_mul; auto; lia. Qed.
Let P_mul1 k x w : 0 <= k <= 90 -> P k x -> pb 1 w -> P (k + 1) (Mul x w).
Proof. intros Hk Hx Hw. apply P_mul; auto; lia. Qed.
Let P_mul2 k x w : 0 <= k <= 90 -> P k x -> pb 2 w -> P (k + 2) (Mul x w).
Proof. intros Hk Hx Hw. apply P_mul; auto; lia. Qed.

(** Forward transform of the encoder. *)
Lemma forward_values dt sr srp k x d y : has_transform dt srp -> 0 <= sr <= srp -> 0 <= k <= 40 ->
  Forall (P k) x -> Forall (P k) d -> zlen x = c_ns dt srp -> zlen d = c_nd dt srp -> zlen y = c_ns dt srp -> 0 <= c_ns dt sr <= c_ns dt srp -> c_ns dt sr mod 4 = 0 ->
  exists d' y', forward nan junk dt srp sr x d y = Some (d', y') /\ zlen d' = c_nd dt srp /\ zlen y' = c_ns dt srp /\ Forall (P k) d' /\ Forall (P (k + 23)) y'.
Proof.
  intros Hc Hs Hk Hx Hd Lx Ld Ly H0 H4. pose proof Hc as (C1 & C2 & _). pose proof (ns_max dt srp Hc) as Hm. assert (Lb : zlen (repeat junk (Z.to_nat MAX_NS)) = MAX_NS) by (unfold zlen; rewrite repeat_length; reflexivity).
  destruct (forward_grade (f32_dy 0 0) Add Sub Mul (@Bopp 24 128) P (pb 0) (pb 1) (pb 2) P_mono P_add P_sub P_opp P_mul0 P_mul1 P_mul2
    (code_fft c80) (code_rot c80 dt srp) (code_win c47 dt srp) dt srp (c_ns dt sr) (ratio (c_ns dt sr) (c_ns dt srp)) k x d y (repeat junk (Z.to_nat MAX_NS)))
    as (d' & y' & E & L1 & L2 & Vd & Vy); try lia; try assumption.
  - apply shapes_f32, Hc.
  - exact code_fft_good.
  - apply code_rot_good, Hc.
  - apply code_win_good, Hc.
  - intros _. apply ratio_down; lia.
  - intros q Hq. apply at_Forall; [exact Hx|lia].
  - intros q Hq. apply at_Forall; [exact Hd|lia].
  - exists d', y'. split; [exact E|]. split; [lia|]. split; [lia|]. split; [apply (Forall_at _ d' (c_nd dt srp))|apply (Forall_at _ y' (c_ns dt srp))]; auto; lia.
Qed.

(** Inverse transform of the decoder. *)
Lemma inverse_values dt sr srp k d y : has_transform dt srp -> 0 <= sr <= srp -> 0 <= k <= 40 ->
  Forall (P k) y -> Forall (P (k + 24)) d -> zlen d = c_nd dt srp -> zlen y = c_ns dt srp ->
  exists d' y', inverse (f32_ops nan) junk dt srp sr None d y = Some (d', y') /\ zlen d' = c_nd dt srp /\ zlen y' = c_ns dt srp /\ Forall (P (k + 24)) d' /\ Forall (P (k + 25)) y'.
Proof.
  intros Hc Hs Hk Hx Hd Ld Ly. pose proof Hc as (C1 & C2 & _). pose proof (ns_max dt srp Hc) as Hm. assert (Lb : zlen (repeat junk (Z.to_nat MAX_NS)) = MAX_NS) by (unfold zlen; rewrite repeat_length; reflexivity).
  destruct (inverse_grade (f32_dy 0 0) Add Sub Mul (@Bopp 24 128) P (pb 0) (pb 1) (pb 2) P_mono P_add P_sub P_opp P_mul0 P_mul1 P_mul2
    (code_fft c80) (code_rot c80 dt srp) (code_win c47 dt srp) dt srp (c_ns dt sr) (ratio (c_ns dt srp) (c_ns dt sr)) k None d y (repeat junk (Z.to_nat MAX_NS)))
    as (d' & y' & E & L1 & L2 & Vd & Vy); try (cbn [inp]; lia); try assumption.
  - apply shapes_f32, Hc.
  - exact code_fft_good.
  - apply code_rot_good, Hc.
  - apply code_win_good, Hc.
  - intros _. apply ratio_down; lia.
  - intros q Hq. cbn [inp]. apply at_Forall; [exact Hx|lia].
  - intros q Hq. apply at_Forall; [exact Hd|lia].
  - exists d', y'. split; [exact E|]. split; [lia|]. split; [lia|]. split; [apply (Forall_at _ d' (c_nd dt srp))|apply (Forall_at _ y' (c_ns dt srp))]; auto; lia.
Qed.
End Float.

(** ** The two uses *)
Lemma pb_grade_add k x y : 0 <= k <= 90 -> pb k x -> pb k y -> pb (k + 1) (Add x y). Proof. intros. apply pb_add; auto. unfold eok. lia. Qed.
Lemma pb_grade_sub k x y : 0 <= k <= 90 -> pb k x -> pb k y -> pb (k + 1) (Sub x y). Proof. intros. apply pb_sub; auto. unfold eok. lia. Qed.
Lemma pb_grade_mul k e x w : 0 <= k <= 90 -> 0 <= e <= 2 -> pb k x -> pb e w -> pb (k + e) (Mul x w). Proof. intros. apply pb_mul; auto. unfold eok. lia. Qed.
Definition forward_bound nan junk := forward_values nan junk pb (fun k k' x H L => pb_le k k' x H L) pb_grade_add pb_grade_sub opp_pb pb_grade_mul.
Definition inverse_bound nan junk := inverse_values nan junk pb (fun k k' x H L => pb_le k k' x H L) pb_grade_add pb_grade_sub opp_pb pb_grade_mul.
Definition forward_zero nan junk := forward_values nan junk (fun _ => zero32) (fun k k' x H L => H) (fun k x y _ => zero_add x y) (fun k x y _ => zero_sub x y) (fun k x => zero_opp x)
  (fun k e x w _ _ Hx Hw => zero_mul x w Hx (proj1 Hw)).
Definition inverse_zero nan junk := inverse_values nan junk (fun _ => zero32) (fun k k' x H L => H) (fun k x y _ => zero_add x y) (fun k x y _ => zero_sub x y) (fun k x => zero_opp x)
  (fun k e x w _ _ Hx Hw => zero_mul x w Hx (proj1 Hw)).
