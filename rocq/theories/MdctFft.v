(** * Transform: the sequence of stages of the FFT *)
From Coq Require Import ZArith List Bool Lia ZifyBool.
From Verif Require Import Base BaseProofs ConfigModel MdctModel MdctProofs.
Import ListNotations.
Local Open Scope Z_scope.

(** The number of points of the transform: [5 * 3^a * 2^b]. *)
Definition fft_size (a b : Z) : Z := 5 * 3 ^ a * 2 ^ b.

Lemma pow2_cond a b : 0 <= a <= 2 -> 0 <= b <= 5 ->
  negb (Z.land (3 ^ a * 2 ^ b) (3 ^ a * 2 ^ b - 1) =? 0) = (0 <? a).
Proof.
  intros Ha Hb. assert (a = 0 \/ a = 1 \/ a = 2) as Ca by lia. assert (b = 0 \/ b = 1 \/ b = 2 \/ b = 3 \/ b = 4 \/ b = 5) as Cb by lia.
  destruct Ca as [->|[->| ->]]; destruct Cb as [->|[->|[->|[->|[->| ->]]]]]; reflexivity.
Qed.

Section Fft.
Context {F : Type} (f0 : F) (add sub mul : F -> F -> F).
Notation cat := (cat f0).
Notation d1 := (d1 f0).
Notation d2 := (d2 f0).

(** The table of a butterfly of radix 3 after the product [L] of the previous radixes. *)
Definition shape3 (tw : @bf3_twiddles F) (L : Z) : Prop := t_n3 tw = L /\ zlen (t_t3 tw) = 3 * L.
Definition shape2 (tw : @bf2_twiddles F) (L : Z) : Prop := t_n2 tw = L /\ zlen (t_t2 tw) = L.
(** The tables used for the size [5 * 3^a * 2^b]. *)
Definition shape_fft (T : @fft_tables F) (a b : Z) : Prop :=
  (forall j, 0 <= j < a -> exists tw, rdt (ft_bf3 T) j = Some tw /\ shape3 tw (5 * 3 ^ j)) /\
  (forall j, 0 <= j < b -> exists row tw, rdt (ft_bf2 T) j = Some row /\ rdt row a = Some tw /\ shape2 tw (5 * 3 ^ a * 2 ^ j)).

Section Stages.
(** [St n L y]: the buffer [y] holds the values after the stages of product [L], [n] remaining. *)
Variables (T : @fft_tables F) (a b : Z) (St : Z -> Z -> list F -> Prop) (y0 y1 : list F).
Let P := fft_size a b.
Hypothesis Ha : 0 <= a <= 2.
Hypothesis Hb : 0 <= b <= 5.
Hypothesis Sh : shape_fft T a b.
Hypothesis L0 : 2 * P <= zlen y0.
Hypothesis L1 : 2 * P <= zlen y1.
Hypothesis St5 : forall y' n, n = 3 ^ a * 2 ^ b ->
  (forall i r, 0 <= i < n -> 0 <= r < 5 ->
    cat y' (5 * i + r) = fft5_out add sub mul (ft_5 T) (cat y0 i) (cat y0 (i + n)) (cat y0 (i + 2 * n)) (cat y0 (i + 3 * n)) (cat y0 (i + 4 * n)) r) -> St n 5 y'.
Hypothesis St3 : forall j tw n L c c', 0 <= j < a -> rdt (ft_bf3 T) j = Some tw -> L = 5 * 3 ^ j -> 0 < n -> n * (3 * L) = P -> St (3 * n) L c ->
  (forall i r k, 0 <= i < n -> 0 <= r < 3 -> 0 <= k < L ->
    cat c' (i * (3 * L) + r * L + k) =
    bf3_out add sub mul (cat c (i * L + k)) (cat c ((i + n) * L + k)) (cat c ((i + 2 * n) * L + k)) (znth (t_t3 tw) (r * L + k) d2)) -> St n (3 * L) c'.
Hypothesis St2 : forall j row tw n L c c', 0 <= j < b -> rdt (ft_bf2 T) j = Some row -> rdt row a = Some tw -> L = 5 * 3 ^ a * 2 ^ j -> 0 < n -> n * (2 * L) = P -> St (2 * n) L c ->
  (forall i r k, 0 <= i < n -> 0 <= r < 2 -> 0 <= k < L ->
    cat c' (i * (2 * L) + r * L + k) = bf2_out add sub mul (cat c (i * L + k)) (cat c ((i + n) * L + k)) (znth (t_t2 tw) k d1) r) -> St n (2 * L) c'.

Lemma fft_stages : exists is1 cur other, fft f0 add sub mul T P y0 y1 = Some (is1, (cur, other)) /\ St 1 P cur /\
  zlen (if is1 : bool then cur else other) = zlen y1 /\ zlen (if is1 then other else cur) = zlen y0.
Proof.
  assert (P3 : forall k, 0 <= k -> 0 < 3 ^ k) by (clear; intros; apply Z.pow_pos_nonneg; [reflexivity|assumption]).
  assert (P2 : forall k, 0 <= k -> 0 < 2 ^ k) by (clear; intros; apply Z.pow_pos_nonneg; [reflexivity|assumption]).
  assert (Q3 : forall k, 0 <= k -> 3 ^ (k + 1) = 3 * 3 ^ k) by (clear; intros; rewrite Z.pow_add_r by lia; apply Z.mul_comm).
  assert (Q2 : forall k, 0 <= k -> 2 ^ (k + 1) = 2 * 2 ^ k) by (clear; intros; rewrite Z.pow_add_r by lia; apply Z.mul_comm).
  destruct Sh as [S3 S2]. unfold fft.
  assert (EP : P = 5 * (3 ^ a * 2 ^ b)) by (unfold P, fft_size; ring).
  replace (P / 5) with (3 ^ a * 2 ^ b) by (rewrite EP, (Z.mul_comm 5); symmetry; apply Z.div_mul; discriminate).
  pose proof (P3 a ltac:(lia)) as Pa. pose proof (P2 b ltac:(lia)) as Pb.
  assert (Pab : 0 < 3 ^ a * 2 ^ b) by nia.
  destruct (fft_5_ok f0 add sub mul (ft_5 T) y0 y1 (3 ^ a * 2 ^ b) ltac:(lia) ltac:(lia) ltac:(lia)) as (y5 & E5 & L5 & V5). rewrite E5. cbn [bind].
  pose proof (St5 y5 _ eq_refl V5) as I5.
  match goal with |- context [while ?fu ?c ?f ?st] =>
    destruct (while_inv (fun j '(n, i3, (is1, (cur, other))) => n = 3 ^ (a - j) * 2 ^ b /\ i3 = j /\ St n (5 * 3 ^ j) cur /\
      zlen (if is1 : bool then cur else other) = zlen y1 /\ zlen (if is1 then other else cur) = zlen y0) c f a ltac:(lia)) with (fuel := fu) (s := st) as (s & E & V) end.
  - intros j [[n i3] [is1 [cur other]]] Hj (-> & _). rewrite pow2_cond by lia. lia.
  - intros j [[n i3] [is1 [cur other]]] Hj (-> & -> & I & La & Lb).
    destruct (S3 j Hj) as (tw & Et & Sn & Sl). rewrite Et. cbn [bind].
    set (n := 3 ^ (a - (j + 1)) * 2 ^ b). assert (En : 3 ^ (a - j) * 2 ^ b = 3 * n) by (unfold n; replace (a - j) with (a - (j + 1) + 1) by lia; rewrite Q3 by lia; ring).
    rewrite En in *. replace (3 * n / 3) with n by (rewrite Z.mul_comm, Z.div_mul; lia).
    pose proof (P3 j ltac:(lia)) as Pj. assert (Hn : 0 < n) by (pose proof (P3 (a - (j + 1)) ltac:(lia)); unfold n; nia).
    assert (EL : n * (3 * (5 * 3 ^ j)) = P).
    { unfold n. rewrite EP. replace (3 ^ a) with (3 ^ (a - (j + 1)) * 3 ^ (j + 1)) by (rewrite <- Z.pow_add_r by lia; f_equal; lia). rewrite Q3 by lia. ring. }
    assert (Lc : 2 * P <= zlen cur /\ 2 * P <= zlen other) by (destruct is1; lia).
    destruct (fft_bf3_ok f0 add sub mul tw cur other n (5 * 3 ^ j) ltac:(lia) ltac:(lia) Sn Sl ltac:(lia) ltac:(lia)) as (c' & E & Lc' & V).
    rewrite E. cbn [bind]. eexists. split; [reflexivity|]. cbn beta iota. split; [reflexivity|]. split; [reflexivity|]. split.
    + replace (5 * 3 ^ (j + 1)) with (3 * (5 * 3 ^ j)) by (rewrite Q3 by lia; ring). exact (St3 j tw n _ cur c' Hj Et eq_refl Hn EL I V).
    + destruct is1; cbn [negb]; lia.
  - cbn beta iota. rewrite Z.sub_0_r. split; [reflexivity|]. split; [reflexivity|]. split; [exact I5|]. split; [exact L5|reflexivity].
  - assert (a < 3 ^ a) by (apply Z.pow_gt_lin_r; lia). nia.
  - rewrite E. cbn [bind]. destruct s as [[n i3] [is1 [cur other]]]. destruct V as (-> & -> & I & La & Lb).
    rewrite Z.sub_diag in *. change (3 ^ 0) with 1 in *. rewrite Z.mul_1_l in *.
    match goal with |- context [while ?fu ?c ?f ?st] =>
      destruct (while_inv (fun j '(n, i2, (is1, (cur, other))) => n = 2 ^ (b - j) /\ i2 = j /\ St n (5 * 3 ^ a * 2 ^ j) cur /\
        zlen (if is1 : bool then cur else other) = zlen y1 /\ zlen (if is1 then other else cur) = zlen y0) c f b ltac:(lia)) with (fuel := fu) (s := st) as (s & E' & V) end.
    + intros j [[n i2] [is [c o]]] Hj (-> & _). destruct (Z.eq_dec j b) as [->|N].
      * rewrite Z.sub_diag. change (2 ^ 0) with 1. lia.
      * assert (1 < 2 ^ (b - j)) by (apply Z.pow_gt_1; lia). lia.
    + intros j [[n i2] [is [c o]]] Hj (-> & -> & Ij & Lc & Lo).
      destruct (S2 j Hj) as (row & tw & Er & Et & Sn & Sl). rewrite Er. cbn [bind]. rewrite Et. cbn [bind].
      set (n := 2 ^ (b - (j + 1))). assert (En : 2 ^ (b - j) = 2 * n) by (unfold n; replace (b - j) with (b - (j + 1) + 1) by lia; rewrite Q2 by lia; ring).
      rewrite En in *. replace (2 * n / 2) with n by (rewrite Z.mul_comm, Z.div_mul; lia).
      pose proof (P2 j ltac:(lia)) as Pj. assert (Hn : 0 < n) by (apply P2; lia).
      assert (EL : n * (2 * (5 * 3 ^ a * 2 ^ j)) = P).
      { unfold n. rewrite EP. replace (2 ^ b) with (2 ^ (b - (j + 1)) * 2 ^ (j + 1)) by (rewrite <- Z.pow_add_r by lia; f_equal; lia). rewrite Q2 by lia. ring. }
      assert (Lcc : 2 * P <= zlen c /\ 2 * P <= zlen o) by (destruct is; lia).
      destruct (fft_bf2_ok f0 add sub mul tw c o n (5 * 3 ^ a * 2 ^ j) ltac:(lia) ltac:(nia) Sn Sl ltac:(lia) ltac:(lia)) as (c' & Ec & Lc' & V).
      rewrite Ec. cbn [bind]. eexists. split; [reflexivity|]. cbn beta iota. split; [reflexivity|]. split; [reflexivity|]. split.
      * replace (5 * 3 ^ a * 2 ^ (j + 1)) with (2 * (5 * 3 ^ a * 2 ^ j)) by (rewrite Q2 by lia; ring). exact (St2 j row tw n _ c c' Hj Er Et eq_refl Hn EL Ij V).
      * destruct is; cbn [negb]; lia.
    + cbn beta iota. rewrite Z.sub_0_r. split; [reflexivity|]. split; [reflexivity|]. split; [rewrite Z.mul_1_r; exact I|]. split; assumption.
    + assert (b < 2 ^ b) by (apply Z.pow_gt_lin_r; lia). lia.
    + rewrite E'. cbn [bind]. destruct s as [[n i2] [is [c o]]]. destruct V as (-> & -> & Ij & Lc & Lo). rewrite Z.sub_diag in Ij. exists is, c, o.
      split; [reflexivity|]. split; [exact Ij|]. split; assumption.
Qed.
End Stages.

(** Without values: the FFT is safe. *)
Lemma fft_safe T a b y0 y1 : 0 <= a <= 2 -> 0 <= b <= 5 -> shape_fft T a b -> 2 * fft_size a b <= zlen y0 -> 2 * fft_size a b <= zlen y1 ->
  exists is1 cur other, fft f0 add sub mul T (fft_size a b) y0 y1 = Some (is1, (cur, other)) /\
  zlen (if is1 : bool then cur else other) = zlen y1 /\ zlen (if is1 then other else cur) = zlen y0.
Proof.
  intros Ha Hb Sh L0 L1.
  destruct (fft_stages T a b (fun _ _ _ => True) y0 y1 Ha Hb Sh L0 L1) as (i & c & o & E & _ & A & B); auto.
  exists i, c, o. auto.
Qed.
End Fft.
