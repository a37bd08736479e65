(** * The writer produces the frame described by the abstract state *)
From Coq Require Import ZArith List Bool Lia ZifyBool.
From Verif Require Import Base BaseProofs BitsModel BitsWriteSafe BitsAbstract.
Import ListNotations.
Local Open Scope Z_scope.

(** ** Arithmetic coder *)

(** The bytes [fwd] are output, then the cached byte and [cc] bytes 0xff are
    pending, with a carry that can still come. [R] is the width of the interval. *)
Definition ac_inv (fwd : list Z) (w : wst) (R B : Z) : Prop :=
  (w_carry w = 1 -> w_low w + R <= 2 ^ 24) /\
  B = ((bval fwd * 256 + Z.max (w_cache w) 0 + 1) * 256 ^ w_cc w - 1 + w_carry w)
      * 2 ^ 24 + w_low w /\
  B + R <= (2 ^ 24 - 1) * 256 ^ w_k w /\
  (0 <= w_cache w ->
     B + R <= (bval fwd + 1) * 256 ^ (w_cc w + 1) * 2 ^ 24) /\
  (w_cache w < 0 -> fwd = [] /\ w_carry w = 0).

(** Output of one byte. *)
Lemma ac_put_split lo L w b fwd x mid :
  WB lo L w -> w_buf w = fwd ++ x :: mid -> zlen fwd = w_fw w -> 0 <= b < 256 ->
  w_buf (ac_put w b) = (fwd ++ [b]) ++ mid /\ w_fw (ac_put w b) = w_fw w + 1.
Proof.
  intros H Eb Ef Hb. unfold ac_put.
  assert (Hlt : w_fw w < zlen (w_buf w)).
  { rewrite Eb, zlen_app, zlen_cons, Ef. pose proof (zlen_nonneg mid). lia. }
  replace (w_fw w <? zlen (w_buf w)) with true by lia.
  wproj. split; [|lia].
  rewrite Eb, <- Ef, upd_mid, u8_small by lia. rewrite <- app_assoc. reflexivity.
Qed.

Lemma ac_put_n_split lo L n w b fwd xs mid :
  WB lo L w -> w_buf w = fwd ++ xs ++ mid -> zlen fwd = w_fw w ->
  zlen xs = Z.of_nat n -> 0 <= b < 256 ->
  w_buf (ac_put_n n w b) = (fwd ++ repeat b n) ++ mid /\
  w_fw (ac_put_n n w b) = w_fw w + Z.of_nat n.
Proof.
  revert w fwd xs. induction n as [|n IH]; intros w fwd xs H Eb Ef Ex Hb.
  - apply zlen_0 in Ex. subst xs. cbn [ac_put_n repeat app] in *.
    rewrite app_nil_r. split; [exact Eb|lia].
  - destruct xs as [|x xs]; [change (zlen (@nil Z)) with 0 in Ex; lia|].
    rewrite zlen_cons in Ex. cbn [app] in Eb.
    destruct (ac_put_split _ _ _ b _ _ _ H Eb Ef Hb) as (E1 & F1).
    destruct (ac_put_spec _ _ w b H) as (H1 & _).
    cbn [ac_put_n].
    destruct (IH (ac_put w b) (fwd ++ [b]) xs H1 E1) as (E2 & F2); auto.
    + rewrite zlen_app, zlen_cons. change (zlen (@nil Z)) with 0. lia.
    + lia.
    + split; [|lia]. rewrite E2. cbn [repeat]. rewrite <- !app_assoc. reflexivity.
Qed.

(** One shift of the arithmetic coder. *)
Lemma ac_shift_sim lo L w fwd mid R B :
  WB lo L w -> w_buf w = fwd ++ mid -> zlen fwd = w_fw w ->
  ac_inv fwd w R B -> 0 < R ->
  ((w_low w < 16711680 \/ w_carry w <> 0) -> w_low w + R <= 2 ^ 24) ->
  w_k w - w_fw w <= zlen mid ->
  exists fwd' mid', w_buf (ac_shift w) = fwd' ++ mid' /\
    zlen fwd' = w_fw (ac_shift w) /\
    w_k (ac_shift w) = w_k w + 1 /\
    (w_fw (ac_shift w) = w_fw w /\ mid' = mid \/
     exists xs, mid = xs ++ mid' /\ zlen xs = w_k w - w_fw w /\
       w_fw (ac_shift w) = w_k w) /\
    w_low (ac_shift w) = (w_low w * 256) mod 2 ^ 24 /\
    ac_inv fwd' (ac_shift w) (R * 256) (B * 256) /\
    (w_low w < 16711680 \/ w_carry w <> 0 ->
       w_cc (ac_shift w) = 0 /\ 0 <= w_cache (ac_shift w)) /\
    w_carry (ac_shift w) = 0.
Proof.
  intros H Eb Ef (I1 & I2 & I3 & I4 & I5) HR Hroom Hmid.
  pose proof (wb_low _ _ _ H) as Hlow. pose proof (wb_cache _ _ _ H) as Hca.
  pose proof (wb_carry _ _ _ H) as Hcy. pose proof (wb_cc _ _ _ H) as Hcc.
  assert (Epow : 256 ^ (w_cc w + 1) = 256 ^ w_cc w * 256)
    by (rewrite Z.pow_add_r by lia; reflexivity).
  assert (Hpc : 0 < 256 ^ w_cc w) by (apply Z.pow_pos_nonneg; lia).
  assert (Hlow256 : 0 <= w_low w * 256 < 2 ^ 32) by lia.
  assert (Eland : Z.land (u32 (shl (w_low w) 8)) (2 ^ 24 - 1) = (w_low w * 256) mod 2 ^ 24).
  { rewrite land_24. unfold shl. change (2 ^ 8) with 256. rewrite u32_small by lia.
    reflexivity. }
  (* quotient and remainder of the shift *)
  pose proof (Z.div_mod (w_low w) (2 ^ 16) ltac:(lia)) as Hdm.
  pose proof (Z.mod_pos_bound (w_low w) (2 ^ 16) ltac:(lia)) as Hmb.
  assert (Hq : 0 <= w_low w / 2 ^ 16 <= 255).
  { split; [apply Z.div_pos; lia|].
    assert (w_low w / 2 ^ 16 < 256); [|lia]. apply Z.div_lt_upper_bound; lia. }
  assert (Elow' : (w_low w * 256) mod 2 ^ 24 = (w_low w mod 2 ^ 16) * 256).
  { symmetry. apply Z.mod_unique with (w_low w / 2 ^ 16); lia. }
  unfold ac_shift.
  destruct ((w_low w <? 16711680) || negb (w_carry w =? 0)) eqn:E.
  - (* output of the pending bytes *)
    assert (Hsum : w_low w + R <= 2 ^ 24) by (apply Hroom; lia).
    cbv zeta.
    set (c := w_carry w) in *.
    set (w1 := if 0 <=? w_cache w then ac_put w (w_cache w + c) else w).
    assert (S1 : exists f1 m1, WB lo L w1 /\ w_buf w1 = f1 ++ m1 /\ zlen f1 = w_fw w1 /\
       w_fw w1 = w_fw w + b2z (0 <=? w_cache w) /\
       bval f1 + 1 - c = (if 0 <=? w_cache w then bval fwd * 256 + w_cache w + 1 else 1) /\
       (exists xs, mid = xs ++ m1 /\ zlen xs = b2z (0 <=? w_cache w))).
    { unfold w1. destruct (0 <=? w_cache w) eqn:Ec; cbn [b2z].
      - assert (Hsm : 0 <= w_cache w + c < 256).
        { split; [lia|]. assert (c = 0 \/ c = 1) as [->|Hc1] by lia; [lia|].
          specialize (I4 ltac:(lia)). rewrite I2, Hc1, Epow in I4.
          rewrite Z.max_l in I4 by lia.
          set (P := 256 ^ w_cc w) in *. set (bf := bval fwd) in *.
          assert (((bf * 256 + w_cache w + 1) * P) * 2 ^ 24 <
                  ((bf + 1) * 256 * P) * 2 ^ 24) by lia.
          assert (bf * 256 + w_cache w + 1 < (bf + 1) * 256); [|lia].
          apply Z.mul_lt_mono_pos_r with P; [exact Hpc|]. lia. }
        destruct mid as [|x mid'].
        { change (zlen (@nil Z)) with 0 in Hmid. unfold w_k in Hmid.
          rewrite Ec in Hmid. cbn [b2z] in Hmid. lia. }
        destruct (ac_put_split _ _ _ (w_cache w + c) _ _ _ H Eb Ef Hsm) as (Ea & Fa).
        exists (fwd ++ [w_cache w + c]), mid'.
        split; [apply ac_put_spec; exact H|]. split; [exact Ea|].
        split. { rewrite zlen_app, zlen_cons. change (zlen (@nil Z)) with 0. lia. }
        split; [lia|]. split; [rewrite bval_snoc; lia|].
        exists [x]. split; [reflexivity|]. reflexivity.
      - destruct (I5 ltac:(lia)) as (-> & Hc0).
        exists [], mid. split; [exact H|]. split; [exact Eb|]. split; [exact Ef|].
        split; [lia|]. split; [rewrite bval_nil; fold c in Hc0; lia|].
        exists []. split; reflexivity. }
    clearbody w1. destruct S1 as (f1 & m1 & H1 & E1 & F1 & Fw1 & V1 & xs & X1 & X2).
    assert (Hm1 : w_cc w <= zlen m1).
    { rewrite X1, zlen_app, X2 in Hmid. unfold w_k in Hmid. lia. }
    destruct (split_at m1 (w_cc w) ltac:(lia)) as (ys & m2 & Em1 & Ey).
    assert (Hbv : 0 <= (if c =? 0 then 255 else 0) < 256) by (destruct (c =? 0); lia).
    rewrite Em1 in E1.
    destruct (ac_put_n_split _ _ (Z.to_nat (w_cc w)) w1 _ f1 ys m2 H1 E1 F1
               ltac:(lia) Hbv) as (E2 & F2).
    set (w2 := ac_put_n _ w1 _) in *. clearbody w2.
    set (f2 := f1 ++ repeat _ _) in *.
    assert (V2 : bval f2 + 1 - c = (bval f1 + 1 - c) * 256 ^ w_cc w).
    { unfold f2. rewrite bval_app, zlen_repeat, Z2Nat.id by lia.
      assert (c = 0 \/ c = 1) as [Hc|Hc] by lia; rewrite Hc in *; cbn [Z.eqb].
      - rewrite bval_repeat255, Z2Nat.id by lia. ring.
      - rewrite bval_repeat0. ring. }
    assert (Z2 : zlen f2 = w_fw w2).
    { unfold f2. rewrite zlen_app, zlen_repeat, F1, F2. lia. }
    clearbody f2.
    exists f2, m2. wproj.
    split; [exact E2|]. split; [exact Z2|].
    assert (Hk : w_fw w2 = w_k w) by (unfold w_k; lia).
    unfold w_k at 1. wproj. unfold shr. 
    replace (0 <=? w_low w / 2 ^ 16) with true by lia. change (b2z true) with 1.
    split; [lia|].
    split.
    { right. exists (xs ++ ys). split; [rewrite X1, Em1; rewrite app_assoc; reflexivity|].
      split; [rewrite zlen_app; unfold w_k; lia|exact Hk]. }
    change (u32 (shl (w_low w) 8)) with (u32 (shl (w_low w) 8)).
    rewrite Eland. split; [reflexivity|].
    split; [|split; [lia|lia]].
    assert (EB : B = bval f2 * 2 ^ 24 + w_low w).
    { rewrite I2. f_equal. f_equal.
      assert (bval f2 + 1 - c =
        (bval fwd * 256 + Z.max (w_cache w) 0 + 1) * 256 ^ w_cc w); [|lia].
      rewrite V2, V1. f_equal. destruct (0 <=? w_cache w) eqn:Ec; [lia|].
      destruct (I5 ltac:(lia)) as (-> & _). rewrite bval_nil. lia. }
    unfold ac_inv. unfold w_k at 1. wproj.
    rewrite Z.pow_0_r. change (256 ^ (0 + 1)) with 256.
    rewrite Elow', EB. rewrite Z.max_l by lia.
    split; [lia|]. split; [lia|].
    split.
    { replace (0 <=? w_low w / 2 ^ 16) with true by lia. change (b2z true) with 1.
      replace (w_fw w2 + 1 + 0) with (w_k w + 1) by lia.
      rewrite Z.pow_add_r by (unfold w_k; pose proof (wb_fw _ _ _ H);
        pose proof (b2z_range (0 <=? w_cache w)); lia).
      change (256 ^ 1) with 256. rewrite EB in I3. lia. }
    split; [lia|]. lia.
  - (* one more pending 0xff *)
    cbv zeta. wproj. exists fwd, mid.
    split; [exact Eb|]. split; [exact Ef|].
    split; [unfold w_k; wproj; lia|]. split; [left; split; reflexivity|].
    rewrite Eland. split; [reflexivity|].
    split; [|split; [lia|lia]].
    assert (Hc0 : w_carry w = 0) by lia.
    assert (Hl : 16711680 <= w_low w) by lia.
    assert (E255 : w_low w / 2 ^ 16 = 255).
    { assert (255 <= w_low w / 2 ^ 16); [|lia]. apply Z.div_le_lower_bound; lia. }
    unfold ac_inv. unfold w_k at 1. wproj. rewrite Hc0 in *.
    rewrite Elow'.
    rewrite (Z.pow_add_r 256 (w_cc w + 1) 1) by lia.
    rewrite Epow. change (256 ^ 1) with 256.
    split; [lia|]. split; [lia|].
    split.
    { unfold w_k in I3.
      replace (w_fw w + b2z (0 <=? w_cache w) + (w_cc w + 1))
        with ((w_fw w + b2z (0 <=? w_cache w) + w_cc w) + 1) by lia.
      rewrite Z.pow_add_r by (pose proof (wb_fw _ _ _ H);
        pose proof (b2z_range (0 <=? w_cache w)); lia).
      change (256 ^ 1) with 256. lia. }
    split; [|exact I5].
    intros Hge. specialize (I4 Hge). rewrite Epow in I4. lia.
Qed.

Lemma app_split {A} (a b c d : list A) :
  a ++ b = c ++ d -> zlen a <= zlen c -> exists e, c = a ++ e /\ b = e ++ d.
Proof.
  revert c. induction a as [|x a IH]; intros c E H.
  - exists c. split; [reflexivity|exact E].
  - destruct c as [|y c].
    { rewrite zlen_cons in H. change (zlen (@nil A)) with 0 in H.
      pose proof (zlen_nonneg a). lia. }
    cbn [app] in E. injection E as -> E. rewrite !zlen_cons in H.
    destruct (IH c E ltac:(lia)) as (e & -> & ->). exists e. split; reflexivity.
Qed.

(** Restriction of the interval. *)
Lemma ac_inv_sub fwd w w' R B R' B' :
  ac_inv fwd w R B -> zlen fwd = w_fw w ->
  w_fw w' = w_fw w -> w_cache w' = w_cache w -> w_cc w' = w_cc w ->
  0 <= w_cc w -> 0 <= w_low w' -> 0 <= w_carry w' <= 1 -> 0 < R' ->
  B <= B' -> B' + R' <= B + R ->
  w_low w' + w_carry w' * 2 ^ 24 = w_low w + w_carry w * 2 ^ 24 + (B' - B) ->
  (w_carry w' = 1 -> w_low w' + R' <= 2 ^ 24) ->
  ac_inv fwd w' R' B'.
Proof.
  intros (I1 & I2 & I3 & I4 & I5) Ef E1 E2 E3 Hcc Hl Hc HR HB HBR HE HC.
  assert (Ek : w_k w' = w_k w) by (unfold w_k; congruence).
  unfold ac_inv. rewrite Ek, E2, E3.
  split; [exact HC|]. split; [lia|]. split; [lia|]. split; [lia|].
  intros Hneg. destruct (I5 Hneg) as (-> & Hc0). split; [reflexivity|].
  assert (w_carry w' = 1 \/ w_carry w' = 0) as [H1|H1] by lia; [exfalso|exact H1].
  change (zlen (@nil Z)) with 0 in Ef.
  assert (Ekc : w_k w = w_cc w).
  { unfold w_k. replace (0 <=? w_cache w) with false by lia. cbn [b2z]. lia. }
  rewrite Ekc in I3. rewrite bval_nil in I2. rewrite Z.max_r in I2 by lia.
  rewrite Z.mul_0_l, !Z.add_0_l, Z.mul_1_l in I2.
  assert (0 < 256 ^ w_cc w) by (apply Z.pow_pos_nonneg; lia).
  set (P := 256 ^ w_cc w) in *. lia.
Qed.

(** ** Layout of the buffer during writing *)

Definition lay (L : Z) (w : wst) (fwd mid bwd : list Z) : Prop :=
  w_buf w = fwd ++ mid ++ bwd /\ zlen fwd = w_fw w /\ zlen bwd = L - w_bw w.

Definition ac_st (L : Z) (w : wst) (R B : Z) (bwd : list Z) : Prop :=
  exists fwd mid, lay L w fwd mid bwd /\ ac_inv fwd w R B.

Definition accu_st (w : wst) (bwd : list Z) (W : Z) : Prop :=
  bval bwd + w_v w * 256 ^ zlen bwd = W /\ 0 <= w_v w < 2 ^ w_n w.

Lemma lay_mid lo L w fwd mid bwd :
  WB lo L w -> lay L w fwd mid bwd -> zlen mid = w_bw w - w_fw w.
Proof.
  intros H (E & Ef & Eb). pose proof (wb_len _ _ _ H) as HL.
  rewrite E, !zlen_app in HL. lia.
Qed.

Lemma renorm_step_sim L w B bwd :
  WB 1 L w -> w_range w < 65536 -> ac_st L w (w_range w) B bwd ->
  w_k w <= w_bw w ->
  ac_st L (renorm_step w) (w_range w * 256) (B * 256) bwd /\
  w_k (renorm_step w) = w_k w + 1.
Proof.
  intros H Hr (fwd & mid & HL & HI) Hk.
  pose proof (lay_mid _ _ _ _ _ _ H HL) as Hm.
  pose proof (ac_shift_WB _ _ _ H) as (_ & (Ab & _ & _) & _).
  destruct HL as (E & Ef & Eb).
  pose proof (wb_range _ _ _ H) as Hr'. pose proof (wb_bw _ _ _ H) as Hbw.
  pose proof HI as (I1 & _).
  destruct (ac_shift_sim _ _ w fwd (mid ++ bwd) (w_range w) B H E Ef HI ltac:(lia))
    as (fwd' & mid' & E' & Ef' & Ek' & Hmid' & _ & HI' & _).
  { intros [Hc|Hc]; [lia|]. apply I1. pose proof (wb_carry _ _ _ H). lia. }
  { rewrite zlen_app. pose proof (zlen_nonneg bwd). lia. }
  split.
  2:{ unfold renorm_step, w_k in *. cbv zeta. wproj. exact Ek'. }
  assert (Hx : exists m2, mid' = m2 ++ bwd).
  { destruct Hmid' as [(_ & ->)|(xs & Ex & Hx & _)]; [exists mid; reflexivity|].
    symmetry in Ex. destruct (app_split _ _ _ _ Ex ltac:(lia)) as (e & _ & ->).
    exists e. reflexivity. }
  destruct Hx as (m2 & ->).
  exists fwd', m2. unfold renorm_step. cbv zeta.
  split.
  - unfold lay. wproj. split; [exact E'|]. split; [exact Ef'|]. lia.
  - exact HI'.
Qed.

Lemma w_renorm_sim L w B bwd :
  WB 1 L w -> ac_st L w (w_range w) B bwd ->
  w_k (w_renorm 2 w) < w_bw w ->
  let j := jshift (w_range w) in
  ac_st L (w_renorm 2 w) (w_range w * 256 ^ j) (B * 256 ^ j) bwd /\
  w_range (w_renorm 2 w) = w_range w * 256 ^ j /\
  w_k (w_renorm 2 w) = w_k w + j.
Proof.
  intros H HS Hk j. unfold j, jshift. clear j.
  pose proof (wb_range _ _ _ H) as Hr. pose proof (wb_bw _ _ _ H) as Hbw.
  assert (Hkf : forall u, WB 1 L u -> w_fw u <= w_k u).
  { intros u Hu. unfold w_k. pose proof (b2z_range (0 <=? w_cache u)).
    pose proof (wb_cc _ _ _ Hu). lia. }
  rewrite w_renorm_S in *.
  destruct (w_range w <? 65536) eqn:E1.
  2:{ replace (w_range w <? 256) with false by lia.
      rewrite Z.pow_0_r, !Z.mul_1_r. split; [exact HS|]. lia. }
  destruct (renorm_step_WB _ _ H ltac:(lia)) as (H1 & A1 & R1 & K1).
  rewrite w_renorm_S in *. rewrite R1 in *.
  destruct (w_range w * 256 <? 65536) eqn:E2.
  - replace (w_range w <? 256) with true by lia.
    rewrite w_renorm_unfold in *.
    destruct (renorm_step_WB _ _ H1 ltac:(lia)) as (H2 & A2 & R2 & K2).
    rewrite R2, R1 in *.
    replace (w_range w * 256 * 256 <? 65536) with false in * by lia.
    pose proof (Hkf _ H2). pose proof (Hkf _ H1).
    assert (w_k (renorm_step (renorm_step w)) = w_k (renorm_step w) + 1) by lia.
    assert (w_k (renorm_step w) = w_k w + 1) by lia.
    destruct (renorm_step_sim _ _ _ _ H ltac:(lia) HS ltac:(lia)) as (S1 & _).
    rewrite <- R1 in S1. destruct A1 as (Ab1 & _ & _).
    destruct (renorm_step_sim _ _ _ _ H1 ltac:(lia) S1 ltac:(lia)) as (S2 & _).
    change (256 ^ 2) with (256 * 256). rewrite !Z.mul_assoc. rewrite R1 in S2.
    split; [exact S2|]. lia.
  - replace (w_range w <? 256) with false by lia.
    pose proof (Hkf _ H1).
    assert (w_k (renorm_step w) = w_k w + 1) by lia.
    destruct (renorm_step_sim _ _ _ _ H ltac:(lia) HS ltac:(lia)) as (S1 & _).
    rewrite Z.pow_1_r. split; [exact S1|]. lia.
Qed.

Lemma w_renorm_room L w B bwd :
  WB 1 L w -> ac_st L w (w_range w) B bwd ->
  w_k w + jshift (w_range w) <= w_bw w ->
  w_k (w_renorm 2 w) = w_k w + jshift (w_range w).
Proof.
  intros H HS. unfold jshift.
  pose proof (wb_range _ _ _ H) as Hr. rewrite w_renorm_S.
  destruct (w_range w <? 65536) eqn:E1.
  2:{ replace (w_range w <? 256) with false by lia. lia. }
  destruct (renorm_step_WB _ _ H ltac:(lia)) as (H1 & (Ab1 & _ & _) & R1 & _).
  rewrite w_renorm_S, R1. destruct (w_range w * 256 <? 65536) eqn:E2.
  - replace (w_range w <? 256) with true by lia. intros Hk.
    destruct (renorm_step_sim _ _ _ _ H ltac:(lia) HS ltac:(lia)) as (S1 & K1).
    rewrite <- R1 in S1.
    destruct (renorm_step_sim _ _ _ _ H1 ltac:(lia) S1 ltac:(lia)) as (_ & K2).
    destruct (renorm_step_WB _ _ H1 ltac:(lia)) as (_ & _ & R2 & _).
    rewrite w_renorm_unfold, R2, R1. replace (w_range w * 256 * 256 <? 65536) with false by lia. lia.
  - replace (w_range w <? 256) with false by lia. intros Hk.
    destruct (renorm_step_sim _ _ _ _ H ltac:(lia) HS ltac:(lia)) as (_ & K1). exact K1.
Qed.

(** ** Simulation of the abstract state *)

Record WSim (L : Z) (w : wst) (a : ast) : Prop := mkWSim {
  ws_wb : WB 65536 L w;
  ws_ac : exists bwd, ac_st L w (w_range w) (a_B a) bwd /\ accu_st w bwd (a_W a);
  ws_R : a_R a = w_range w;
  ws_k : a_k a = w_k w;
  ws_pos : a_pos a = 8 * (L - w_bw w) + w_n w }.

Lemma WSim_left L w a : WSim L w a -> w_bits_left w = a_left L a.
Proof.
  intros H. rewrite w_bits_left_k. unfold a_left.
  rewrite (ws_R _ _ _ H), (ws_k _ _ _ H), (ws_pos _ _ _ H). lia.
Qed.

Lemma WSim_init buf : bytes buf -> WSim (zlen buf) (w_setup buf) a_init.
Proof.
  intros Hb. constructor.
  - apply w_setup_WB. exact Hb.
  - exists []. split.
    + exists [], buf. split.
      * unfold lay, w_setup. wproj. rewrite app_nil_r.
        split; [reflexivity|]. split; [reflexivity|]. change (zlen (@nil Z)) with 0. lia.
      * unfold ac_inv, w_k, w_setup. wproj. cbn. repeat split; try lia.
    + unfold accu_st, w_setup, a_init. wproj. cbn. lia.
  - reflexivity.
  - reflexivity.
  - unfold w_setup, a_init. wproj. cbn [a_pos]. lia.
Qed.

Lemma put_symbol_sim L w a m s :
  op_ok (PutSym m s) -> WSim L w a -> 0 <= w_bits_left (put_symbol w m s) \/ 0 <= a_left L (a_sym a m s) ->
  WSim L (put_symbol w m s) (a_sym a m s).
Proof.
  intros Ho HW Hleft. pose proof (ws_wb _ _ _ HW) as H.
  destruct (put_symbol_WB _ _ _ _ Ho H) as (H' & (Ab & Av & An) & _).
  rewrite w_bits_left_k in Hleft. unfold a_left in Hleft.
  pose proof (range_bits_bounds _ (wb_range _ _ _ H')) as Hrb.
  pose proof (wb_n _ _ _ H') as Hn'.
  destruct HW as [_ (bwd & (fwd & mid & HL & HI) & HA) HR Hk Hpos].
  pose proof (wb_range _ _ _ H) as Hr. pose proof (wb_low _ _ _ H) as Hlow.
  pose proof (wb_carry _ _ _ H) as Hcy.
  destruct (sym_split _ _ _ Ho Hr) as (Hr1 & Hr2 & Hr3 & Hr4 & Hr5).
  unfold a_sym in *. cbv zeta in *. cbn [a_pos a_k a_R] in Hleft. rewrite HR in *.
  set (r := w_range w / 1024) in *.
  set (lo := r * sym_low m s) in *. set (R1 := r * sym_range m s) in *.
  revert H' Ab Av An Hleft Hrb Hn'. unfold put_symbol. cbv zeta.
  set (w1 := w_set_ac _ _ _ _ _ _).
  assert (Elow : u32 (w_low w + shr (w_range w) 10 * sym_low m s) = w_low w + lo).
  { unfold shr. change (2 ^ 10) with 1024. fold r. fold lo. apply u32_small. lia. }
  assert (ER1 : u32 (shr (w_range w) 10 * sym_range m s) = R1).
  { unfold shr. change (2 ^ 10) with 1024. fold r. fold R1. apply u32_small. lia. }
  assert (W1 : w_range w1 = R1 /\ w_low w1 = (w_low w + lo) mod 2 ^ 24 /\
      w_carry w1 = Z.lor (w_carry w) ((w_low w + lo) / 2 ^ 24) /\
      w_cache w1 = w_cache w /\ w_cc w1 = w_cc w /\ w_fw w1 = w_fw w /\
      w_buf w1 = w_buf w /\ w_bw w1 = w_bw w /\ w_n w1 = w_n w /\ w_v w1 = w_v w).
  { unfold w1. wproj. rewrite Elow, ER1, land_24. unfold shr. repeat split. }
  assert (H1 : WB 1 L w1).
  { destruct Ho as (Hm & Hs & _). pose proof Hm as (Hlen & _).
    assert (Hub : w_ub w || negb (inb s (zlen m)) = false).
    { rewrite (wb_ub _ _ _ H), Hlen. unfold inb.
      replace (0 <=? s) with true by lia. replace (s <? 17) with true by lia. reflexivity. }
    assert (Hcarry : 0 <= w_carry w1 <= 1).
    { destruct W1 as (_ & _ & -> & _).
      assert (Hq : (w_low w + lo) / 2 ^ 24 = 0 \/ (w_low w + lo) / 2 ^ 24 = 1).
      { assert (0 <= (w_low w + lo) / 2 ^ 24) by (apply Z.div_pos; lia).
        assert ((w_low w + lo) / 2 ^ 24 < 2) by (apply Z.div_lt_upper_bound; lia). lia. }
      assert (Hc : w_carry w = 0 \/ w_carry w = 1) by lia.
      destruct Hq as [-> | ->]; destruct Hc as [-> | ->]; cbn; lia. }
    assert (Hl1 : 0 <= w_low w1 < 2 ^ 24).
    { destruct W1 as (_ & -> & _). apply Z.mod_pos_bound. lia. }
    assert (Hr1' : 1 <= w_range w1 < 2 ^ 24) by lia.
    assert (Hub1 : w_ub w1 = false) by exact Hub.
    clear Elow ER1.
    destruct W1 as (_ & _ & _ & W4 & W5 & W6 & W7 & W8 & W9 & _).
    destruct H. constructor; auto; try congruence; lia. }
  replace (if w_range w1 <? 65536 then w_renorm 2 w1 else w1) with (w_renorm 2 w1)
    by (rewrite w_renorm_S; destruct (w_range w1 <? 65536); reflexivity).
  clearbody w1. clear Elow ER1.
  destruct W1 as (W1 & W2 & W3 & W4 & W5 & W6 & W7 & W8 & W9 & W10).
  intros H' Ab Av An Hleft Hrb Hn'.
  assert (HI1 : ac_inv fwd w1 R1 (a_B a + lo)).
  { pose proof HI as (I1 & _).
    pose proof (Z.div_mod (w_low w + lo) (2 ^ 24) ltac:(lia)) as Hdm.
    pose proof (Z.mod_pos_bound (w_low w + lo) (2 ^ 24) ltac:(lia)) as Hmb.
    assert (Hq : (w_low w + lo) / 2 ^ 24 = 0 \/ (w_low w + lo) / 2 ^ 24 = 1).
    { assert (0 <= (w_low w + lo) / 2 ^ 24) by (apply Z.div_pos; lia).
      assert ((w_low w + lo) / 2 ^ 24 < 2) by (apply Z.div_lt_upper_bound; lia). lia. }
    rewrite <- W2 in *.
    set (q := (w_low w + lo) / 2 ^ 24) in *. clearbody q.
    assert (Hc1 : w_carry w1 = w_carry w + q /\ (w_carry w = 1 -> q = 0)).
    { rewrite W3. assert (w_carry w = 0 \/ w_carry w = 1) as [Hc|Hc] by lia.
      - rewrite Hc. destruct Hq as [-> | ->]; cbn; lia.
      - specialize (I1 Hc). assert (Hq0 : q = 0) by lia.
        rewrite Hc, Hq0. cbn. lia. }
    destruct HL as (_ & Ef & _).
    apply ac_inv_sub with (w := w) (R := w_range w) (B := a_B a); auto; try lia.
    - exact (wb_cc _ _ _ H).
  }
  assert (HS1 : ac_st L w1 (w_range w1) (a_B a + lo) bwd).
  { exists fwd, mid. rewrite W1. split; [|exact HI1].
    destruct HL as (E & Ef & Eb). unfold lay. rewrite W7, W6, W8. auto. }
  pose proof (wb_n _ _ _ H) as Hn.
  assert (Hroom : w_k (w_renorm 2 w1) < w_bw w1).
  { destruct Hleft as [Hleft|Hleft]; [lia|].
    destruct (jshift_spec R1 ltac:(lia)) as (Hj & Hj2).
    pose proof (range_bits_bounds (R1 * 256 ^ jshift R1) ltac:(lia)) as Hrb2.
    assert (K1 : w_k w1 = a_k a) by (rewrite Hk; unfold w_k; rewrite W6, W4, W5; lia).
    rewrite (w_renorm_room _ _ _ _ H1 HS1); rewrite W1; lia. }
  destruct (w_renorm_sim _ _ _ _ H1 HS1 Hroom) as (HS2 & ER & EK).
  rewrite W1 in *. constructor; cbn [a_B a_R a_k a_pos a_W].
  - exact H'.
  - exists bwd. rewrite ER. split; [exact HS2|].
    unfold accu_st in *. rewrite Av, An. exact HA.
  - symmetry. exact ER.
  - rewrite EK, Hk. unfold w_k. rewrite W6, W4, W5. lia.
  - rewrite Ab, An. exact Hpos.
Qed.

(** ** Plain bits *)

Lemma accu_flush_loop_sim L n : forall w fwd mid bwd,
  zlen (w_buf w) = L ->
  lay L w fwd mid bwd -> Z.of_nat n <= zlen mid -> 0 <= w_v w ->
  let w' := accu_flush_loop n w in
  exists mid' bwd', lay L w' fwd mid' bwd' /\
    zlen bwd' = zlen bwd + Z.of_nat n /\
    w_v w' = w_v w / 256 ^ Z.of_nat n /\
    bval bwd' + w_v w' * 256 ^ zlen bwd' = bval bwd + w_v w * 256 ^ zlen bwd.
Proof.
  induction n as [|n IH]; intros w fwd mid bwd HZ HL Hn Hv.
  - cbn [accu_flush_loop]. exists mid, bwd. split; [exact HL|].
    split; [lia|]. split; [|reflexivity]. cbn. rewrite Z.div_1_r. reflexivity.
  - destruct (split_last mid 1 ltac:(lia)) as (m1 & xs & -> & Hx).
    destruct xs as [|x [|y xs]];
      [discriminate Hx| |rewrite !zlen_cons in Hx; pose proof (zlen_nonneg xs); lia].
    destruct HL as (E & Ef & Eb).
    cbn [accu_flush_loop].
    set (w1 := w_set_accu _ _ _).
    assert (Hw1 : lay L w1 fwd m1 (w_v w mod 256 :: bwd) /\ w_v w1 = w_v w / 256 /\
                  zlen (w_buf w1) = L).
    { unfold w1. unfold lay. wproj. split; [|split; [reflexivity|]].
      2:{ rewrite zlen_upd. exact HZ. }
      assert (Ei : w_bw w - 1 = zlen (fwd ++ m1)).
      { rewrite zlen_app. rewrite E, !zlen_app, zlen_cons in HZ.
        change (zlen (@nil Z)) with 0 in HZ. lia. }
      split; [|split].
      - rewrite Ei, E, land_255, u8_small by (apply Z.mod_pos_bound; lia).
        rewrite <- app_assoc, (app_assoc fwd). cbn [app].
        rewrite upd_mid, <- app_assoc. reflexivity.
      - exact Ef.
      - rewrite zlen_cons. lia. }
    clearbody w1. destruct Hw1 as (HL1 & Hv1 & HZ1).
    rewrite zlen_app, zlen_cons in Hn. change (zlen (@nil Z)) with 0 in Hn.
    destruct (IH w1 fwd m1 _ HZ1 HL1 ltac:(lia)) as (mid' & bwd' & HL2 & Z2 & V2 & S2).
    { rewrite Hv1. apply Z.div_pos; lia. }
    cbv zeta. exists mid', bwd'. split; [exact HL2|].
    split; [rewrite Z2, zlen_cons; lia|]. split.
    + rewrite V2, Hv1, Nat2Z.inj_succ, Z.pow_succ_r by lia.
      rewrite Z.div_div by (try lia; apply Z.pow_pos_nonneg; lia). reflexivity.
    + rewrite S2, bval_cons, zlen_cons, Hv1, Z.pow_add_r by (pose proof (zlen_nonneg bwd); lia).
      change (256 ^ 1) with 256. pose proof (Z.div_mod (w_v w) 256 ltac:(lia)) as Hd.
      set (P := 256 ^ zlen bwd) in *.
      replace (w_v w * P) with ((256 * (w_v w / 256) + w_v w mod 256) * P) by (f_equal; lia).
      ring.
Qed.

(** Flush, when there is room for all the bytes of the accumulator. *)
Lemma accu_flush_sim lo L w fwd mid bwd W :
  WB lo L w -> lay L w fwd mid bwd -> accu_st w bwd W ->
  w_n w / 8 <= w_bw w - w_fw w ->
  exists mid' bwd', lay L (accu_flush w) fwd mid' bwd' /\
    zlen bwd' = zlen bwd + w_n w / 8 /\ accu_st (accu_flush w) bwd' W /\
    w_n (accu_flush w) = w_n w mod 8.
Proof.
  intros H HL (HA & Hv) Hroom. pose proof (wb_n _ _ _ H) as Hn.
  pose proof (lay_mid _ _ _ _ _ _ H HL) as Hm.
  assert (Hq : 0 <= w_n w / 8) by (apply Z.div_pos; lia).
  pose proof (Z.div_mod (w_n w) 8 ltac:(lia)) as Hd.
  pose proof (Z.mod_pos_bound (w_n w) 8 ltac:(lia)) as Hmb.
  unfold accu_flush, shr. change (2 ^ 3) with 8. cbv zeta.
  rewrite Z.min_l by lia.
  set (w1 := w_set_accu w (w_v w) (w_n w - 8 * (w_n w / 8))).
  destruct (accu_flush_loop_sim L (Z.to_nat (w_n w / 8)) w1 fwd mid bwd)
    as (mid' & bwd' & HL2 & Z2 & V2 & S2).
  { exact (wb_len _ _ _ H). }
  { exact HL. }
  { lia. }
  { unfold w1. wproj. lia. }
  assert (H1 : WB lo L w1).
  { unfold w1. destruct H. constructor; wproj; auto. lia. }
  destruct (accu_flush_loop_spec _ _ (Z.to_nat (w_n w / 8)) w1 H1)
    as (_ & _ & _ & N2 & _).
  { unfold w1. wproj. pose proof (wb_fw _ _ _ H). lia. }
  set (w2 := accu_flush_loop _ w1) in *. clearbody w2.
  assert (N1 : w_n w1 = w_n w mod 8) by (unfold w1; wproj; lia).
  assert (V1 : w_v w1 = w_v w) by reflexivity.
  rewrite N2, N1. replace (8 <=? w_n w mod 8) with false by lia.
  exists mid', bwd'. split; [exact HL2|]. split; [lia|]. split; [|lia].
  unfold accu_st. rewrite S2, V1. split; [exact HA|].
  rewrite V2, V1, N2, N1, Z2Nat.id by lia.
  assert (Hp : 256 ^ (w_n w / 8) * 2 ^ (w_n w mod 8) = 2 ^ w_n w).
  { rewrite pow256, <- Z.pow_add_r by lia. f_equal. lia. }
  assert (Hpp : 0 < 256 ^ (w_n w / 8)) by (apply Z.pow_pos_nonneg; lia).
  split; [apply Z.div_pos; lia|]. apply Z.div_lt_upper_bound; [exact Hpp|]. lia.
Qed.

Lemma put_bits_sim lo L w fwd mid bwd W v n :
  1 <= n <= 32 -> 0 <= v < 2 ^ n ->
  WB lo L w -> lay L w fwd mid bwd -> accu_st w bwd W ->
  n + w_n w <= 8 * (w_bw w - w_fw w) ->
  let w' := put_bits w v n in
  exists mid' bwd', lay L w' fwd mid' bwd' /\
    accu_st w' bwd' (W + v * 2 ^ (8 * (L - w_bw w) + w_n w)) /\
    8 * (L - w_bw w') + w_n w' = 8 * (L - w_bw w) + w_n w + n.
Proof.
  intros Hn Hv H HL HA Hroom. pose proof (wb_n _ _ _ H) as Hwn.
  pose proof (wb_bw _ _ _ H) as Hbw.
  assert (Hzb : zlen bwd = L - w_bw w) by (destruct HL as (_ & _ & HL); exact HL).
  destruct HA as (HA & Hav).
  pose proof (pow2_pos (w_n w) ltac:(lia)) as Hpn.
  assert (Hvs : 0 <= v < 2 ^ 32).
  { assert (2 ^ n <= 2 ^ 32) by (apply Z.pow_le_mono_r; lia). lia. }
  assert (EW : 2 ^ (8 * (L - w_bw w) + w_n w) = 256 ^ zlen bwd * 2 ^ w_n w).
  { rewrite pow256, <- Z.pow_add_r by (rewrite ?Hzb; lia). f_equal. lia. }
  rewrite EW. set (P := 256 ^ zlen bwd) in *.
  unfold put_bits. rewrite (u32_small v) by lia.
  destruct (w_n w + n <=? 32) eqn:E.
  - cbv zeta. exists mid, bwd. split; [exact HL|].
    assert (Hvn : v * 2 ^ w_n w < 2 ^ (w_n w + n)).
    { rewrite Z.pow_add_r by lia. nia. }
    assert (2 ^ (w_n w + n) <= 2 ^ 32) by (apply Z.pow_le_mono_r; lia).
    assert (0 <= v * 2 ^ w_n w) by (apply Z.mul_nonneg_nonneg; lia).
    unfold accu_st. wproj. fold P. unfold shl. rewrite u32_small by lia.
    rewrite lor_add by lia.
    split; [|lia]. split; [rewrite <- HA; ring|]. split; [lia|].
    rewrite Z.pow_add_r by lia. clear - Hv Hav Hpn. nia.
  - unfold put_bits_generic. cbv zeta.
    set (n1 := Z.min (32 - w_n w) n). assert (Hn1 : n1 = 32 - w_n w) by lia.
    pose proof (pow2_pos n1 ltac:(lia)) as Hp1.
    assert (Ep32 : 2 ^ 32 = 2 ^ n1 * 2 ^ w_n w)
      by (rewrite <- Z.pow_add_r by lia; f_equal; lia).
    pose proof (Z.div_mod v (2 ^ n1) ltac:(lia)) as Hd.
    pose proof (Z.mod_pos_bound v (2 ^ n1) Hp1) as Hm.
    set (w1 := if n1 =? 0 then w else _).
    assert (H1 : WB lo L w1 /\ w_n w1 = 32 /\ w_fw w1 = w_fw w /\ w_bw w1 = w_bw w /\
                 lay L w1 fwd mid bwd /\
                 accu_st w1 bwd (W + (v mod 2 ^ n1) * (P * 2 ^ w_n w))).
    { unfold w1. destruct (n1 =? 0) eqn:E0.
      - assert (En1 : n1 = 0) by lia.
        split; [exact H|]. split; [lia|]. split; [reflexivity|]. split; [reflexivity|].
        split; [exact HL|]. rewrite En1, Z.pow_0_r, Z.mod_1_r, Z.mul_0_l, Z.add_0_r.
        split; [exact HA|exact Hav].
      - split; [|split; [reflexivity|split; [reflexivity|split; [reflexivity|
          split; [exact HL|]]]]].
        + destruct H. constructor; wproj; auto. lia.
        + unfold accu_st. wproj. fold P. unfold shl.
          assert (Eu : u32 (v * 2 ^ w_n w) = (v mod 2 ^ n1) * 2 ^ w_n w).
          { unfold u32. rewrite Ep32. apply Z.mul_mod_distr_r; lia. }
          rewrite Eu, lor_add by lia. split; [rewrite <- HA; ring|].
          rewrite Ep32. nia. }
    clearbody w1. destruct H1 as (H1 & N1 & F1 & B1 & HL1 & HA1).
    destruct (accu_flush_sim _ _ _ _ _ _ _ H1 HL1 HA1) as (mid' & bwd' & HL2 & Z2 & HA2 & N2).
    { rewrite N1, F1, B1. change (32 / 8) with 4. lia. }
    rewrite N1 in *. change (32 / 8) with 4 in *. change (32 mod 8) with 0 in *.
    set (w2 := accu_flush w1) in *. clearbody w2.
    exists mid', bwd'. split; [exact HL2|].
    assert (B2 : w_bw w2 = w_bw w - 4).
    { destruct HL2 as (_ & _ & HL2). lia. }
    destruct HA2 as (HA2 & Hv2). rewrite N2 in Hv2. change (2 ^ 0) with 1 in Hv2.
    assert (Hv0 : w_v w2 = 0) by lia. rewrite Hv0, Z.mul_0_l, Z.add_0_r in HA2.
    wproj. unfold accu_st. wproj. split; [|lia].
    unfold shr. split.
    + rewrite HA2, Z2, Z.pow_add_r by (pose proof (zlen_nonneg bwd); lia). fold P.
      change (256 ^ 4) with (2 ^ 32). rewrite Ep32.
      replace (v * (P * 2 ^ w_n w))
        with ((2 ^ n1 * (v / 2 ^ n1) + v mod 2 ^ n1) * (P * 2 ^ w_n w)) by (f_equal; lia).
      ring.
    + split; [apply Z.div_pos; lia|]. apply Z.div_lt_upper_bound; [lia|].
      rewrite <- Z.pow_add_r by lia. replace (n1 + (n - n1)) with n by lia. lia.
Qed.

Lemma put_bits_WSim L w a v n :
  op_ok (PutBits v n) -> WSim L w a -> n + w_n w <= 8 * (w_bw w - w_fw w) ->
  WSim L (put_bits w v n) (a_bits a v n).
Proof.
  intros (Hn & Hv) HW Hroom. destruct HW as [H (bwd & (fwd & mid & HL & HI) & HA) HR Hk Hpos].
  destruct (put_bits_WB _ _ w v n ltac:(lia) H ltac:(lia)) as (H' & HC & Hf & _ & _).
  destruct (put_bits_sim _ _ _ _ _ _ _ v n ltac:(lia) Hv H HL HA Hroom)
    as (mid' & bwd' & HL' & HA' & Hp').
  destruct HC as (C1 & C2 & C3 & C4 & C5).
  constructor; cbn [a_bits a_B a_R a_k a_pos a_W].
  - exact H'.
  - exists bwd'. rewrite Hpos. split; [|exact HA'].
    exists fwd, mid'. split; [exact HL'|].
    unfold ac_inv, w_k in *. rewrite C1, C2, C3, C4, C5, Hf. exact HI.
  - congruence.
  - unfold w_k in *. congruence.
  - lia.
Qed.

Lemma wstep_sim L w a o :
  op_ok o -> WSim L w a -> 0 <= w_bits_left (wstep w o) ->
  WSim L (wstep w o) (astep a o).
Proof.
  destruct o as [v n|m s]; cbn [astep wstep]; intros Ho HW Hl.
  - apply put_bits_WSim; auto. pose proof (ws_wb _ _ _ HW) as H.
    destruct Ho as (Hn & _).
    destruct (put_bits_WB _ _ w v n ltac:(lia) H ltac:(lia)) as (H' & HC & Hf & HB & _).
    pose proof (range_bits_bounds _ (wb_range _ _ _ H)) as Hrb.
    assert (Hl2 : n <= w_bits_left w) by lia.
    unfold w_bits_left, pending_bits in Hl2.
    pose proof (b2z_range (0 <=? w_cache w)). pose proof (wb_cc _ _ _ H). lia.
  - apply put_symbol_sim; auto.
Qed.

(** The same with the count of the abstract state. *)
Lemma wstep_room L w a o :
  op_ok o -> WSim L w a -> 0 <= a_left L (astep a o) -> WSim L (wstep w o) (astep a o).
Proof.
  destruct o as [v n|m s]; cbn [astep wstep]; intros Ho HW Hl.
  - apply put_bits_WSim; auto. pose proof (ws_wb _ _ _ HW) as H.
    unfold a_left in Hl. cbn [a_bits a_pos a_k a_R] in Hl.
    rewrite (ws_R _ _ _ HW), (ws_k _ _ _ HW), (ws_pos _ _ _ HW) in Hl.
    pose proof (range_bits_bounds _ (wb_range _ _ _ H)) as Hrb. unfold w_k in Hl.
    pose proof (b2z_range (0 <=? w_cache w)). pose proof (wb_cc _ _ _ H). lia.
  - apply put_symbol_sim; auto.
Qed.

Lemma wsteps_sim L ops w a :
  Forall op_ok ops -> WSim L w a -> 0 <= w_bits_left (fold_left wstep ops w) ->
  WSim L (fold_left wstep ops w) (fold_left astep ops a).
Proof.
  intros Ho. revert w a. induction Ho as [|o ops Ho Hos IH]; intros w a HW Hl; [exact HW|].
  cbn [fold_left] in *. apply IH; [|exact Hl]. apply wstep_sim; auto.
  assert (Hw : Forall wop_ok ops)
    by (eapply Forall_impl; [intros x Hx; apply op_wop_ok; exact Hx|exact Hos]).
  destruct (wstep_WB L w o (op_wop_ok _ Ho) (ws_wb _ _ _ HW)) as (H1 & _).
  destruct (wsteps_WB L ops (wstep w o) Hw H1) as (_ & H2). specialize (H2 Hl). lia.
Qed.

(** ** Padding and termination *)

Lemma pad_loop_sim L fuel : forall w fwd mid bwd W n,
  WB 65536 L w -> lay L w fwd mid bwd -> accu_st w bwd W ->
  0 <= n -> n + w_n w = 8 * (w_bw w - w_fw w) -> n <= Z.of_nat fuel ->
  let w' := pad_loop fuel n w in
  exists mid' bwd', WB 65536 L w' /\ lay L w' fwd mid' bwd' /\ accu_st w' bwd' W /\
    w_n w' = 8 * (w_bw w' - w_fw w') /\ same_ac w w' /\ w_fw w' = w_fw w.
Proof.
  induction fuel as [|fuel IH]; intros w fwd mid bwd W n H HL HA Hn He Hf; cbn [pad_loop].
  - exists mid, bwd. cbv zeta. split; [exact H|]. split; [exact HL|]. split; [exact HA|].
    split; [lia|]. split; [repeat split|reflexivity].
  - destruct (0 <? n) eqn:E.
    2:{ exists mid, bwd. cbv zeta. split; [exact H|]. split; [exact HL|]. split; [exact HA|].
        split; [lia|]. split; [repeat split|reflexivity]. }
    pose proof (pow2_pos (Z.min n 32) ltac:(lia)) as Hpm.
    destruct (put_bits_WB _ _ w 0 (Z.min n 32) ltac:(lia) H ltac:(lia))
      as (H' & HC & Hf' & _ & _).
    destruct (put_bits_sim _ _ _ _ _ _ _ 0 (Z.min n 32) ltac:(lia) ltac:(lia) H HL HA
       ltac:(lia)) as (mid' & bwd' & HL' & HA' & Hp').
    rewrite Z.mul_0_l, Z.add_0_r in HA'.
    set (w1 := put_bits w 0 (Z.min n 32)) in *. clearbody w1.
    destruct (Z.lt_ge_cases n 32) as [Hlt|Hge].
    + (* last round *)
      rewrite Z.min_l in * by lia.
      assert (Ep : pad_loop fuel (n - 32) w1 = w1).
      { destruct fuel; [reflexivity|]. cbn [pad_loop].
        replace (0 <? n - 32) with false by lia. reflexivity. }
      rewrite Ep. cbv zeta. exists mid', bwd'.
      split; [exact H'|]. split; [exact HL'|]. split; [exact HA'|].
      split; [lia|]. split; [exact HC|exact Hf'].
    + rewrite Z.min_r in * by lia.
      destruct (IH w1 fwd mid' bwd' W (n - 32) H' HL' HA' ltac:(lia) ltac:(lia) ltac:(lia))
        as (m2 & b2 & K1 & K2 & K3 & K4 & K5 & K6).
      cbv zeta. exists m2, b2. split; [exact K1|]. split; [exact K2|]. split; [exact K3|].
      split; [exact K4|]. split; [unfold same_ac in *; intuition congruence|lia].
Qed.

(** State of the buffer once the plain bits are out. *)
Lemma flush_pad_sim L w a :
  WSim L w a -> 0 <= w_bits_left w ->
  let n := 8 * (w_bw w - w_fw w) - w_n w in
  let w' := accu_flush (pad_loop (Z.to_nat n) n w) in
  WB 65536 L w' /\ same_ac w w' /\ w_fw w' = w_fw w /\
  exists fwd rest, w_buf w' = fwd ++ rest /\ zlen fwd = w_fw w /\
    bval rest = a_W a /\ ac_inv fwd w (w_range w) (a_B a).
Proof.
  intros HW Hl n. destruct HW as [H (bwd & (fwd & mid & HL & HI) & HA) HR Hk Hpos].
  pose proof (range_bits_bounds _ (wb_range _ _ _ H)) as Hrb.
  assert (Hn : 0 <= n).
  { unfold n. unfold w_bits_left, pending_bits in Hl.
    pose proof (b2z_range (0 <=? w_cache w)). pose proof (wb_cc _ _ _ H). lia. }
  destruct (pad_loop_sim L (Z.to_nat n) w fwd mid bwd (a_W a) n H HL HA Hn ltac:(lia)
             ltac:(lia)) as (m1 & b1 & H1 & L1 & A1 & N1 & C1 & F1).
  set (w1 := pad_loop (Z.to_nat n) n w) in *. clearbody w1.
  pose proof (wb_n _ _ _ H1) as Hn1.
  assert (Hq : w_n w1 / 8 = w_bw w1 - w_fw w1).
  { rewrite N1, Z.mul_comm, Z.div_mul by lia. reflexivity. }
  destruct (accu_flush_sim _ _ _ _ _ _ _ H1 L1 A1 ltac:(lia)) as (m2 & b2 & L2 & Z2 & A2 & N2).
  destruct (accu_flush_spec _ _ _ H1) as (H2 & C2 & F2 & B2 & _ & _).
  cbv zeta. set (w2 := accu_flush w1) in *. clearbody w2.
  split; [exact H2|]. split; [unfold same_ac in *; intuition congruence|].
  split; [lia|].
  exists fwd, b2.
  pose proof (lay_mid _ _ _ _ _ _ H2 L2) as Hm2. destruct L2 as (E2 & Ef2 & Eb2).
  assert (Hm0 : zlen m2 = 0) by lia. apply zlen_0 in Hm0. subst m2.
  split; [exact E2|]. split; [lia|]. split; [|exact HI].
  destruct A2 as (A2 & Hv2).
  assert (N0 : w_n w1 mod 8 = 0) by (rewrite N1, Z.mul_comm; apply Z.mod_mul; lia).
  rewrite N2, N0 in Hv2. change (2 ^ 0) with 1 in Hv2.
  assert (Hv0 : w_v w2 = 0) by lia. rewrite Hv0 in A2. lia.
Qed.

(** Final byte: the high [nb] bits are replaced. *)
Lemma store_end lo L w fwd x rest nb ev :
  WB lo L w -> w_buf w = fwd ++ x :: rest -> zlen fwd = w_fw w ->
  1 <= nb <= 8 -> 0 <= ev < 2 ^ nb ->
  let w1 := w_store w (w_fw w) (Z.land (znth (w_buf w) (w_fw w) 0) (shr 255 nb)) in
  let w2 := w_store w1 (w_fw w1)
              (Z.lor (znth (w_buf w1) (w_fw w1) 0) (shl ev (8 - nb))) in
  w_buf w2 = fwd ++ (x mod 2 ^ (8 - nb) + ev * 2 ^ (8 - nb)) :: rest.
Proof.
  intros H E Ef Hnb Hev w1 w2.
  assert (Hx : 0 <= x < 256).
  { pose proof (wb_bytes _ _ _ H) as Hb. rewrite E in Hb.
    apply bytes_app in Hb. destruct Hb as (_ & Hb). apply bytes_cons in Hb. apply Hb. }
  assert (Em : shr 255 nb = 2 ^ (8 - nb) - 1).
  { assert (nb = 1 \/ nb = 2 \/ nb = 3 \/ nb = 4 \/ nb = 5 \/ nb = 6 \/ nb = 7 \/ nb = 8)
      as Hc by lia.
    repeat (destruct Hc as [->|Hc]; [reflexivity|]). subst. reflexivity. }
  pose proof (pow2_pos (8 - nb) ltac:(lia)) as Hp.
  pose proof (Z.mod_pos_bound x (2 ^ (8 - nb)) Hp) as Hmb.
  assert (H256 : 256 = 2 ^ nb * 2 ^ (8 - nb)).
  { rewrite <- Z.pow_add_r by lia. replace (nb + (8 - nb)) with 8 by lia. reflexivity. }
  assert (Hsum : 0 <= ev * 2 ^ (8 - nb) + 2 ^ (8 - nb) <= 256) by nia.
  assert (E1 : w_buf w1 = fwd ++ (x mod 2 ^ (8 - nb)) :: rest).
  { unfold w1. wproj. rewrite E, <- Ef, znth_mid, upd_mid, Em, land_mask by lia.
    rewrite u8_small by lia. reflexivity. }
  unfold w2. unfold w_store at 1. cbn [w_buf].
  assert (Ef1 : w_fw w1 = zlen fwd) by (unfold w1; wproj; lia).
  rewrite E1, Ef1, znth_mid, upd_mid. unfold shl.
  rewrite lor_add by lia. rewrite u8_small by lia. reflexivity.
Qed.

(** src/bits.c lines 226-241, the end of ac_terminate. *)
Definition ac_end (w : wst) (nbits : Z) : wst :=
  let end_val := shr (w_cache w) (8 - nbits) in
  let '(w, end_val) :=
    if w_cc w =? 0 then (w, end_val)
    else
      let w := ac_put w (w_cache w) in
      let w := ac_put_n (Z.to_nat (w_cc w - 1)) w 255 in
      let w := w_set_ac w (w_low w) (w_range w) (w_cache w) (w_carry w) 1 in
      (w, if nbits <? 8 then 0 else 255) in
  let w := w_flag_ub w (negb (inb nbits 9)) in
  if w_fw w <? zlen (w_buf w) then
    let w := w_store w (w_fw w)
               (Z.land (znth (w_buf w) (w_fw w) 0) (shr 255 nbits)) in
    w_store w (w_fw w)
      (Z.lor (znth (w_buf w) (w_fw w) 0) (shl end_val (8 - nbits)))
  else w.

Lemma ac_terminate_end w :
  ac_terminate w =
  let '(nbits, val, c) := terminate_value (w_low w) (w_range w) in
  let w := w_set_ac w val (w_range w) (w_cache w)
             (Z.lor (w_carry w) (b2z c)) (w_cc w) in
  let '(w, nbits) := if 8 <? nbits then (ac_shift w, nbits - 8) else (w, nbits) in
  ac_end (ac_shift w) nbits.
Proof. reflexivity. Qed.

Lemma bval_suffix xs r : bytes r -> bval (xs ++ r) mod 256 ^ zlen r = bval r.
Proof.
  intros Hr. rewrite bval_app. pose proof (bval_bound r Hr).
  rewrite Z.add_comm, Z_mod_plus_full. apply Z.mod_small. lia.
Qed.

Lemma ac_end_sim lo L w nb fwd rest xs R B W :
  WB lo L w -> w_buf w = fwd ++ rest -> zlen fwd = w_fw w ->
  ac_inv fwd w R B -> w_low w = 0 -> w_carry w = 0 -> 0 <= w_cache w ->
  1 <= nb <= 8 -> w_k w <= L ->
  (w_cc w = 0 /\ w_cache w mod 2 ^ (8 - nb) = 0 \/ 1 <= w_cc w /\ nb = 8) ->
  bval (xs ++ rest) = W ->
  let T := 8 * (w_k w - 1) + nb in
  0 <= W < 2 ^ (8 * L - T) ->
  exists c, bval (w_buf (ac_end w nb)) = c * 2 ^ (8 * L - T) + W /\
            c * 2 ^ (8 - nb) * 2 ^ 24 = B.
Proof.
  intros H E Ef (I1 & I2 & _) Hl0 Hcy0 Hca Hnb Hk Hcase HWr T HW.
  pose proof (wb_cache _ _ _ H) as Hca2. pose proof (wb_cc _ _ _ H) as Hcc.
  pose proof (wb_len _ _ _ H) as HZ. pose proof (wb_fw _ _ _ H) as Hfw.
  rewrite Hl0, Hcy0, Z.max_l, Z.add_0_r in I2 by lia.
  assert (Ek : w_k w = w_fw w + 1 + w_cc w).
  { unfold w_k. replace (0 <=? w_cache w) with true by lia. reflexivity. }
  pose proof (wb_bytes _ _ _ H) as Hby.
  assert (Hbr : bytes rest) by (rewrite E in Hby; apply bytes_app in Hby; apply Hby).
  pose proof (pow2_pos (8 - nb) ltac:(lia)) as Hp.
  assert (HZr : zlen rest = L - w_fw w) by (rewrite E, zlen_app in HZ; lia).
  unfold ac_end. cbv zeta.
  destruct Hcase as [(Hcc0 & Hal)|(Hcc1 & Hnb8)].
  - rewrite Hcc0. cbn [Z.eqb].
    set (w1 := w_flag_ub w _).
    assert (H1 : WB lo L w1).
    { unfold w1. destruct H. constructor; wproj; auto.
      rewrite wb_ub. unfold inb. lia. }
    destruct rest as [|x rest]; [change (zlen (@nil Z)) with 0 in HZr; lia|].
    assert (E1 : w_buf w1 = fwd ++ x :: rest) by exact E.
    assert (Ef1 : zlen fwd = w_fw w1) by exact Ef.
    clearbody w1. rewrite (wb_len _ _ _ H1).
    replace (w_fw w1 <? L) with true by lia.
    assert (Hev : 0 <= shr (w_cache w) (8 - nb) < 2 ^ nb).
    { unfold shr. split; [apply Z.div_pos; lia|]. apply Z.div_lt_upper_bound; [lia|].
      rewrite <- Z.pow_add_r by lia. replace (8 - nb + nb) with 8 by lia.
      change (2 ^ 8) with 256. lia. }
    pose proof (store_end _ _ _ _ _ _ nb _ H1 E1 Ef1 Hnb Hev) as Hst. cbv zeta in Hst.
    rewrite Hst.
    rewrite bval_app, bval_cons, zlen_cons.
    rewrite zlen_cons in HZr. pose proof (zlen_nonneg rest) as Hzr.
    pose proof (Z.div_mod (w_cache w) (2 ^ (8 - nb)) ltac:(lia)) as Hdc.
    rewrite Hal in Hdc. unfold shr in *. set (ev := w_cache w / 2 ^ (8 - nb)) in *.
    assert (Ebits : 8 * L - T = (8 - nb) + 8 * zlen rest) by (unfold T; lia).
    assert (Epow : 2 ^ (8 * L - T) = 2 ^ (8 - nb) * 256 ^ zlen rest).
    { rewrite pow256, <- Z.pow_add_r by lia. f_equal. exact Ebits. }
    assert (Hpr : 0 < 256 ^ zlen rest) by (apply Z.pow_pos_nonneg; lia).
    apply bytes_cons in Hbr. destruct Hbr as (Hbx & Hbr).
    pose proof (bval_bound rest Hbr) as Hbv.
    assert (HWm : W = x mod 2 ^ (8 - nb) * 256 ^ zlen rest + bval rest).
    { rewrite <- (Z.mod_small W (2 ^ (8 * L - T))) by exact HW.
      rewrite <- HWr, bval_app, bval_cons, zlen_cons, Epow.
      rewrite Z.pow_add_r, Z.pow_1_r by lia. symmetry.
      pose proof (Z.div_mod x (2 ^ (8 - nb)) ltac:(lia)) as Hdx.
      pose proof (Z.mod_pos_bound x (2 ^ (8 - nb)) ltac:(lia)) as Hmx.
      assert (H256 : 256 = 2 ^ nb * 2 ^ (8 - nb)).
      { rewrite <- Z.pow_add_r by lia. replace (nb + (8 - nb)) with 8 by lia. reflexivity. }
      set (P := 256 ^ zlen rest) in *.
      set (D := 2 ^ (8 - nb)) in *.
      apply Z.mod_unique with (bval xs * 2 ^ nb + x / D).
      { left. split; [nia|].
        replace (D * P) with ((D - 1) * P + P) by ring. nia. }
      rewrite H256.
      replace (x * P) with ((D * (x / D) + x mod D) * P) by (f_equal; lia). ring. }
    exists (bval fwd * 2 ^ nb + ev).
    assert (H256 : 256 = 2 ^ nb * 2 ^ (8 - nb)).
    { rewrite <- Z.pow_add_r by lia. replace (nb + (8 - nb)) with 8 by lia. reflexivity. }
    split.
    + rewrite HWm, Epow. rewrite Z.pow_add_r, Z.pow_1_r by lia. rewrite H256 at 1. ring.
    + rewrite I2, Hcc0, Z.pow_0_r.
      replace (w_cache w) with (2 ^ (8 - nb) * ev) by lia.
      rewrite H256 at 1. ring.
  - replace (w_cc w =? 0) with false by lia. subst nb.
    destruct rest as [|x rest]; [change (zlen (@nil Z)) with 0 in HZr; lia|].
    rewrite zlen_cons in HZr.
    destruct (ac_put_split _ _ _ (w_cache w) _ _ _ H E Ef ltac:(lia)) as (E1 & F1).
    destruct (ac_put_spec _ _ w (w_cache w) H) as (H1 & _ & C1 & _).
    set (w1 := ac_put w (w_cache w)) in *. clearbody w1.
    destruct C1 as (_ & _ & _ & _ & C1). rewrite C1.
    destruct (split_at rest (w_cc w - 1) ltac:(lia)) as (ys & r2 & -> & Hys).
    destruct (ac_put_n_split _ _ (Z.to_nat (w_cc w - 1)) w1 255 _ ys r2 H1 E1)
      as (E2 & F2).
    { rewrite zlen_app, zlen_cons. change (zlen (@nil Z)) with 0. lia. }
    { lia. } { lia. }
    destruct (ac_put_n_spec _ _ (Z.to_nat (w_cc w - 1)) w1 255 H1) as (H2 & _).
    set (w2 := ac_put_n _ _ _) in *. clearbody w2.
    set (w3 := w_flag_ub _ _).
    assert (H3 : WB lo L w3).
    { unfold w3. destruct H2. constructor; wproj; auto; try lia.
      rewrite wb_ub. reflexivity. }
    rewrite zlen_app in HZr.
    destruct r2 as [|y r2].
    { change (zlen (@nil Z)) with 0 in HZr. lia. }
    assert (E3 : w_buf w3 = ((fwd ++ [w_cache w]) ++ repeat 255 (Z.to_nat (w_cc w - 1)))
        ++ y :: r2) by exact E2.
    assert (F3 : w_fw w3 = w_fw w2) by reflexivity.
    clearbody w3. rewrite (wb_len _ _ _ H3).
    rewrite zlen_cons in HZr. pose proof (zlen_nonneg r2) as Hr2.
    replace (w_fw w3 <? L) with true by lia.
    change (8 <? 8) with false. cbv iota.
    pose proof (store_end _ _ w3 _ y r2 8 255 H3 E3) as Hst. cbv zeta in Hst.
    rewrite Hst; [|rewrite !zlen_app, zlen_repeat, zlen_cons;
                   change (zlen (@nil Z)) with 0; lia|lia|lia].
    clear Hst. change (8 - 8) with 0. rewrite Z.pow_0_r, Z.mod_1_r, Z.add_0_l, Z.mul_1_r.
    assert (ET : 8 * L - T = 8 * zlen r2) by (unfold T; lia).
    rewrite ET in *. rewrite <- pow256 in * by lia.
    apply bytes_cons in Hbr. destruct Hbr as (_ & Hbr).
    apply bytes_app in Hbr. destruct Hbr as (_ & Hbr).
    apply bytes_cons in Hbr. destruct Hbr as (_ & Hbr).
    assert (HWm : bval r2 = W).
    { rewrite <- (Z.mod_small W (256 ^ zlen r2)) by exact HW.
      rewrite <- HWr.
      replace (xs ++ x :: ys ++ y :: r2) with ((xs ++ x :: ys ++ [y]) ++ r2).
      - symmetry. apply bval_suffix. exact Hbr.
      - rewrite <- !app_assoc. cbn [app]. rewrite <- !app_assoc. reflexivity. }
    exists ((bval fwd * 256 + w_cache w + 1) * 256 ^ w_cc w - 1).
    split.
    + rewrite bval_app, bval_cons, zlen_cons, HWm.
      rewrite bval_app, bval_snoc, bval_repeat255, zlen_repeat.
      rewrite Z2Nat.id by lia.
      rewrite Z.pow_add_r, Z.pow_1_r by lia.
      replace (256 ^ w_cc w) with (256 ^ (w_cc w - 1) * 256).
      2:{ replace (w_cc w) with ((w_cc w - 1) + 1) at 2 by lia.
          rewrite Z.pow_add_r by lia. reflexivity. }
      ring.
    + rewrite I2. ring.
Qed.

Lemma ac_inv_same fwd w w' R B :
  same_ac w w' -> w_fw w' = w_fw w -> ac_inv fwd w R B -> ac_inv fwd w' R B.
Proof.
  intros (C1 & C2 & C3 & C4 & C5) Hf HI. unfold ac_inv, w_k in *.
  rewrite C1, C3, C4, C5, Hf. exact HI.
Qed.

Lemma shift_aligned low nb :
  0 <= nb <= 8 -> low mod 2 ^ (24 - nb) = 0 -> (low * 256) mod 2 ^ 24 = 0.
Proof.
  intros Hnb Hm. pose proof (pow2_pos (24 - nb) ltac:(lia)) as Hp.
  apply Z.mod_divide in Hm; [|lia]. destruct Hm as [q ->].
  assert (E : 256 = 2 ^ nb * 2 ^ (8 - nb)).
  { rewrite <- Z.pow_add_r by lia. replace (nb + (8 - nb)) with 8 by lia. reflexivity. }
  assert (E24 : 2 ^ 24 = 2 ^ (24 - nb) * 2 ^ nb).
  { rewrite <- Z.pow_add_r by lia. f_equal. lia. }
  rewrite E. replace (q * 2 ^ (24 - nb) * (2 ^ nb * 2 ^ (8 - nb)))
    with ((q * 2 ^ (8 - nb)) * (2 ^ (24 - nb) * 2 ^ nb)) by ring.
  rewrite <- E24. apply Z.mod_mul. lia.
Qed.

(** Last shift and termination, with [nb] bits of [low] still to be coded. *)
Lemma ac_last_sim lo L w nb fwd rest xs B W :
  WB lo L w -> w_buf w = fwd ++ rest -> zlen fwd = w_fw w ->
  ac_inv fwd w (2 ^ (24 - nb)) B -> w_low w mod 2 ^ (24 - nb) = 0 ->
  1 <= nb <= 8 -> bval (xs ++ rest) = W ->
  let T := 8 * w_k w + nb in
  T <= 8 * L -> 0 <= W < 2 ^ (8 * L - T) ->
  exists c, bval (w_buf (ac_end (ac_shift w) nb)) = c * 2 ^ (8 * L - T) + W /\
            c * 2 ^ (24 - nb) = B.
Proof.
  intros H E Ef HI Hal Hnb HWr T HT HW.
  pose proof (wb_low _ _ _ H) as Hlow. pose proof (wb_cc _ _ _ H) as Hcc.
  pose proof (wb_cache _ _ _ H) as Hca. pose proof (wb_carry _ _ _ H) as Hcy.
  assert (HZr : zlen rest = L - w_fw w).
  { pose proof (wb_len _ _ _ H) as HZ. rewrite E, zlen_app in HZ. lia. }
  pose proof (pow2_pos (24 - nb) ltac:(lia)) as Hp.
  pose proof (aligned_bound (w_low w) (24 - nb) 24 ltac:(lia) Hal ltac:(lia)) as Hsum.
  destruct (ac_shift_sim _ _ w fwd rest _ B H E Ef HI Hp ltac:(intros; exact Hsum))
    as (fwd' & mid' & E' & Ef' & Ek' & Hmid' & El' & HI' & Hcase & Hcy').
  { unfold T in HT. lia. }
  destruct (ac_shift_WB _ _ _ H) as (H' & _).
  rewrite (shift_aligned _ nb) in El' by (auto; lia).
  assert (Hxs : exists xs', bval (xs' ++ mid') = W).
  { destruct Hmid' as [(_ & ->)|(ys & -> & _)]; [exists xs; exact HWr|].
    exists (xs ++ ys). rewrite <- app_assoc. exact HWr. }
  destruct Hxs as (xs' & HWr').
  assert (Hfin : 0 <= w_cache (ac_shift w) /\
    (w_cc (ac_shift w) = 0 /\ w_cache (ac_shift w) mod 2 ^ (8 - nb) = 0 \/
     1 <= w_cc (ac_shift w) /\ nb = 8)).
  { destruct ((w_low w <? 16711680) || negb (w_carry w =? 0)) eqn:Eb.
    - destruct (Hcase ltac:(lia)) as (Hc0 & Hc1). split; [exact Hc1|].
      left. split; [exact Hc0|].
      assert (Ec : w_cache (ac_shift w) = w_low w / 2 ^ 16).
      { unfold ac_shift. rewrite Eb. cbv zeta. wproj. reflexivity. }
      rewrite Ec. apply Z.mod_divide in Hal; [|lia]. destruct Hal as [q ->].
      assert (E16 : 2 ^ (24 - nb) = 2 ^ (8 - nb) * 2 ^ 16).
      { rewrite <- Z.pow_add_r by lia. f_equal. lia. }
      rewrite E16, Z.mul_assoc, Z.div_mul by lia. apply Z.mod_mul.
      pose proof (pow2_pos (8 - nb) ltac:(lia)). lia.
    - assert (Hnb8 : nb = 8).
      { destruct (Z.eq_dec nb 8) as [He|He]; [exact He|exfalso].
        assert (2 ^ 17 <= 2 ^ (24 - nb)) by (apply Z.pow_le_mono_r; lia). lia. }
      assert (Esh : w_cc (ac_shift w) = w_cc w + 1 /\ w_cache (ac_shift w) = w_cache w).
      { unfold ac_shift. rewrite Eb. cbv zeta. wproj. split; reflexivity. }
      destruct Esh as (Es1 & Es2). rewrite Es1, Es2.
      split; [|right; lia].
      destruct (Z.lt_ge_cases (w_cache w) 0) as [Hneg|Hge]; [exfalso|exact Hge].
      destruct HI as (_ & I2 & I3 & _ & I5). destruct (I5 Hneg) as (-> & Hc0).
      change (zlen (@nil Z)) with 0 in Ef.
      assert (Ekc : w_k w = w_cc w).
      { unfold w_k. replace (0 <=? w_cache w) with false by lia. cbn [b2z]. lia. }
      rewrite Ekc in I3. rewrite bval_nil, Hc0, Z.max_r in I2 by lia.
      rewrite Z.mul_0_l, !Z.add_0_l, Z.mul_1_l in I2.
      assert (0 < 256 ^ w_cc w) by (apply Z.pow_pos_nonneg; lia).
      rewrite Hnb8 in *. change (2 ^ (24 - 8)) with 65536 in *.
      set (P := 256 ^ w_cc w) in *.
      assert (w_low w = 16711680).
      { apply Z.mod_divide in Hal; [|lia]. destruct Hal as [q Hq]. lia. }
      lia. }
  destruct Hfin as (Hca' & Hfin).
  assert (ET : 8 * (w_k (ac_shift w) - 1) + nb = T) by (unfold T; lia).
  destruct (ac_end_sim _ _ _ nb _ _ xs' _ _ W H' E' Ef' HI' El' Hcy' Hca' Hnb
             ltac:(lia) Hfin HWr' ltac:(rewrite ET; exact HW)) as (c & F1 & F2).
  rewrite ET in F1. exists c. split; [exact F1|].
  assert (E8 : 2 ^ (8 - nb) * 2 ^ 24 = 2 ^ (24 - nb) * 256).
  { change 256 with (2 ^ 8). rewrite <- !Z.pow_add_r by lia. f_equal. lia. }
  rewrite <- Z.mul_assoc, E8 in F2. lia.
Qed.

Lemma ac_terminate_sim L w fwd rest B W :
  WB 65536 L w -> w_buf w = fwd ++ rest -> zlen fwd = w_fw w ->
  ac_inv fwd w (w_range w) B -> bval rest = W ->
  forall pos, 0 <= pos -> 0 <= W < 2 ^ pos ->
  pos + 8 * w_k w + 26 - range_bits (w_range w) <= 8 * L ->
  let F := bval (w_buf (ac_terminate w)) in
  B * 2 ^ (8 * (L - w_k w)) <= F * 2 ^ 24 /\
  F * 2 ^ 24 < (B + w_range w) * 2 ^ (8 * (L - w_k w)) /\
  F mod 2 ^ pos = W.
Proof.
  intros H E Ef HI HWr pos Hpos HW Hleft.
  pose proof (wb_low _ _ _ H) as Hlow. pose proof (wb_cc _ _ _ H) as Hcc.
  pose proof (wb_cache _ _ _ H) as Hca. pose proof (wb_carry _ _ _ H) as Hcy.
  pose proof (wb_range _ _ _ H) as Hr. pose proof (wb_fw _ _ _ H) as Hfw.
  rewrite ac_terminate_end.
  pose proof (terminate_value_spec (w_low w) (w_range w) Hlow Hr) as Ht.
  destruct (terminate_value (w_low w) (w_range w)) as [[nbits val] c].
  cbv zeta in Ht. destruct Ht as (Hn1 & Hn2 & Hv & Hal & Hlo & Hhi).
  set (v := val + (if c then 2 ^ 24 else 0)) in *.
  pose proof (pow2_pos (24 - nbits) ltac:(lia)) as Hp.
  set (Bv := B + (v - w_low w)).
  set (w1 := w_set_ac w val _ _ _ _).
  pose proof HI as (I1 & _ & _ & _ & I5).
  assert (Hc1 : w_carry w1 = w_carry w + b2z c).
  { unfold w1. wproj. assert (w_carry w = 0 \/ w_carry w = 1) as [Hc|Hc] by lia;
      rewrite Hc in *; destruct c; cbn; try reflexivity.
    specialize (I1 eq_refl). unfold v in Hhi. lia. }
  assert (Hcr : 0 <= w_carry w1 <= 1).
  { unfold w1. wproj. apply carry_lor. exact Hcy. }
  assert (H1 : WB 65536 L w1).
  { revert Hcr. unfold w1. wproj. intros Hcr. destruct H. constructor; wproj; auto. }
  pose proof (aligned_bound val (24 - nbits) 24 ltac:(lia) Hal ltac:(lia)) as Hsum.
  assert (W1 : w_buf w1 = w_buf w /\ w_fw w1 = w_fw w /\ w_low w1 = val /\
               w_cache w1 = w_cache w /\ w_cc w1 = w_cc w) by (repeat split).
  clearbody w1. destruct W1 as (W1 & W2 & W3 & W4 & W5).
  assert (Ek1 : w_k w1 = w_k w) by (unfold w_k; rewrite W2, W4, W5; reflexivity).
  assert (HI1 : ac_inv fwd w1 (2 ^ (24 - nbits)) Bv).
  { apply ac_inv_sub with (w := w) (R := w_range w) (B := B); auto; unfold Bv; try lia.
    rewrite W3, Hc1. unfold v. destruct c; cbn [b2z]; lia. }
  assert (E1 : w_buf w1 = fwd ++ rest) by congruence.
  assert (Ef1 : zlen fwd = w_fw w1) by lia.
  set (T := 8 * w_k w + nbits).
  assert (HT : pos <= 8 * L - T) by (unfold T; lia).
  assert (HWT : 0 <= W < 2 ^ (8 * L - T)).
  { assert (2 ^ pos <= 2 ^ (8 * L - T)) by (apply Z.pow_le_mono_r; lia). lia. }
  set (wf := let '(w, nbits) := if 8 <? nbits then (ac_shift w1, nbits - 8)
                                 else (w1, nbits) in ac_end (ac_shift w) nbits).
  assert (Hcore : exists c, bval (w_buf wf) = c * 2 ^ (8 * L - T) + W /\
                            c * 2 ^ (24 - nbits) = Bv).
  { unfold wf. destruct (8 <? nbits) eqn:E8.
    - assert (nbits = 9) by lia. clear Hn1 Hn2. subst nbits.
      change (9 - 8) with 1 in *. change (24 - 9) with 15 in *.
      assert (HZr : zlen rest = L - w_fw w1).
      { pose proof (wb_len _ _ _ H1) as HZ. rewrite E1, zlen_app in HZ. lia. }
      destruct (ac_shift_sim _ _ w1 fwd rest _ Bv H1 E1 Ef1 HI1 Hp
                 ltac:(intros; rewrite W3; exact Hsum))
        as (fwd' & mid' & E' & Ef' & Ek' & Hmid' & El' & HI' & _ & _).
      { unfold T in HT. lia. }
      destruct (ac_shift_WB _ _ _ H1) as (H' & _).
      assert (Hxs : exists xs', bval (xs' ++ mid') = W).
      { destruct Hmid' as [(_ & ->)|(ys & -> & _)]; [exists []; exact HWr|].
        exists ys. exact HWr. }
      destruct Hxs as (xs' & HWr').
      change (2 ^ 15 * 256) with (2 ^ (24 - 1)) in HI'.
      assert (Hal' : w_low (ac_shift w1) mod 2 ^ (24 - 1) = 0).
      { rewrite El', W3. change (24 - 1) with 23.
        rewrite (mod_mod_pow _ 24 23) by lia.
        apply Z.mod_divide in Hal; [|lia]. destruct Hal as [q ->].
        rewrite <- Z.mul_assoc. change (2 ^ 15 * 256) with (2 ^ 23).
        apply Z.mod_mul. lia. }
      assert (ET : 8 * w_k (ac_shift w1) + 1 = T) by (unfold T; lia).
      destruct (ac_last_sim _ _ _ 1 _ _ xs' _ W H' E' Ef' HI' Hal' ltac:(lia) HWr')
        as (c' & F1 & F2).
      { rewrite ET. lia. } { rewrite ET. exact HWT. }
      rewrite ET in F1. exists c'. split; [exact F1|].
      change (2 ^ (24 - 1)) with (2 ^ 15 * 256) in F2. lia.
    - assert (ET : 8 * w_k w1 + nbits = T) by (unfold T; lia).
      destruct (ac_last_sim _ _ _ nbits _ _ [] _ W H1 E1 Ef1 HI1
                 ltac:(rewrite W3; exact Hal) ltac:(lia) HWr) as (c' & F1 & F2).
      { rewrite ET. lia. } { rewrite ET. exact HWT. }
      rewrite ET in F1. exists c'. split; [exact F1|exact F2]. }
  clearbody wf. destruct Hcore as (c' & F1 & F2). cbv zeta. rewrite F1.
  pose proof (pow2_pos (8 * (L - w_k w)) ltac:(unfold T in HT; lia)) as HpK.
  assert (EK : 2 ^ (8 * L - T) * 2 ^ 24 = 2 ^ (24 - nbits) * 2 ^ (8 * (L - w_k w))).
  { rewrite <- !Z.pow_add_r by (unfold T in *; lia). f_equal. unfold T. lia. }
  set (PK := 2 ^ (8 * (L - w_k w))) in *. set (PT := 2 ^ (8 * L - T)) in *.
  assert (EF : (c' * PT + W) * 2 ^ 24 = Bv * PK + W * 2 ^ 24).
  { rewrite <- F2. replace (c' * 2 ^ (24 - nbits) * PK)
      with (c' * (2 ^ (24 - nbits) * PK)) by ring. rewrite <- EK. ring. }
  rewrite EF.
  assert (HWK : W * 2 ^ 24 < 2 ^ (24 - nbits) * PK) by (rewrite <- EK; nia).
  split; [|split].
  - unfold Bv. nia.
  - replace ((B + w_range w) * PK)
      with (Bv * PK + (B + w_range w - Bv) * PK) by ring.
    assert (2 ^ (24 - nbits) * PK <= (B + w_range w - Bv) * PK); [|lia].
    apply Z.mul_le_mono_nonneg_r; [lia|]. unfold Bv. lia.
  - unfold PT. replace (8 * L - T) with ((8 * L - T - pos) + pos) by lia.
    rewrite Z.pow_add_r, Z.mul_assoc by lia.
    rewrite Z.add_comm, Z_mod_plus_full. apply Z.mod_small. exact HW.
Qed.

(** The flushed buffer is a frame of the abstract state. *)
Lemma flush_sim L w a :
  a_ok a -> WSim L w a -> 0 <= w_bits_left w ->
  let buf := w_buf (flush_bits w) in
  Fin (bval buf) L a /\ zlen buf = L /\ bytes buf.
Proof.
  intros Ha HW Hl. pose proof (ws_wb _ _ _ HW) as H.
  pose proof (flush_bits_WB _ _ H) as HB.
  pose proof (wb_len _ _ _ HB) as HZ. pose proof (wb_bytes _ _ _ HB) as Hby.
  pose proof (bval_bound _ Hby) as Hbv. rewrite HZ, pow256 in Hbv
    by (pose proof (wb_fw _ _ _ H); lia).
  pose proof (WSim_left _ _ _ HW) as Eleft. rewrite Eleft in Hl.
  unfold a_left in Hl.
  pose proof Ha as (HR & HB0 & Hk & Hb & Hp & HW0).
  pose proof (range_bits_bounds _ HR) as Hrb.
  cbv zeta. split; [|split; assumption].
  assert (Hkey : let F := bval (w_buf (flush_bits w)) in
    a_B a * 2 ^ (8 * (L - a_k a)) <= F * 2 ^ 24 /\
    F * 2 ^ 24 < (a_B a + a_R a) * 2 ^ (8 * (L - a_k a)) /\
    F mod 2 ^ a_pos a = a_W a).
  { unfold flush_bits. cbv zeta.
    destruct (flush_pad_sim L w a HW ltac:(rewrite Eleft; unfold a_left; lia))
      as (H2 & C2 & F2 & fwd & rest & E & Ef & HWr & HI).
    set (w2 := accu_flush _) in *. clearbody w2.
    pose proof (ac_inv_same _ _ _ _ _ C2 F2 HI) as HI2.
    pose proof C2 as (C2a & C2b & C2c & C2d & C2e).
    assert (Ek2 : w_k w2 = a_k a).
    { rewrite (ws_k _ _ _ HW). unfold w_k. rewrite F2, C2c, C2e. reflexivity. }
    assert (ER2 : w_range w2 = a_R a) by (rewrite (ws_R _ _ _ HW); exact C2b).
    rewrite <- C2b in HI2.
    pose proof (ac_terminate_sim _ _ _ _ _ _ H2 E ltac:(lia) HI2 HWr (a_pos a) Hp HW0)
      as Hs. rewrite Ek2, ER2 in Hs. apply Hs. lia. }
  destruct Hkey as (K1 & K2 & K3).
  constructor; auto; lia.
Qed.

Theorem writer_sim buf ops :
  bytes buf -> Forall op_ok ops ->
  let w := fold_left wstep ops (w_setup buf) in
  0 <= w_bits_left w ->
  Fin (bval (w_buf (flush_bits w))) (zlen buf) (fold_left astep ops a_init) /\
  w_bits_left w = a_left (zlen buf) (fold_left astep ops a_init) /\
  zlen (w_buf (flush_bits w)) = zlen buf /\ bytes (w_buf (flush_bits w)).
Proof.
  intros Hb Ho w Hl.
  pose proof (wsteps_sim _ ops _ _ Ho (WSim_init buf Hb) Hl) as HW. fold w in HW.
  pose proof (asteps_ok ops _ Ho a_init_ok) as Ha.
  destruct (flush_sim _ _ _ Ha HW Hl) as (H1 & H2 & H3).
  split; [exact H1|]. split; [apply WSim_left; exact HW|]. split; assumption.
Qed.
