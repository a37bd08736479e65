(** * Decoding of arbitrary bytes *)
From Coq Require Import ZArith List Bool Lia ZifyBool.
From Verif Require Import Base BaseProofs Tables TableProofs BitsModel ConfigModel SideModel SideSpec.
From Verif Require Import BitsWriteSafe BitsAbstract BitsWriteSim BitsReadSim BitsReadSafe BitsRoundTrip.
From Verif Require Import SideProofs SpecModel SpecProofs SpecPairs SpecSpec SpecFrame.
From Verif Require Import FloatModel FloatProofs ResidualModel ResidualSpec FrameModel.
Import ListNotations.
Local Open Scope Z_scope.

Lemma Safe_ext {A} (g1 g2 : rst -> A * rst) post :
  (forall r, g1 r = g2 r) -> Safe g1 post -> Safe g2 post.
Proof. intros E H L r HR. rewrite <- E. apply H. exact HR. Qed.

Lemma Safe_bind2 {A B C} (get : rst -> (A * B) * rst) (k : A -> B -> rst -> C * rst) p1 p2 :
  Safe get p1 -> (forall x y, p1 (x, y) -> Safe (k x y) p2) ->
  Safe (fun r => let '((x, y), r) := get r in k x y r) p2.
Proof.
  intros H1 H2 L r HR. specialize (H1 L r HR). destruct (get r) as [[x y] r1].
  destruct H1 as (P1 & R1). apply (H2 x y P1 L r1 R1).
Qed.
Lemma Safe_bind3 {A B C D} (get : rst -> (A * B * C) * rst) (k : A -> B -> C -> rst -> D * rst) p1 p2 :
  Safe get p1 -> (forall x y z, p1 (x, y, z) -> Safe (k x y z) p2) ->
  Safe (fun r => let '((x, y, z), r) := get r in k x y z r) p2.
Proof.
  intros H1 H2 L r HR. specialize (H1 L r HR). destruct (get r) as [[[x y] z] r1].
  destruct H1 as (P1 & R1). apply (H2 x y z P1 L r1 R1).
Qed.
Lemma Safe_bind5 {A B C D E G} (get : rst -> (A * B * C * D * E) * rst)
  (k : A -> B -> C -> D -> E -> rst -> G * rst) p1 p2 :
  Safe get p1 -> (forall x y z t u, p1 (x, y, z, t, u) -> Safe (k x y z t u) p2) ->
  Safe (fun r => let '((x, y, z, t, u), r) := get r in k x y z t u r) p2.
Proof.
  intros H1 H2 L r HR. specialize (H1 L r HR). destruct (get r) as [[[[[x y] z] t] u] r1].
  destruct H1 as (P1 & R1). apply (H2 x y z t u P1 L r1 R1).
Qed.

Lemma lor_bound n a b : 0 <= n -> 0 <= a < 2 ^ n -> 0 <= b < 2 ^ n -> 0 <= Z.lor a b < 2 ^ n.
Proof.
  intros Hn Ha Hb. split; [apply Z.lor_nonneg; lia|].
  destruct (Z.eq_dec (Z.lor a b) 0) as [E|E]; [rewrite E; apply pow2_pos; lia|].
  assert (0 < Z.lor a b) by (pose proof (proj2 (Z.lor_nonneg a b) ltac:(lia)); lia).
  apply Z.log2_lt_pow2; [assumption|]. rewrite Z.log2_lor by lia.
  assert (n <> 0).
  { intros ->. change (2 ^ 0) with 1 in *. replace a with 0 in * by lia. replace b with 0 in * by lia.
    apply E. reflexivity. }
  apply Z.max_lub_lt.
  - destruct (Z.eq_dec a 0) as [->|]; [cbn; lia|apply Z.log2_lt_pow2; lia].
  - destruct (Z.eq_dec b 0) as [->|]; [cbn; lia|apply Z.log2_lt_pow2; lia].
Qed.

Lemma get_spec_symbol_safe lut k : LutOk lut -> 0 <= k < 4 ->
  Safe (fun r => get_spec_symbol r lut k) (fun s => 0 <= s <= 16).
Proof.
  intros Hl Hk. eapply Safe_ext.
  { intros r. symmetry. apply get_spec_symbol_eq; assumption. }
  eapply Safe_weaken; [apply Safe_sym, spectrum_models_wf, spec_model_In; assumption|]. cbv beta. lia.
Qed.

Lemma get_escapes_safe fuel lut ms : LutOk lut -> forall u v k sh s,
  0 <= k < 4 -> 0 <= sh <= ms -> 0 <= u < 2 ^ sh -> 0 <= v < 2 ^ sh -> 0 <= s <= 16 ->
  ms - sh <= Z.of_nat fuel ->
  Safe (fun r => get_escapes fuel r lut ms u v k sh s)
    (fun '(u, v, k, sh, s) => 0 <= k < 4 /\ 0 <= sh <= ms /\ 0 <= u < 2 ^ sh /\ 0 <= v < 2 ^ sh /\
       0 <= s <= 16 /\ (16 <= s -> sh = ms)).
Proof.
  intros Hl. induction fuel as [|fuel IH]; intros u v k sh s Hk Hsh Hu Hv Hs Hf; cbn [get_escapes].
  - apply Safe_ret. repeat split; try lia.
  - destruct ((16 <=? s) && (sh <? ms)) eqn:E; [|apply Safe_ret; repeat split; lia].
    eapply Safe_bind; [apply Safe_bit|]. intros bu Hbu. cbv beta in Hbu.
    eapply Safe_bind; [apply Safe_bit|]. intros bv Hbv. cbv beta in Hbv. cbv zeta.
    assert (Hk2 : 0 <= k + b2z (k <? 3) < 4) by (unfold b2z; destruct (k <? 3) eqn:Ek; lia).
    eapply Safe_bind; [apply get_spec_symbol_safe; assumption|]. intros s2 Hs2. cbv beta in Hs2.
    assert (Hb : forall x b, 0 <= x < 2 ^ sh -> b = 0 \/ b = 1 -> 0 <= Z.lor x (shl b sh) < 2 ^ (sh + 1)).
    { intros x b Hx Hb. unfold shl. rewrite lor_add by lia. rewrite Z.pow_add_r by lia.
      change (2 ^ 1) with 2. destruct Hb as [-> | ->]; lia. }
    apply IH; auto; lia.
Qed.

Lemma get_signed_safe u n : 0 <= u < n -> Safe (fun r => get_signed r u) (fun x => Z.abs x < n).
Proof.
  intros Hu. unfold get_signed. destruct (u =? 0); [apply Safe_ret; lia|].
  eapply Safe_bind; [apply Safe_bit|]. intros b _. apply Safe_ret. destruct (b =? 0); lia.
Qed.

Definition pair_post (ms : Z) (o : option (Z * Z * Z)) : Prop :=
  match o with
  | Some (x0, x1, st) => Z.abs x0 < 2 ^ (ms + 2) /\ Z.abs x1 < 2 ^ (ms + 2) /\ 0 <= st < 256
  | None => True
  end.

(** The end of a pair. *)
Lemma pair_end_safe ms state u v k sh s : 0 <= sh <= ms -> 0 <= u < 2 ^ sh -> 0 <= v < 2 ^ sh -> 0 <= s <= 16 ->
  Safe (fun r => if 16 <=? s then (None, r)
    else
      let a := s mod 4 in
      let b := s / 4 in
      let '(x0, r) := get_signed r (Z.lor u (shl a sh)) in
      let '(x1, r) := get_signed r (Z.lor v (shl b sh)) in
      (Some (x0, x1, next_state state k a b), r)) (pair_post ms).
Proof.
  intros Hsh Hu Hv Hs. destruct (16 <=? s) eqn:E; [apply Safe_ret; exact I|]. cbv zeta.
  assert (Hb : forall x a, 0 <= x < 2 ^ sh -> 0 <= a < 4 -> 0 <= Z.lor x (shl a sh) < 2 ^ (ms + 2)).
  { intros x a Hx Ha. unfold shl. rewrite lor_add by lia. rewrite Z.pow_add_r by lia. change (2 ^ 2) with 4.
    pose proof (Z.pow_le_mono_r 2 sh ms ltac:(lia) ltac:(lia)). nia. }
  assert (Ha : 0 <= s mod 4 < 4) by (apply Z.mod_pos_bound; lia).
  assert (Hd : 0 <= s / 4 < 4) by (split; [apply Z.div_pos; lia|apply Z.div_lt_upper_bound; lia]).
  eapply Safe_bind; [apply get_signed_safe, Hb; assumption|]. intros x0 H0. cbv beta in H0.
  eapply Safe_bind; [apply get_signed_safe, Hb; assumption|]. intros x1 H1. cbv beta in H1.
  apply Safe_ret. cbn [pair_post]. split; [exact H0|]. split; [exact H1|]. apply next_state_range.
Qed.

Lemma get_pair_safe lut ms lsb state : LutOk lut -> 1 <= ms <= 30 ->
  Safe (fun r => get_pair r lut ms lsb state) (pair_post ms).
Proof.
  intros Hl Hms. unfold get_pair.
  eapply Safe_bind; [apply get_spec_symbol_safe; [assumption|lia]|]. intros s Hs. cbv beta in Hs.
  eapply (Safe_bind3 (fun r => if lsb && (16 <=? s)
    then let '(s, r) := get_spec_symbol r lut 1 in ((1, 1, s), r) else ((0, 0, s), r))
    _ (fun '(k, sh, s) => 0 <= k < 4 /\ 0 <= sh <= 1 /\ 0 <= s <= 16)).
  - destruct (lsb && (16 <=? s)).
    + eapply Safe_bind; [apply get_spec_symbol_safe; [assumption|lia]|]. intros s2 Hs2. cbv beta in Hs2.
      apply Safe_ret. lia.
    + apply Safe_ret. lia.
  - intros k sh s2 (Hk & Hsh & Hs2).
    assert (Hp : 0 <= 0 < 2 ^ sh) by (pose proof (pow2_pos sh); lia).
    eapply (Safe_bind5 (fun r => get_escapes 32 r lut ms 0 0 k sh s2)).
    + apply get_escapes_safe; auto; lia.
    + intros u v k2 sh2 s3 (Hk2 & Hsh2 & Hu & Hv & Hs3 & _). apply pair_end_safe; assumption.
Qed.

Lemma land_u16 x : 0 <= Z.land x 65535 < 2 ^ 16.
Proof. rewrite land_65535. apply Z.mod_pos_bound. lia. Qed.

Lemma get_pairs_safe high lsb ms ne : 1 <= ms <= 30 -> forall n i state seed, 0 <= state < 256 -> 0 <= seed < 2 ^ 16 ->
  Safe (get_pairs n high lsb ms ne i state seed)
    (fun o => match o with
       | Some (xs, sd) => zlen xs = 2 * Z.of_nat n /\ 0 <= sd < 2 ^ 16 /\ Forall (fun x => Z.abs x < 2 ^ (ms + 2)) xs
       | None => True end).
Proof.
  intros Hms. induction n as [|n IH]; intros i state seed Hst Hsd; cbn [get_pairs].
  - apply Safe_ret. split; [reflexivity|]. split; [exact Hsd|constructor].
  - assert (Hi : inb state 256 = true) by (unfold inb; lia). rewrite Hi. cbn [negb].
    apply (Safe_ext (fun r =>
      let '(o, r) := get_pair r (lookup high (half ne i) state) ms lsb state in
      match o with
      | None => (None, r)
      | Some (x0, x1, state) =>
          let '(o, r) := get_pairs n high lsb ms ne (i + 2) state (add_seed seed i x0 x1) r in
          (option_map (fun '(xs, seed) => (x0 :: x1 :: xs, seed)) o, r)
      end)); [intros r; rewrite flag_oob_false; reflexivity|].
    eapply Safe_bind.
    { apply get_pair_safe; [apply lookup_ok; [apply half_range|assumption]|assumption]. }
    intros [[[x0 x1] st]|] H; [|apply Safe_ret; exact I]. destruct H as (H0 & H1 & H2).
    eapply Safe_bind; [apply IH; [assumption|apply land_u16]|]. intros [[xs sd]|] H; apply Safe_ret; cbn [option_map]; [|exact I].
    destruct H as (Hlen & Hs2 & Hx). split; [rewrite !zlen_cons; lia|]. split; [exact Hs2|]. constructor; [assumption|]. constructor; assumption.
Qed.

(** Magnitude bits of decoded coefficients. *)
Definition dec_bits (sr : Z) : Z := if is_hr sr then 24 else 16.

Lemma get_quantized_safe dt sr nbytes nq lsb : 0 <= nq -> nq mod 2 = 0 ->
  Safe (fun r => get_quantized r dt sr nbytes nq lsb)
    (fun o => match o with
       | Some (xs, sd) => zlen xs = nq /\ 0 <= sd < 2 ^ 16 /\ Forall (fun x => Z.abs x < 2 ^ dec_bits sr) xs
       | None => True end).
Proof.
  intros Hn He. unfold get_quantized.
  eapply Safe_weaken; [apply get_pairs_safe; [destruct (is_hr sr); lia|lia|lia]|].
  intros [[xs sd]|]; [|auto]. intros (H1 & Hsd & H2). split; [|split; [exact Hsd|]].
  - rewrite H1. pose proof (Z.div_mod nq 2 ltac:(lia)). pose proof (Z.div_pos nq 2 ltac:(lia) ltac:(lia)). lia.
  - eapply Forall_impl; [|exact H2]. intros x. unfold dec_bits. destruct (is_hr sr); auto.
Qed.

Lemma get_lsb1_safe n x i seed : 0 <= seed < 2 ^ 16 ->
  Safe (fun r => get_lsb1 r n x i seed) (fun '(y, _, sd) => Z.abs y <= Z.abs x + 1 /\ 0 <= sd < 2 ^ 16).
Proof.
  intros Hsd. unfold get_lsb1. destruct (0 <? n); [|apply Safe_ret; lia]. cbv zeta.
  eapply Safe_bind; [apply Safe_bit|]. intros b _.
  destruct (b =? 0); [apply Safe_ret; lia|].
  destruct (x =? 0) eqn:Ex; cbn [negb].
  - destruct (0 <? n - 1); [|apply Safe_ret; lia].
    eapply Safe_bind; [apply Safe_bit|]. intros sg _. apply Safe_ret. split; [destruct (sg =? 0); lia|apply land_u16].
  - apply Safe_ret. split; [destruct (x <? 0) eqn:E; lia|apply land_u16].
Qed.

Lemma get_lsb_safe xs : forall n i seed, 0 <= seed < 2 ^ 16 ->
  Safe (fun r => get_lsb r n xs i seed) (fun '(ys, sd) => Forall2 (fun x y => Z.abs y <= Z.abs x + 1) xs ys /\ 0 <= sd < 2 ^ 16).
Proof.
  assert (Hrefl : forall l, Forall2 (fun x y => Z.abs y <= Z.abs x + 1) l l).
  { intros l. induction l; constructor; [lia|assumption]. }
  induction xs as [|x|x0 x1 xs IH] using pair_ind; intros n i seed Hsd; cbn [get_lsb].
  - apply Safe_ret. split; [constructor|exact Hsd].
  - apply Safe_ret. split; [apply Hrefl|exact Hsd].
  - destruct (n <=? 0); [apply Safe_ret; split; [apply Hrefl|exact Hsd]|].
    destruct (Z.max (Z.abs x0) (Z.abs x1) <? 4).
    + eapply Safe_bind2; [apply IH; exact Hsd|]. intros ys sd H. apply Safe_ret. cbv beta iota in H. destruct H as [H Hsd2].
      split; [|exact Hsd2]. constructor; [lia|]. constructor; [lia|exact H].
    + eapply (Safe_bind3 (fun r => get_lsb1 r n x0 i seed)); [apply get_lsb1_safe; exact Hsd|].
      intros y0 n0 s0 H0. cbv beta iota in H0.
      eapply (Safe_bind3 (fun r => get_lsb1 r n0 x1 (i + 1) s0)); [apply get_lsb1_safe; apply H0|].
      intros y1 n1 s1 H1. cbv beta iota in H1.
      eapply Safe_bind2; [apply IH; apply H1|]. intros ys sd H. apply Safe_ret. cbv beta iota in H. destruct H as [H Hsd2].
      split; [|exact Hsd2]. constructor; [lia|]. constructor; [lia|exact H].
Qed.

Lemma get_res_pass_safe fl o1 o2 xs : forall n,
  Safe (get_res_pass fl o1 o2 n xs) (fun '(ys, _) => length ys = length xs).
Proof.
  induction xs as [|x xs IH]; intros n; cbn [get_res_pass]; [apply Safe_ret; reflexivity|].
  destruct (n <=? 0); [apply Safe_ret; reflexivity|].
  destruct (x =? 0).
  - eapply Safe_bind2; [apply IH|]. intros ys m H. apply Safe_ret. cbv beta iota in H. cbn [length]. lia.
  - eapply Safe_bind; [apply Safe_bit|]. intros b _. cbv zeta.
    eapply Safe_bind2; [apply IH|]. intros ys m H. apply Safe_ret. cbv beta iota in H. cbn [length]. lia.
Qed.
Lemma get_res_iter_safe fl it : forall o1 o2 xs n,
  Safe (get_res_iter it fl o1 o2 n xs) (fun ys => length ys = length xs).
Proof.
  induction it as [|it IH]; intros o1 o2 xs n; cbn [get_res_iter]; [apply Safe_ret; reflexivity|].
  destruct (n <=? 0); [apply Safe_ret; reflexivity|].
  eapply Safe_bind2; [apply get_res_pass_safe|]. intros ys m H. cbv beta iota in H.
  eapply Safe_weaken; [apply IH|]. cbv beta. lia.
Qed.

Lemma Forall2_len {A B} (P : A -> B -> Prop) l1 l2 : Forall2 P l1 l2 -> length l1 = length l2.
Proof. induction 1; cbn [length]; lia. Qed.

(** ** The frame *)
Definition decoded_ok (dt sr nbytes : Z) (d : decoded) : Prop :=
  bw_ok sr (d_bw d) /\ side_ok dt sr (d_side d) /\ tns_ok dt (d_bw d) nbytes (d_tns d) /\
  sns_ok (d_sns d) /\ (forall l, d_ltpf d = Some l -> ltpf_ok l) /\ 0 <= d_nf d < 8 /\
  zlen (d_x d) = q_nq (d_side d) /\ 0 <= d_seed d < 2 ^ 16.

Lemma get_pitch_safe p : Safe (fun r => get_pitch r p) (fun o => forall l, o = Some l -> ltpf_ok l).
Proof.
  unfold get_pitch. destruct (p =? 0); [apply Safe_ret; discriminate|].
  eapply Safe_bind; [apply get_ltpf_safe|]. intros l H. apply Safe_ret. intros l2 E. injection E as <-. exact H.
Qed.

Lemma get_coeffs_safe dt sr nbytes s : side_ok dt sr s ->
  Safe (fun r => get_coeffs r dt sr nbytes s)
    (fun o => match o with
       | Some (nf, xs, sd) => 0 <= nf < 8 /\ zlen xs = q_nq s /\ 0 <= sd < 2 ^ 16 /\ Forall (fun x => Z.abs x < 2 ^ dec_bits sr) xs
       | None => True end).
Proof.
  intros (_ & _ & Hn & He & _). unfold get_coeffs.
  eapply Safe_bind; [apply (Safe_bits 3); lia|]. intros nf Hnf. cbv beta in Hnf. change (2 ^ 3) with 8 in Hnf.
  eapply Safe_bind; [apply get_quantized_safe; lia|]. intros [[xs sd]|] H; apply Safe_ret; cbn [option_map]; auto.
Qed.

Lemma get_main_safe lf dt sr nbytes : 0 <= dt <= 3 -> 0 <= sr <= 6 ->
  Safe (fun r => get_main lf r dt sr nbytes)
    (fun o => match o with
       | Some d => decoded_ok dt sr nbytes d /\ Forall (fun x => Z.abs x < 2 ^ dec_bits sr) (d_x d)
       | None => True end).
Proof.
  intros Hd Hs. unfold get_main.
  eapply (Safe_bind2 (fun r => get_bw r sr)); [apply get_bw_safe; exact Hs|]. intros ret bw (_ & Hbw).
  destruct (ret <? 0); [apply Safe_ret; exact I|].
  eapply (Safe_bind2 (fun r => get_spec_side r dt sr)); [apply get_side_safe; assumption|]. intros ret2 sd (_ & Hsd).
  destruct (ret2 <? 0); [apply Safe_ret; exact I|].
  eapply Safe_bind; [apply get_tns_safe|]. intros [tns|] Ht; [|apply Safe_ret; exact I].
  eapply Safe_bind; [apply Safe_bit|]. intros p _.
  eapply Safe_bind; [apply get_sns_safe|]. intros [sns|] Hn; [|apply Safe_ret; exact I].
  eapply Safe_bind; [apply get_pitch_safe|]. intros l Hl. cbv beta in Hl.
  eapply Safe_bind; [apply get_coeffs_safe; exact Hsd|].
  intros [[[nf xs] seed]|] H; apply Safe_ret; cbn [option_map]; [|exact I].
  destruct H as (H1 & H2 & H2' & H3). destruct Hn as (Hn & _). unfold decoded_ok. cbn. auto 12.
Qed.

Lemma get_frame_safe lf dt sr nbytes : 0 <= dt <= 3 -> 0 <= sr <= 6 ->
  Safe (fun r => get_frame lf r dt sr nbytes)
    (fun o => match o with Some d => decoded_ok dt sr nbytes d | None => True end).
Proof.
  intros Hd Hs. unfold get_frame.
  eapply Safe_bind; [apply get_main_safe; assumption|]. intros [d|] H; [|apply Safe_ret; exact I].
  destruct H as (H & _).
  assert (HT : forall n, Safe (get_tail n sr d) (decoded_ok dt sr nbytes)).
  { intros n. destruct H as (H1 & H2 & H3 & H4 & H5 & H6 & H7 & H8). unfold get_tail.
    destruct (q_lsb (d_side d)).
    - eapply Safe_bind2; [apply get_lsb_safe; exact H8|]. intros xs seed Hx. apply Safe_ret. cbv beta iota in Hx. destruct Hx as [Hx Hsd].
      apply Forall2_len in Hx. unfold decoded_ok. cbn.
      do 6 (split; [assumption|]). rewrite zlen_map. unfold zlen in *. split; [lia|exact Hsd].
    - eapply Safe_bind; [apply get_res_iter_safe|]. intros xs Hx. apply Safe_ret. cbv beta in Hx.
      rewrite map_length in Hx. unfold decoded_ok. cbn.
      do 6 (split; [assumption|]). unfold zlen in *. split; [lia|exact H8]. }
  intros L r HR. specialize (HT (r_get_bits_left r) L r HR).
  destruct (get_tail (r_get_bits_left r) sr d r) as [d2 r2]. destruct HT as (T1 & T2).
  split; [|exact T2]. destruct (r_check r2 <? 0); [exact I|exact T1].
Qed.
