(** * Frame blocks of several channels *)
From Coq Require Import ZArith List Bool Lia ZifyBool.
From Verif Require Import Base BaseProofs BlockModel.
Import ListNotations.
Local Open Scope Z_scope.

Lemma b2z_range b : 0 <= b2z b <= 1. Proof. destruct b; cbn; lia. Qed.

Lemma frame_size_bounds b n i : 0 <= b -> 0 < n -> b / n <= frame_size b n i <= b / n + 1 /\ 0 <= frame_size b n i.
Proof.
  intros Hb Hn. unfold frame_size. pose proof (b2z_range (i <? b mod n)). pose proof (Z.div_pos b n Hb Hn). lia.
Qed.

Lemma slots_from_S size k i off : slots_from size (S k) i off = (off, size i) :: slots_from size k (i + 1) (off + size i).
Proof. reflexivity. Qed.

(** Offset of the channel [i]. *)
Definition offset (b n i : Z) : Z := i * (b / n) + Z.min i (b mod n).
Lemma offset_next b n i : 0 <= i -> offset b n (i + 1) = offset b n i + frame_size b n i.
Proof.
  intros Hi. unfold offset, frame_size. destruct (i <? b mod n) eqn:E; cbn [b2z]; rewrite Z.mul_add_distr_r; lia.
Qed.
Lemma offset_0 b n : 0 <= b -> 0 < n -> offset b n 0 = 0.
Proof. intros Hb Hn. unfold offset. pose proof (Z.mod_pos_bound b n Hn). lia. Qed.
Lemma offset_n b n : 0 <= b -> 0 < n -> offset b n n = b.
Proof. intros Hb Hn. unfold offset. pose proof (Z.mod_pos_bound b n Hn). pose proof (Z.div_mod b n). lia. Qed.
Lemma offset_nonneg b n i : 0 <= b -> 0 < n -> 0 <= i -> 0 <= offset b n i.
Proof.
  intros Hb Hn Hi. unfold offset. pose proof (Z.mod_pos_bound b n Hn). pose proof (Z.div_pos b n Hb Hn).
  pose proof (Z.mul_nonneg_nonneg i (b / n) Hi H0). lia.
Qed.

Lemma slots_from_nth b n k : forall i, 0 <= i ->
  slots_from (frame_size b n) k i (offset b n i) =
  map (fun j => (offset b n (i + Z.of_nat j), frame_size b n (i + Z.of_nat j))) (seq 0 k).
Proof.
  induction k as [|k IH]; intros i Hi; [reflexivity|].
  rewrite slots_from_S, <- offset_next by exact Hi. cbn [seq map]. rewrite Z.add_0_r. f_equal.
  rewrite IH by lia. rewrite <- seq_shift, map_map. apply map_ext. intros j.
  replace (i + 1 + Z.of_nat j) with (i + Z.of_nat (S j)) by lia. reflexivity.
Qed.
Lemma slots_map b n : 0 <= b -> 0 < n ->
  slots b n = map (fun j => (offset b n (Z.of_nat j), frame_size b n (Z.of_nat j))) (seq 0 (Z.to_nat n)).
Proof.
  intros Hb Hn. unfold slots. pose proof (slots_from_nth b n (Z.to_nat n) 0 ltac:(lia)) as E.
  rewrite (offset_0 b n Hb Hn) in E. exact E.
Qed.

(** ** Contents *)
Lemma zlen_firstn {A} k (l : list A) : 0 <= k <= zlen l -> zlen (firstn (Z.to_nat k) l) = k.
Proof. unfold zlen. intros H. rewrite firstn_length. lia. Qed.
Lemma zlen_skipn {A} k (l : list A) : 0 <= k <= zlen l -> zlen (skipn (Z.to_nat k) l) = zlen l - k.
Proof. unfold zlen. intros H. rewrite skipn_length. lia. Qed.

Lemma store_len out off data : 0 <= off -> off + zlen data <= zlen out -> zlen (store out off data) = zlen out.
Proof.
  intros H0 H1. unfold store. pose proof (zlen_nonneg data). rewrite !zlen_app, zlen_firstn, zlen_skipn by lia. lia.
Qed.
Lemma slice_store out off data : 0 <= off -> off + zlen data <= zlen out -> slice (store out off data) off (zlen data) = data.
Proof.
  intros H0 H1. unfold slice, store. pose proof (zlen_nonneg data) as Hd.
  assert (L : length (firstn (Z.to_nat off) out) = Z.to_nat off) by (rewrite firstn_length; unfold zlen in *; lia).
  rewrite skipn_app, L, Nat.sub_diag, (skipn_all2 (firstn _ _)) by lia. cbn [app skipn].
  rewrite firstn_app. replace (Z.to_nat (zlen data) - length data)%nat with 0%nat by (unfold zlen; lia).
  cbn [firstn]. rewrite app_nil_r. apply firstn_all2. unfold zlen; lia.
Qed.
Lemma slice_store_before out off data o s : 0 <= o -> 0 <= s -> o + s <= off -> off <= zlen out ->
  slice (store out off data) o s = slice out o s.
Proof.
  intros Ho Hs H H1. unfold slice, store.
  assert (L : length (firstn (Z.to_nat off) out) = Z.to_nat off) by (rewrite firstn_length; unfold zlen in *; lia).
  rewrite skipn_app, L. replace (Z.to_nat o - Z.to_nat off)%nat with 0%nat by lia. cbn [skipn].
  rewrite firstn_app. assert (L2 : length (skipn (Z.to_nat o) (firstn (Z.to_nat off) out)) = (Z.to_nat off - Z.to_nat o)%nat)
    by (rewrite skipn_length, L; reflexivity).
  rewrite L2. replace (Z.to_nat s - (Z.to_nat off - Z.to_nat o))%nat with 0%nat by lia.
  cbn [firstn]. rewrite app_nil_r, skipn_firstn_comm, firstn_firstn. f_equal. lia.
Qed.

Lemma encode_slots_spec enc b n : 0 <= b -> 0 < n -> (forall i s, 0 <= s -> zlen (enc i s) = s) ->
  forall k i out, 0 <= i -> i + Z.of_nat k = n -> zlen out = b ->
  let out' := encode_slots enc i (slots_from (frame_size b n) k i (offset b n i)) out in
  zlen out' = b /\
  (forall o s, 0 <= o -> 0 <= s -> o + s <= offset b n i -> slice out' o s = slice out o s) /\
  (forall j, i <= j < n -> slice out' (offset b n j) (frame_size b n j) = enc j (frame_size b n j)).
Proof.
  intros Hb Hn He. induction k as [|k IH]; intros i out Hi Hk Hz; cbv zeta.
  - cbn [slots_from encode_slots]. split; [exact Hz|]. split; [reflexivity|]. intros j Hj. lia.
  - rewrite slots_from_S, <- offset_next by exact Hi. cbn [encode_slots].
    destruct (frame_size_bounds b n i Hb Hn) as (_ & Hs). pose proof (He i _ Hs) as El.
    pose proof (offset_nonneg b n i Hb Hn Hi) as Ho.
    assert (Hin : offset b n i + frame_size b n i <= b).
    { rewrite <- offset_next by exact Hi. clear - Hb Hn Hi Hk. 
      assert (G : forall m : nat, 0 <= i + 1 + Z.of_nat m -> offset b n (i + 1) <= offset b n (i + 1 + Z.of_nat m)).
      { induction m as [|m IHm]; intros _; [rewrite Z.add_0_r; lia|].
        replace (i + 1 + Z.of_nat (S m)) with (i + 1 + Z.of_nat m + 1) by lia. rewrite (offset_next b n (i + 1 + Z.of_nat m)) by lia.
        destruct (frame_size_bounds b n (i + 1 + Z.of_nat m) Hb Hn). specialize (IHm ltac:(lia)). lia. }
      specialize (G k ltac:(lia)). replace (i + 1 + Z.of_nat k) with n in G by lia. rewrite offset_n in G by lia. exact G. }
    assert (Hz1 : zlen (store out (offset b n i) (enc i (frame_size b n i))) = b) by (rewrite store_len; lia).
    destruct (IH (i + 1) (store out (offset b n i) (enc i (frame_size b n i))) ltac:(lia) ltac:(lia) Hz1) as (I1 & I2 & I3).
    pose proof (offset_next b n i Hi) as On.
    split; [exact I1|]. split.
    + intros o s H0 H1 H2. rewrite I2 by lia. apply slice_store_before; lia.
    + intros j Hj. destruct (Z.eq_dec j i) as [->|Hji].
      * rewrite I2 by lia. rewrite <- El at 2. apply slice_store; lia.
      * apply I3. lia.
Qed.

Lemma block_round_trip enc b n out : 0 <= b -> 0 < n -> (forall i s, 0 <= s -> zlen (enc i s) = s) -> zlen out = b ->
  zlen (encode_block enc b n out) = b /\
  decode_block (encode_block enc b n out) n = map (fun j => enc (Z.of_nat j) (frame_size b n (Z.of_nat j))) (seq 0 (Z.to_nat n)).
Proof.
  intros Hb Hn He Hz. destruct (encode_slots_spec enc b n Hb Hn He (Z.to_nat n) 0 out ltac:(lia) ltac:(lia) Hz) as (E1 & _ & E3).
  rewrite offset_0 in E1, E3 by assumption.
  change (encode_slots enc 0 (slots_from (frame_size b n) (Z.to_nat n) 0 0) out) with (encode_block enc b n out) in *.
  split; [exact E1|]. unfold decode_block. rewrite E1, slots_map by assumption. rewrite map_map.
  apply map_ext_in. intros j Hj. apply in_seq in Hj. apply E3. lia.
Qed.

(** ** The C++ conversions *)
Lemma cpp_frame_size_eq b n i : 0 <= b <= INT_MAX -> 0 < n < 2 ^ 32 -> 0 <= i -> cpp_frame_size b n i = frame_size b n i.
Proof.
  intros Hb Hn Hi. unfold cpp_frame_size, frame_size, INT_MAX in *.
  assert (E : u64 b = b) by (unfold u64; apply Z.mod_small; lia). rewrite E.
  pose proof (b2z_range (i <? b mod n)) as R. pose proof (Z.div_pos b n ltac:(lia) ltac:(lia)) as D.
  assert (D2 : b / n + b2z (i <? b mod n) <= b \/ b / n + b2z (i <? b mod n) <= 1 \/ n = 1).
  { destruct (Z.eq_dec n 1) as [->|Hn1]; [auto|]. destruct (i <? b mod n); cbn [b2z] in *; [|left; rewrite Z.add_0_r; apply Z.div_le_upper_bound; nia].
    destruct (Z.eq_dec (b / n) 0) as [->|]; [right; left; lia|]. left.
    pose proof (Z.mul_div_le b n ltac:(lia)). nia. }
  assert (H : 0 <= b / n + b2z (i <? b mod n) < 2 ^ 31).
  { destruct D2 as [D2|[D2|D2]]; [lia|lia|]. subst n. rewrite Z.div_1_r, Z.mod_1_r in *.
    replace (i <? 0) with false by lia. cbn [b2z]. lia. }
  unfold u64. rewrite Z.mod_small by lia. unfold i32. rewrite Z.mod_small by lia. lia.
Qed.

(** ** PCM *)
Lemma sample_unique n ich i ich' i' : 0 <= ich < n -> 0 <= ich' < n -> ich + n * i = ich' + n * i' -> ich = ich' /\ i = i'.
Proof. intros H H' E. assert (i = i') by nia. subst. lia. Qed.

Lemma sample_disjoint e f n ich i ich' i' : e = fmt_size f -> 0 <= ich < n -> 0 <= ich' < n -> (ich, i) <> (ich', i') ->
  sample_addr e f n ich i + fmt_size f <= sample_addr e f n ich' i' \/
  sample_addr e f n ich' i' + fmt_size f <= sample_addr e f n ich i.
Proof.
  intros -> H H' Hne. unfold sample_addr. assert (Hs : 0 < fmt_size f) by (destruct f; cbn; lia).
  rewrite <- !Z.mul_add_distr_l.
  destruct (Z.lt_trichotomy (ich + n * i) (ich' + n * i')) as [L|[L|L]].
  - left. nia.
  - exfalso. destruct (sample_unique n ich i ich' i' H H' L) as [-> ->]. congruence.
  - right. nia.
Qed.
Lemma sample_in e f n samples ich i : e = fmt_size f -> 0 <= ich < n -> 0 <= i < samples ->
  0 <= sample_addr e f n ich i /\ sample_addr e f n ich i + fmt_size f <= n * samples * fmt_size f.
Proof.
  intros -> H Hi. unfold sample_addr. assert (Hs : 0 < fmt_size f) by (destruct f; cbn; lia).
  rewrite <- !Z.mul_add_distr_l. assert (0 <= ich + n * i < n * samples) by nia. nia.
Qed.
