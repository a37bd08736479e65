(** * Files of the command line tools *)
From Coq Require Import ZArith List Bool Lia ZifyBool.
From Verif Require Import Base BaseProofs ConfigModel BlockModel BlockProofs BinModel.
Import ListNotations.
Local Open Scope Z_scope.

(** ** Integers *)
Lemma u16_eq v : u8 v + 2 ^ 8 * u8 (v / 2 ^ 8) = v mod 2 ^ 16.
Proof. unfold u8. change (2 ^ 16) with (2 ^ 8 * 2 ^ 8). rewrite Z.rem_mul_r by lia. reflexivity. Qed.
Lemma u32_eq v : (v mod 2 ^ 16) + 2 ^ 16 * ((v / 2 ^ 16) mod 2 ^ 16) = v mod 2 ^ 32.
Proof. change (2 ^ 32) with (2 ^ 16 * 2 ^ 16). rewrite Z.rem_mul_r by lia. reflexivity. Qed.

Lemma znth_app_at {A} (l m : list A) i d : 0 <= i -> znth (l ++ m) (zlen l + i) d = znth m i d.
Proof. intros H. rewrite znth_app_r by lia. f_equal. lia. Qed.
Lemma get16_at l v m : get16 (l ++ le16 v ++ m) (zlen l) = v mod 2 ^ 16.
Proof.
  unfold get16. rewrite <- (Z.add_0_r (zlen l)) at 1. rewrite !znth_app_at by lia. apply u16_eq.
Qed.
Lemma get32_at l v m : get32 (l ++ le32 v ++ m) (zlen l) = v mod 2 ^ 32.
Proof.
  unfold get32. rewrite <- u32_eq.
  assert (E : le32 v = le16 v ++ le16 (v / 2 ^ 16)).
  { unfold le32, le16. cbn [app]. rewrite Z.div_div by lia. reflexivity. }
  rewrite E, <- app_assoc, get16_at.
  replace (zlen l + 2) with (zlen (l ++ le16 v)) by (rewrite zlen_app; reflexivity).
  rewrite app_assoc, get16_at. reflexivity.
Qed.

(** ** Reading *)
Lemma fread_at pre d rest p n : p = zlen pre -> n = zlen d ->
  fread (mkFile (pre ++ d ++ rest) p) n = (Some d, mkFile (pre ++ d ++ rest) (p + n)).
Proof.
  intros -> ->. unfold fread. cbn [f_data f_pos]. rewrite !zlen_app.
  pose proof (zlen_nonneg rest). replace (_ <=? _) with true by lia.
  f_equal. f_equal. unfold slice. unfold zlen. rewrite !Nat2Z.id, skipn_app, skipn_all, Nat.sub_diag. cbn [app skipn].
  rewrite firstn_app, Nat.sub_diag, firstn_all. cbn [firstn]. apply app_nil_r.
Qed.

Lemma fread_0 d rest n : n = zlen d -> fread (mkFile (d ++ rest) 0) n = (Some d, mkFile (d ++ rest) n).
Proof. intros H. exact (fread_at [] d rest 0 n eq_refl H). Qed.

(** Fields of 16 bits. *)
Definition words (vs : list Z) : list Z := flat_map le16 vs.
Lemma zlen_words vs : zlen (words vs) = 2 * zlen vs.
Proof. induction vs as [|v vs IH]; [reflexivity|]. cbn [words flat_map]. rewrite zlen_app. fold (words vs). rewrite IH, zlen_cons. change (zlen (le16 v)) with 2. lia. Qed.
Lemma get16_words vs k m : 0 <= k < zlen vs -> get16 (words vs ++ m) (2 * k) = znth vs k 0 mod 2 ^ 16.
Proof.
  intros Hk. destruct (split_at vs k ltac:(lia)) as (a & b & E & Hl).
  destruct b as [|v b]; [rewrite E, app_nil_r in Hk; lia|].
  assert (Ev : znth vs k 0 = v) by (rewrite E, <- Hl; apply znth_mid). rewrite Ev, E.
  unfold words. rewrite flat_map_app. cbn [flat_map]. fold (words a) (words b). rewrite <- !app_assoc.
  replace (2 * k) with (zlen (words a)) by (rewrite zlen_words; lia). apply get16_at.
Qed.

Lemma bin_header_words p bitrate : bin_write_header p bitrate =
  words [LC3_FILE_ID; 18 + (if b_hrmode p then 2 else 0); u16 (Z.quot (b_srate_hz p) 100);
         u16 (Z.quot bitrate 100); u16 (b_nchannels p); u16 (Z.quot (b_frame_us p) 10); 0;
         u16 (b_nsamples p); u16 (b_nsamples p / 2 ^ 16)] ++ (if b_hrmode p then le16 1 else []).
Proof. reflexivity. Qed.

Lemma header_read p bitrate rest :
  (exists k, b_frame_us p = 10 * k /\ 0 <= k < 2 ^ 16) -> (exists k, b_srate_hz p = 100 * k /\ 0 <= k < 2 ^ 16) ->
  0 <= b_nchannels p < 2 ^ 16 -> 0 <= b_nsamples p < 2 ^ 31 ->
  let f := bin_write_header p bitrate ++ rest in
  bin_read_header (fopen f) = (Some (p, false), mkFile f (zlen (bin_write_header p bitrate))).
Proof.
  intros (kf & Ef & Hf) (ks & Es & Hs) Hc Hn. cbv zeta. destruct p as [fus srate hr nch ns]. cbn [b_frame_us b_srate_hz b_hrmode b_nchannels b_nsamples] in *.
  subst. rewrite bin_header_words. cbn [b_frame_us b_srate_hz b_hrmode b_nchannels b_nsamples].
  set (vs := [LC3_FILE_ID; _; _; _; _; _; _; _; _]).
  assert (G : forall m k, 0 <= k < 9 -> get16 (words vs ++ m) (2 * k) = znth vs k 0 mod 2 ^ 16).
  { intros m k Hk. apply get16_words. exact Hk. }
  assert (G0 : forall k, 0 <= k < 9 -> get16 (words vs) (2 * k) = znth vs k 0 mod 2 ^ 16).
  { intros k Hk. rewrite <- (app_nil_r (words vs)). apply G. exact Hk. }
  clear G. pose proof (G0 0 ltac:(lia)) as W0. pose proof (G0 1 ltac:(lia)) as W1. pose proof (G0 2 ltac:(lia)) as W2.
  pose proof (G0 4 ltac:(lia)) as W4. pose proof (G0 5 ltac:(lia)) as W5. pose proof (G0 6 ltac:(lia)) as W6.
  pose proof (G0 7 ltac:(lia)) as W7. pose proof (G0 8 ltac:(lia)) as W8. clear G0.
  assert (ZL : zlen (words vs) = 18) by (rewrite zlen_words; reflexivity).
  change (2 * 0) with 0 in W0. change (2 * 1) with 2 in W1. change (2 * 2) with 4 in W2. change (2 * 4) with 8 in W4.
  change (2 * 5) with 10 in W5. change (2 * 6) with 12 in W6. change (2 * 7) with 14 in W7. change (2 * 8) with 16 in W8.
  change (znth vs 0 0) with LC3_FILE_ID in W0. change (znth vs 1 0) with (18 + (if hr then 2 else 0)) in W1.
  change (znth vs 2 0) with (u16 (Z.quot (100 * ks) 100)) in W2. change (znth vs 4 0) with (u16 nch) in W4.
  change (znth vs 5 0) with (u16 (Z.quot (10 * kf) 10)) in W5. change (znth vs 6 0) with 0 in W6.
  change (znth vs 7 0) with (u16 ns) in W7. change (znth vs 8 0) with (u16 (ns / 2 ^ 16)) in W8.
  rewrite (Z.mul_comm 100), Z.quot_mul in W2 by lia. rewrite (Z.mul_comm 10), Z.quot_mul in W5 by lia.
  unfold u16 in *. rewrite Z.mod_mod in W2, W4, W5, W7, W8 by lia.
  rewrite Z.mod_small in W2, W4, W5, W8 by (clear - Hf Hs Hc Hn; Z.div_mod_to_equations; lia).
  change (LC3_FILE_ID mod 2 ^ 16) with LC3_FILE_ID in W0. change (0 mod 2 ^ 16) with 0 in W6.
  clearbody vs. unfold bin_read_header, fopen. rewrite <- app_assoc.
  rewrite (fread_0 (words vs) _ 18) by (rewrite ?ZL; reflexivity).
  cbv iota zeta beta. rewrite W0, W2, W4, W5, W6, W7, W8. rewrite Z.eqb_refl. change (0 =? 0) with true. cbn [negb orb].
  assert (Hns : ns mod 2 ^ 16 + 2 ^ 16 * (ns / 2 ^ 16) = ns) by (pose proof (Z.div_mod ns (2 ^ 16)); lia).
  assert (Hub : (2 ^ 31 <=? 2 ^ 16 * (ns / 2 ^ 16)) = false) by (pose proof (Z.mul_div_le ns (2 ^ 16)); lia).
  rewrite Hns, Hub.
  destruct hr.
  - change ((18 + 2) mod 2 ^ 16) with 20 in W1. rewrite W1. change (20 <? 18) with false. change (1 <=? (20 - 18) / 2) with true.
    cbv iota. rewrite (fread_at (words vs) (le16 1) rest 18 2) by (rewrite ?ZL; reflexivity).
    change (get16 (le16 1) 0) with 1. cbn [Z.eqb negb]. cbv iota. unfold fseek_set. change (20 <? 0) with false. cbv iota. cbn [f_data].
    replace (kf * 10) with (10 * kf) by lia. replace (ks * 100) with (100 * ks) by lia. rewrite zlen_app, ZL. reflexivity.
  - change ((18 + 0) mod 2 ^ 16) with 18 in W1. rewrite W1. change (18 <? 18) with false. change (1 <=? (18 - 18) / 2) with false.
    cbv iota. change (get16 [0; 0] 0) with 0. cbn [Z.eqb negb]. cbv iota. unfold fseek_set. change (18 <? 0) with false. cbv iota. cbn [f_data app].
    rewrite app_nil_r, ZL. replace (kf * 10) with (10 * kf) by lia. replace (ks * 100) with (100 * ks) by lia. reflexivity.
Qed.

Lemma data_read pre d rest p nch : p = zlen pre -> 1 <= zlen d <= nch * 625 -> zlen d < 2 ^ 16 ->
  let f := pre ++ bin_write_data d ++ rest in
  bin_read_data (mkFile f p) nch = (Some d, mkFile f (p + zlen (bin_write_data d))).
Proof.
  intros -> Hd H16. cbv zeta. unfold bin_read_data, bin_write_data. rewrite <- app_assoc.
  rewrite (fread_at pre (le16 (u16 (zlen d))) (d ++ rest) _ 2) by reflexivity.
  assert (E : get16 (le16 (u16 (zlen d))) 0 = zlen d).
  { change (le16 (u16 (zlen d))) with (words [u16 (zlen d)]). rewrite <- (app_nil_r (words _)).
    change 0 with (2 * 0). rewrite get16_words by (cbn; lia). change (znth _ _ _) with (u16 (zlen d)). unfold u16.
    rewrite Z.mod_mod by lia. apply Z.mod_small. lia. }
  rewrite E. unfold HR_MAX_FRAME_BYTES. replace (_ <? zlen d) with false by lia. replace (zlen d =? 0) with false by lia.
  rewrite app_assoc. rewrite (fread_at (pre ++ le16 (u16 (zlen d))) d rest) by (try reflexivity; rewrite zlen_app; reflexivity).
  rewrite zlen_app, <- !app_assoc. change (zlen (le16 (u16 (zlen d)))) with 2. rewrite Z.add_assoc. reflexivity.
Qed.

(** ** All the blocks *)
Fixpoint read_blocks (k : nat) (f : file) (nch : Z) : list (option (list Z)) :=
  match k with
  | O => []
  | S k => let '(o, f) := bin_read_data f nch in o :: read_blocks k f nch
  end.
Lemma blocks_read nch ds : Forall (fun d => 1 <= zlen d <= nch * 625 /\ zlen d < 2 ^ 16) ds -> forall pre,
  let f := pre ++ flat_map bin_write_data ds in
  read_blocks (length ds) (mkFile f (zlen pre)) nch = map Some ds /\
  fst (bin_read_data (mkFile f (zlen f)) nch) = None.
Proof.
  intros H. assert (E0 : forall f, fst (bin_read_data (mkFile f (zlen f)) nch) = None).
  { intros f. unfold bin_read_data, fread. cbn [f_data f_pos]. replace (_ <=? _) with false by lia. reflexivity. }
  induction H as [|d ds (H1 & H2) _ IH]; intros pre; cbv zeta; [split; [reflexivity|apply E0]|].
  split; [|apply E0]. cbn [flat_map length read_blocks map]. rewrite (data_read pre d _ _ nch eq_refl H1 H2).
  f_equal. specialize (IH (pre ++ bin_write_data d)). cbv zeta in IH. rewrite <- app_assoc, zlen_app in IH. apply IH.
Qed.


Lemma bytes_znth l : bytes l -> forall i, 0 <= znth l i 0 < 256.
Proof.
  intros H i. unfold znth. destruct (i <? 0); [lia|].
  destruct (nth_in_or_default (Z.to_nat i) l 0) as [Hi|E]; [|rewrite E; lia]. unfold bytes in H. rewrite Forall_forall in H. exact (H _ Hi).
Qed.
Lemma in_skipn {A} n : forall (l : list A) x, In x (skipn n l) -> In x l.
Proof. intros l x H. rewrite <- (firstn_skipn n l). apply in_or_app. right. exact H. Qed.
Lemma in_firstn {A} n : forall (l : list A) x, In x (firstn n l) -> In x l.
Proof. intros l x H. rewrite <- (firstn_skipn n l). apply in_or_app. left. exact H. Qed.
Lemma slice_bytes l p n : bytes l -> bytes (slice l p n).
Proof.
  unfold slice, bytes. rewrite !Forall_forall. intros H x Hx. apply H.
  eapply in_skipn. eapply in_firstn. exact Hx.
Qed.

Lemma data_bounded f nch d f' : bytes (f_data f) -> 0 <= f_pos f ->
  bin_read_data f nch = (Some d, f') -> 1 <= zlen d <= nch * 625.
Proof.
  intros Hb Hp. unfold bin_read_data, fread. destruct (f_pos f + 2 <=? zlen (f_data f)) eqn:E1; [|discriminate].
  cbn [f_pos f_data]. set (h := slice _ _ 2). pose proof (bytes_znth _ (slice_bytes _ (f_pos f) 2 Hb)) as Hh. fold h in Hh.
  pose proof (Hh 0). pose proof (Hh (0 + 1)). assert (Hn : 0 <= get16 h 0) by (unfold get16; lia).
  set (n := get16 h 0) in *. unfold HR_MAX_FRAME_BYTES. destruct (nch * 625 <? n) eqn:E2; [discriminate|].
  destruct (n =? 0) eqn:E3; [discriminate|]. destruct (f_pos f + 2 + n <=? zlen (f_data f)) eqn:E4; [|discriminate].
  intros HH. inversion HH. assert (Hl : zlen (slice (f_data f) (f_pos f + 2) n) = n).
  { unfold slice, zlen in *. rewrite firstn_length, skipn_length. lia. }
  lia.
Qed.

(** ** WAVE files *)
Lemma le32_words v : le32 v = words [v; v / 2 ^ 16].
Proof. unfold le32, words, le16. cbn [flat_map app]. rewrite Z.div_div by lia. reflexivity. Qed.
Lemma get32_words vs k : 0 <= k < zlen vs - 1 ->
  get32 (words vs) (2 * k) = znth vs k 0 mod 2 ^ 16 + 2 ^ 16 * (znth vs (k + 1) 0 mod 2 ^ 16).
Proof.
  intros H. unfold get32. replace (2 * k + 2) with (2 * (k + 1)) by lia. rewrite <- (app_nil_r (words vs)).
  rewrite !get16_words by lia. reflexivity.
Qed.

(** Chunks, and the layout of a file. *)
Definition chunk (id : Z) (payload : list Z) : list Z := le32 id ++ le32 (zlen payload) ++ payload.
Definition fmt_payload (tag : Z) (p : wave_params) (ext : list Z) : list Z :=
  le16 tag ++ le16 (v_nchannels p) ++ le32 (v_samplerate p) ++ le32 (v_samplerate p * v_nchannels p * v_samplesize p) ++
  le16 (v_nchannels p * v_samplesize p) ++ le16 (v_bitdepth p) ++ ext.
Definition wave_header (size tag : Z) (p : wave_params) (ext : list Z) (others : list (Z * list Z)) : list Z :=
  le32 ID_RIFF ++ le32 size ++ le32 ID_WAVE ++ chunk ID_FMT (fmt_payload tag p ext) ++
  flat_map (fun c => chunk (fst c) (snd c)) others ++
  le32 ID_DATA ++ le32 (v_nchannels p * v_nframes p * v_samplesize p).

Lemma chunk_zlen id payload : zlen (chunk id payload) = 8 + zlen payload.
Proof. unfold chunk. rewrite !zlen_app. change (zlen (le32 id)) with 4. change (zlen (le32 (zlen payload))) with 4. lia. Qed.

Lemma fread8 pre a b rest p : p = zlen pre ->
  fread (mkFile (pre ++ le32 a ++ le32 b ++ rest) p) 8 = (Some (le32 a ++ le32 b), mkFile (pre ++ le32 a ++ le32 b ++ rest) (p + 8)).
Proof. intros E. rewrite (app_assoc (le32 a)). apply fread_at; [exact E|reflexivity]. Qed.
Lemma get32_8 a b : get32 (le32 a ++ le32 b) 0 = a mod 2 ^ 32 /\ get32 (le32 a ++ le32 b) 4 = b mod 2 ^ 32.
Proof.
  split; [exact (get32_at [] a (le32 b))|].
  pose proof (get32_at (le32 a) b []) as H. rewrite app_nil_r in H. exact H.
Qed.

Definition other_ok (c : Z * list Z) : Prop := 0 <= fst c < 2 ^ 32 /\ fst c <> ID_DATA /\ zlen (snd c) < 2 ^ 32.
Lemma search_finds others size rest : Forall other_ok others -> 0 <= size < 2 ^ 32 -> forall fuel pre p,
  (length others < fuel)%nat -> p = zlen pre ->
  let o := flat_map (fun c => chunk (fst c) (snd c)) others in
  let data := pre ++ o ++ le32 ID_DATA ++ le32 size ++ rest in
  wave_search fuel (mkFile data p) = (Some size, mkFile data (p + zlen o + 8)).
Proof.
  intros H Hs. induction H as [|[id pl] others (H1 & H2 & H3) _ IH]; intros fuel pre p Hf ->; cbv zeta.
  - destruct fuel as [|fuel]; [inversion Hf|]. cbn [flat_map app wave_search]. rewrite fread8 by reflexivity.
    destruct (get32_8 ID_DATA size) as [-> ->]. rewrite (Z.mod_small size) by lia. change (zlen []) with 0. rewrite Z.add_0_r. reflexivity.
  - cbn [fst snd] in *. destruct fuel as [|fuel]; [inversion Hf|]. cbn [length] in Hf. cbn [flat_map wave_search]. cbn [fst snd].
    set (o := flat_map _ others). unfold chunk. rewrite <- !app_assoc. rewrite fread8 by reflexivity.
    destruct (get32_8 id (zlen pl)) as [-> ->]. pose proof (zlen_nonneg pl). rewrite !Z.mod_small by lia.
    replace (id =? ID_DATA) with false by lia. unfold fseek_cur, fseek_set. cbn [f_pos f_data].
    pose proof (zlen_nonneg pre). replace (_ <? 0) with false by lia.
    specialize (IH fuel (pre ++ chunk id pl) (zlen pre + 8 + zlen pl) ltac:(lia) ltac:(rewrite zlen_app, chunk_zlen; lia)). cbv zeta in IH.
    fold o in IH. unfold chunk in IH. rewrite <- !app_assoc in IH. rewrite IH. f_equal. f_equal. rewrite !zlen_app.
    change (zlen (le32 id)) with 4. change (zlen (le32 (zlen pl))) with 4. lia.
Qed.

Lemma others_len (others : list (Z * list Z)) : Z.of_nat (length others) <= zlen (flat_map (fun c => chunk (fst c) (snd c)) others).
Proof.
  induction others as [|c o IH]; [reflexivity|]. cbn [length flat_map]. rewrite zlen_app, chunk_zlen. pose proof (zlen_nonneg (snd c)). lia.
Qed.

Lemma wave_read size tag p ext others rest : tag = 1 \/ tag = 0xfffe -> zlen ext = 0 \/ zlen ext = 24 ->
  1 <= v_nchannels p -> 1 <= v_samplesize p -> v_nchannels p * v_samplesize p < 2 ^ 16 -> 0 <= v_bitdepth p < 2 ^ 16 ->
  1 <= v_samplerate p < 2 ^ 31 -> 0 <= v_nframes p < 2 ^ 31 -> v_nchannels p * v_nframes p * v_samplesize p < 2 ^ 32 -> Forall other_ok others ->
  let h := wave_header size tag p ext others in
  wave_read_header (fopen (h ++ rest)) = (Some p, mkFile (h ++ rest) (zlen h)).
Proof.
  intros Ht He Hc Hss Hfs Hbd Hr Hn Hds Ho. cbv zeta. destruct p as [bd ss rate ch nf]. cbn [v_bitdepth v_samplesize v_samplerate v_nchannels v_nframes] in *.
  unfold wave_header, fmt_payload. cbn [v_bitdepth v_samplesize v_samplerate v_nchannels v_nframes].
  set (o := flat_map _ others). set (ds := ch * nf * ss) in *. set (fs := ch * ss) in *. set (br := rate * ch * ss).
  assert (Ebr : br = rate * fs) by (unfold br, fs; ring).
  assert (Eds : ds = nf * fs) by (unfold ds, fs; ring).
  assert (Hfs1 : 1 <= fs) by (unfold fs; nia).
  assert (Hch : ch < 2 ^ 16) by (unfold fs in Hfs; nia).
  assert (Hdiv : fs / ch = ss) by (unfold fs; rewrite Z.mul_comm; apply Z.div_mul; lia).
  set (pay := le16 tag ++ _). assert (Zpay : zlen pay = 16 + zlen ext).
  { unfold pay. rewrite !zlen_app. change (zlen (le16 tag)) with 2. change (zlen (le16 ch)) with 2. change (zlen (le32 rate)) with 4.
    change (zlen (le32 br)) with 4. change (zlen (le16 fs)) with 2. change (zlen (le16 bd)) with 2. lia. }
  unfold chunk. set (sz := zlen pay) in *.
  set (v12 := [ID_RIFF; ID_RIFF / 2 ^ 16; size; size / 2 ^ 16; ID_WAVE; ID_WAVE / 2 ^ 16]).
  set (v24 := [ID_FMT; ID_FMT / 2 ^ 16; sz; sz / 2 ^ 16; tag; ch; rate; rate / 2 ^ 16; br; br / 2 ^ 16; fs; bd]).
  set (tl := le32 ID_DATA ++ le32 ds ++ rest).
  assert (Edata : (le32 ID_RIFF ++ le32 size ++ le32 ID_WAVE ++ (le32 ID_FMT ++ le32 sz ++ pay) ++ o ++ le32 ID_DATA ++ le32 ds) ++ rest
                  = words v12 ++ words v24 ++ ext ++ o ++ tl).
  { unfold tl, pay. rewrite !le32_words. unfold words, v12, v24. cbn [flat_map]. rewrite <- !app_assoc. reflexivity. }
  rewrite Edata.
  assert (Elen : zlen (le32 ID_RIFF ++ le32 size ++ le32 ID_WAVE ++ (le32 ID_FMT ++ le32 sz ++ pay) ++ o ++ le32 ID_DATA ++ le32 ds)
                 = 44 + zlen ext + zlen o).
  { rewrite !zlen_app. change (zlen (le32 ID_RIFF)) with 4. change (zlen (le32 size)) with 4. change (zlen (le32 ID_WAVE)) with 4.
    change (zlen (le32 ID_FMT)) with 4. change (zlen (le32 sz)) with 4. change (zlen (le32 ID_DATA)) with 4. change (zlen (le32 ds)) with 4.
    fold sz. lia. }
  rewrite Elen. clear Edata Elen.
  assert (Z12 : zlen (words v12) = 12) by (rewrite zlen_words; reflexivity).
  assert (Z24 : zlen (words v24) = 24) by (rewrite zlen_words; reflexivity).
  pose proof (get32_words v12 0 ltac:(cbn; lia)) as A0. pose proof (get32_words v12 4 ltac:(cbn; lia)) as A8.
  change (2 * 0) with 0 in A0. change (2 * 4) with 8 in A8.
  change (znth v12 0 0) with ID_RIFF in A0. change (znth v12 (0 + 1) 0) with (ID_RIFF / 2 ^ 16) in A0. rewrite u32_eq in A0.
  change (znth v12 4 0) with ID_WAVE in A8. change (znth v12 (4 + 1) 0) with (ID_WAVE / 2 ^ 16) in A8. rewrite u32_eq in A8.
  change (ID_RIFF mod 2 ^ 32) with ID_RIFF in A0. change (ID_WAVE mod 2 ^ 32) with ID_WAVE in A8.
  assert (GM : forall k, 0 <= k < 12 -> get16 (words v24) (2 * k) = znth v24 k 0 mod 2 ^ 16).
  { intros k Hk. rewrite <- (app_nil_r (words v24)). apply get16_words. exact Hk. }
  pose proof (get32_words v24 0 ltac:(cbn; lia)) as M0. pose proof (get32_words v24 2 ltac:(cbn; lia)) as M4.
  pose proof (GM 4 ltac:(lia)) as M8. pose proof (GM 5 ltac:(lia)) as M10. pose proof (get32_words v24 6 ltac:(cbn; lia)) as M12.
  pose proof (get32_words v24 8 ltac:(cbn; lia)) as M16. pose proof (GM 10 ltac:(lia)) as M20. pose proof (GM 11 ltac:(lia)) as M22. clear GM.
  change (2 * 0) with 0 in M0. change (2 * 2) with 4 in M4. change (2 * 4) with 8 in M8. change (2 * 5) with 10 in M10.
  change (2 * 6) with 12 in M12. change (2 * 8) with 16 in M16. change (2 * 10) with 20 in M20. change (2 * 11) with 22 in M22.
  change (znth v24 0 0) with ID_FMT in M0. change (znth v24 (0 + 1) 0) with (ID_FMT / 2 ^ 16) in M0. rewrite u32_eq in M0.
  change (znth v24 2 0) with sz in M4. change (znth v24 (2 + 1) 0) with (sz / 2 ^ 16) in M4. rewrite u32_eq in M4.
  change (znth v24 4 0) with tag in M8. change (znth v24 5 0) with ch in M10.
  change (znth v24 6 0) with rate in M12. change (znth v24 (6 + 1) 0) with (rate / 2 ^ 16) in M12. rewrite u32_eq in M12.
  change (znth v24 8 0) with br in M16. change (znth v24 (8 + 1) 0) with (br / 2 ^ 16) in M16. rewrite u32_eq in M16.
  change (znth v24 10 0) with fs in M20. change (znth v24 11 0) with bd in M22.
  change (ID_FMT mod 2 ^ 32) with ID_FMT in M0. rewrite Z.mod_small in M4, M8, M10, M12, M20, M22 by lia.
  pose proof (others_len others) as Hol. fold o in Hol.
  assert (Hds0 : 0 <= ds) by (rewrite Eds; nia).
  assert (Hq : ds / fs = nf) by (rewrite Eds; apply Z.div_mul; lia).
  assert (Epay : words v24 ++ ext = chunk ID_FMT pay).
  { unfold chunk. fold sz. unfold pay. rewrite !le32_words. unfold words, v24. cbn [flat_map]. rewrite <- !app_assoc. reflexivity. }
  assert (Hsz : zlen pay = sz) by reflexivity.
  clearbody v12 v24 sz pay. clearbody br fs ds.
  unfold wave_read_header, fopen. rewrite fread_0 by (rewrite Z12; reflexivity). rewrite A0, A8, !Z.eqb_refl. cbn [negb orb].
  rewrite (fread_at (words v12) (words v24) _ 12 24) by (rewrite ?Z12, ?Z24; reflexivity).
  rewrite M0, M4, M8, M10, M12, M16, M20, M22. rewrite Ebr.
  replace ((tag =? 1) || (tag =? 65534)) with true by lia. unfold u32 at 1. rewrite !Z.eqb_refl. replace (ch <=? 0) with false by lia.
  replace (rate <=? 0) with false by lia. replace (fs <=? 0) with false by lia. cbn [negb orb].
  unfold u32. rewrite (Z.mod_small (8 + sz)) by lia. unfold fseek_cur, fseek_set. cbn [f_pos f_data].
  replace (12 + 24 + (24 - (8 + sz)) <? 0) with false by lia.
  set (data := words v12 ++ _). cbn [f_data].
  assert (Es : wave_search (S (length data)) (mkFile data (12 + 24 + (24 - (8 + sz)))) = (Some ds, mkFile data (44 + zlen ext + zlen o))).
  { assert (Hlen : (length others < length data)%nat).
    { unfold data. rewrite !app_length. unfold zlen in Z12, Hol. fold o. lia. }
    destruct He as [He|He].
    - assert (Ee : ext = []) by (destruct ext; [reflexivity|rewrite zlen_cons in He; pose proof (zlen_nonneg ext); lia]).
      pose proof (search_finds others ds rest Ho ltac:(lia) (S (length data)) (words v12 ++ words v24) 36 ltac:(lia) ltac:(rewrite zlen_app; lia)) as S. cbv zeta in S.
      rewrite <- app_assoc in S. fold o tl in S. replace (12 + 24 + (24 - (8 + sz))) with 36 by lia.
      unfold data in *. rewrite Ee in *. cbn [app] in *. rewrite S. f_equal. f_equal. change (zlen []) with 0. lia.
    - assert (Ho2 : Forall other_ok ((ID_FMT, pay) :: others)).
      { constructor; [|exact Ho]. unfold other_ok. cbn [fst snd]. rewrite Hsz. split; [split; [discriminate|reflexivity]|]. split; [discriminate|lia]. }
      pose proof (search_finds _ ds rest Ho2 ltac:(lia) (S (length data)) (words v12) 12 ltac:(cbn [length]; lia) ltac:(lia)) as S. cbv zeta in S.
      cbn [flat_map fst snd] in S. fold o tl in S. rewrite <- Epay, <- !app_assoc in S. rewrite !app_assoc in S.
      replace (12 + 24 + (24 - (8 + sz))) with 12 by lia. unfold data in *. rewrite !app_assoc. rewrite !app_assoc in S. rewrite S. f_equal. f_equal.
      rewrite !zlen_app. lia. }
  rewrite Es, Hq. unfold i32. rewrite !Z.mod_small by lia. replace (nf + 2 ^ 31 - 2 ^ 31) with nf by lia. replace (rate + 2 ^ 31 - 2 ^ 31) with rate by lia. rewrite Hdiv. reflexivity.
Qed.

(** ** Counts of samples *)
Lemma turns_spec total fs k : 0 < fs -> 0 <= k -> (turns total fs <= k <-> total <= k * fs).
Proof.
  intros Hf Hk. unfold turns. split; intros H.
  - assert (H1 : (total + fs - 1) / fs <= k) by lia. pose proof (Z.mul_succ_div_gt (total + fs - 1) fs Hf). nia.
  - apply Z.max_lub; [exact Hk|]. assert ((total + fs - 1) / fs < k + 1); [|lia]. apply Z.div_lt_upper_bound; nia.
Qed.
Lemma turns_nonneg total fs : 0 <= turns total fs.
Proof. unfold turns. lia. Qed.

Lemma written_tail ps d fs : 0 < fs -> forall k i, 0 < i ->
  Z.of_nat k = turns (ps + d) fs - i -> written_from ps d fs k i = Z.max 0 (ps + d - i * fs).
Proof.
  intros Hf. induction k as [|k IH]; intros i Hi Hk; cbn [written_from].
  - assert (ps + d <= i * fs) by (apply (turns_spec (ps + d) fs i Hf ltac:(lia)); lia). lia.
  - rewrite (IH (i + 1)) by lia. unfold write_part. cbn [snd]. replace (0 <? i) with true by lia.
    assert (~ ps + d <= i * fs) by (intros H; apply (turns_spec (ps + d) fs i Hf ltac:(lia)) in H; lia). nia.
Qed.
Lemma written_eq ps d fs : 0 <= ps -> 0 < d <= fs ->
  written ps d fs = if fs <=? ps + d then ps else Z.min (fs - d) (ps + d).
Proof.
  intros Hp Hd. unfold written.
  assert (H1 : 1 <= turns (ps + d) fs).
  { assert (~ turns (ps + d) fs <= 0); [|lia]. intros H. apply turns_spec in H; lia. }
  replace (Z.to_nat (turns (ps + d) fs)) with (S (Z.to_nat (turns (ps + d) fs - 1))) by lia.
  cbn [written_from]. rewrite written_tail by lia. unfold write_part. change (0 <? 0) with false. cbv iota. cbn [snd].
  replace (ps + d - 0 * fs) with (ps + d) by lia. destruct (fs <=? ps + d) eqn:E; lia.
Qed.
Lemma write_part_in ps d fs i : 0 <= ps -> 0 < d <= fs -> 0 <= i < turns (ps + d) fs ->
  let '(off, n) := write_part ps d fs i in 0 <= off /\ 0 <= n /\ off + n <= fs.
Proof.
  intros Hp Hd Hi. unfold write_part.
  assert (~ ps + d <= i * fs) by (intros H; apply (turns_spec (ps + d) fs i ltac:(lia) ltac:(lia)) in H; lia).
  destruct (0 <? i) eqn:E; [nia|]. assert (i = 0) as -> by lia. lia.
Qed.

Lemma turns_resampled n d fs d' fs' from to : 0 <= n -> 0 < from -> 0 < to -> 0 < fs -> 0 < fs' -> 0 <= d ->
  d' * from = d * to -> fs' * from = fs * to ->
  turns (resampled n from to + d') fs' <= turns (n + d) fs.
Proof.
  intros Hn Hf Ht Hfs Hfs' Hd Ed Efs. apply turns_spec; [lia|apply turns_nonneg|].
  pose proof (proj1 (turns_spec (n + d) fs (turns (n + d) fs) Hfs (turns_nonneg _ _)) (Z.le_refl _)) as H.
  set (T := turns (n + d) fs) in *. unfold resampled.
  pose proof (Z.mul_div_le (n * to) from Hf). apply (Z.mul_le_mono_pos_r _ _ from Hf). nia.
Qed.
