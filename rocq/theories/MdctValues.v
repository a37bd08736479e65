(** * Transform: the results do not depend on the previous content of the buffers
    On any numbers. The values after each stage of the FFT are a function of its input. *)
From Coq Require Import ZArith List Bool Lia ZifyBool.
From Verif Require Import Base BaseProofs ConfigModel MdctModel MdctProofs MdctFft MdctStream.
Import ListNotations.
Local Open Scope Z_scope.

Lemma div_pos_eq i L k : 0 <= k < L -> (i * L + k) / L = i.
Proof. intros H. symmetry. apply (Z.div_unique _ _ _ k); lia. Qed.
Lemma mod_pos_eq i L k : 0 <= k < L -> (i * L + k) mod L = k.
Proof. intros H. symmetry. apply (Z.mod_unique _ _ i); lia. Qed.

Section Values.
Context {F : Type} (f0 : F) (add sub mul : F -> F -> F) (opp : F -> F).
Notation cat := (cat f0).
Notation at_ := (at_ f0).
Notation d1 := (d1 f0).
Notation d2 := (d2 f0).

Section Fft.
Variables (T : @fft_tables F) (a b : Z).
Let P := fft_size a b.

(** The complex value [q] after the stages of product [L], for the input [X]. *)
Fixpoint fft_val (fuel : nat) (L : Z) (X : Z -> @cpx F) (q : Z) : @cpx F :=
  let first := let n := P / 5 in let i := q / 5 in
    fft5_out add sub mul (ft_5 T) (X i) (X (i + n)) (X (i + 2 * n)) (X (i + 3 * n)) (X (i + 4 * n)) (q mod 5) in
  match fuel with
  | O => first
  | Datatypes.S fuel =>
      if L =? 5 then first
      else if L mod 2 =? 0 then
        let M := L / 2 in let n := P / L in let i := q / L in let r := (q mod L) / M in let k := q mod M in
        let tw := match rdt (ft_bf2 T) (Z.log2 (M / (5 * 3 ^ a))) with
          | Some row => match rdt row a with Some tw => t_t2 tw | None => [] end | None => [] end in
        bf2_out add sub mul (fft_val fuel M X (i * M + k)) (fft_val fuel M X ((i + n) * M + k)) (znth tw k d1) r
      else
        let M := L / 3 in let n := P / L in let i := q / L in let r := (q mod L) / M in let k := q mod M in
        let tw := match rdt (ft_bf3 T) (if M =? 5 then 0 else 1) with Some tw => t_t3 tw | None => [] end in
        bf3_out add sub mul (fft_val fuel M X (i * M + k)) (fft_val fuel M X ((i + n) * M + k)) (fft_val fuel M X ((i + 2 * n) * M + k))
          (znth tw (r * M + k) d2)
  end.

Hypothesis Ha : 0 <= a <= 2.
Hypothesis Hb : 0 <= b <= 5.
Hypothesis Sh : shape_fft T a b.

Lemma fft_values y0 y1 : 2 * P <= zlen y0 -> 2 * P <= zlen y1 ->
  exists is1 cur other, fft f0 add sub mul T P y0 y1 = Some (is1, (cur, other)) /\
    (forall q, 0 <= q < P -> cat cur q = fft_val (Z.to_nat P) P (cat y0) q) /\
    zlen (if is1 : bool then cur else other) = zlen y1 /\ zlen (if is1 then other else cur) = zlen y0.
Proof.
  intros L0 L1.
  assert (P3 : forall k, 0 <= k -> 0 < 3 ^ k) by (clear; intros; apply Z.pow_pos_nonneg; [reflexivity|assumption]).
  assert (P2 : forall k, 0 <= k -> 0 < 2 ^ k) by (clear; intros; apply Z.pow_pos_nonneg; [reflexivity|assumption]).
  assert (EP : P = 5 * (3 ^ a * 2 ^ b)) by (unfold P, fft_size; ring).
  pose proof (P3 a ltac:(lia)) as Pa. pose proof (P2 b ltac:(lia)) as Pb.
  assert (Pab : 0 < 3 ^ a * 2 ^ b) by nia.
  destruct (fft_stages f0 add sub mul T a b (fun n L y => forall f q, L <= Z.of_nat f -> 0 <= q < P -> cat y q = fft_val f L (cat y0) q) y0 y1
    Ha Hb Sh L0 L1) as (is1 & cur & other & E & V & A & B).
  - intros y' n -> V f q Hf Hq.
    assert (H : cat y' q = let n := P / 5 in let i := q / 5 in
      fft5_out add sub mul (ft_5 T) (cat y0 i) (cat y0 (i + n)) (cat y0 (i + 2 * n)) (cat y0 (i + 3 * n)) (cat y0 (i + 4 * n)) (q mod 5)).
    { cbv zeta. replace (P / 5) with (3 ^ a * 2 ^ b) by (rewrite EP, (Z.mul_comm 5); symmetry; apply Z.div_mul; discriminate).
      rewrite <- V; [f_equal; apply Z.div_mod; lia| |apply Z.mod_pos_bound; lia].
      split; [apply Z.div_pos; lia|apply Z.div_lt_upper_bound; lia]. }
    destruct f as [|f]; cbn [fft_val]; exact H.
  - intros j tw n L c c' Hj Et EL Hn En Sc V f q Hf Hq. fold P in En.
    assert (HL : 0 < L) by (pose proof (P3 j ltac:(lia)); lia).
    destruct f as [|f]; [lia|]. cbn [fft_val].
    replace (3 * L =? 5) with false by lia.
    assert (Cj : j = 0 \/ j = 1) by lia.
    assert (Eo : (3 * L) mod 2 = 1) by (destruct Cj as [->| ->]; rewrite EL; reflexivity).
    rewrite Eo. cbn [Z.eqb].
    assert (EM : 3 * L / 3 = L) by (rewrite Z.mul_comm; apply Z.div_mul; lia).
    assert (EN : P / (3 * L) = n) by (rewrite <- En; apply Z.div_mul; lia). rewrite EM, EN.
    assert (Ei : (if L =? 5 then 0 else 1) = j) by (destruct Cj as [->| ->]; rewrite EL; reflexivity).
    rewrite Ei, Et. cbv zeta.
    pose proof (Z.div_mod q (3 * L) ltac:(lia)) as D1. pose proof (Z.mod_pos_bound q (3 * L) ltac:(lia)) as D2.
    set (i := q / (3 * L)) in *. set (m := q mod (3 * L)) in *.
    pose proof (Z.div_mod m L ltac:(lia)) as D3. pose proof (Z.mod_pos_bound m L ltac:(lia)) as D4.
    assert (Ek : q mod L = m mod L).
    { symmetry. apply (Z.mod_unique _ _ (i * 3 + m / L)); lia. }
    rewrite Ek. set (r := m / L) in *. set (k := m mod L) in *.
    assert (Hi : 0 <= i < n) by (split; [apply Z.div_pos; lia|apply Z.div_lt_upper_bound; lia]).
    assert (Hr : 0 <= r < 3) by (split; [apply Z.div_pos; lia|apply Z.div_lt_upper_bound; lia]).
    assert (Hc : forall i', 0 <= i' < 3 * n -> cat c (i' * L + k) = fft_val f L (cat y0) (i' * L + k)).
    { intros i' Hi'. apply Sc; [lia|nia]. }
    rewrite <- !Hc by lia. rewrite <- V by lia. f_equal. lia.
  - intros j row tw n L c c' Hj Er Et EL Hn En Sc V f q Hf Hq. fold P in En.
    pose proof (P2 j ltac:(lia)) as Pj.
    assert (HL : 0 < L) by nia.
    destruct f as [|f]; [lia|]. cbn [fft_val].
    replace (2 * L =? 5) with false by lia.
    assert (Eo : (2 * L) mod 2 = 0) by (rewrite Z.mul_comm; apply Z.mod_mul; lia).
    rewrite Eo. cbn [Z.eqb].
    assert (EM : 2 * L / 2 = L) by (rewrite Z.mul_comm; apply Z.div_mul; lia).
    assert (EN : P / (2 * L) = n) by (rewrite <- En; apply Z.div_mul; lia). rewrite EM, EN.
    assert (Ei : Z.log2 (L / (5 * 3 ^ a)) = j).
    { rewrite EL, (Z.mul_comm (5 * 3 ^ a)), Z.div_mul by lia. apply Z.log2_pow2. lia. }
    rewrite Ei, Er, Et. cbv zeta.
    pose proof (Z.div_mod q (2 * L) ltac:(lia)) as D1. pose proof (Z.mod_pos_bound q (2 * L) ltac:(lia)) as D2.
    set (i := q / (2 * L)) in *. set (m := q mod (2 * L)) in *.
    pose proof (Z.div_mod m L ltac:(lia)) as D3. pose proof (Z.mod_pos_bound m L ltac:(lia)) as D4.
    assert (Ek : q mod L = m mod L).
    { symmetry. apply (Z.mod_unique _ _ (i * 2 + m / L)); lia. }
    rewrite Ek. set (r := m / L) in *. set (k := m mod L) in *.
    assert (Hi : 0 <= i < n) by (split; [apply Z.div_pos; lia|apply Z.div_lt_upper_bound; lia]).
    assert (Hr : 0 <= r < 2) by (split; [apply Z.div_pos; lia|apply Z.div_lt_upper_bound; lia]).
    assert (Hc : forall i', 0 <= i' < 2 * n -> cat c (i' * L + k) = fft_val f L (cat y0) (i' * L + k)).
    { intros i' Hi'. apply Sc; [lia|nia]. }
    rewrite <- !Hc by lia. rewrite <- V by lia. f_equal. lia.
  - exists is1, cur, other. split; [exact E|]. split; [|split; assumption]. intros q Hq. apply V; lia.
Qed.

(** Only the values of the input that are in range matter. *)
Lemma fft_val_ext X Y : (forall q, 0 <= q < P -> X q = Y q) ->
  forall f L n q, L <= Z.of_nat f -> 0 < n -> n * L = P -> 0 <= q < P -> (exists i j, 0 <= i <= a /\ 0 <= j /\ (0 < j -> i = a) /\ L = 5 * 3 ^ i * 2 ^ j) ->
  fft_val f L X q = fft_val f L Y q.
Proof.
  intros H.
  assert (P3 : forall k, 0 <= k -> 0 < 3 ^ k) by (clear; intros; apply Z.pow_pos_nonneg; [reflexivity|assumption]).
  assert (P2 : forall k, 0 <= k -> 0 < 2 ^ k) by (clear; intros; apply Z.pow_pos_nonneg; [reflexivity|assumption]).
  assert (EP : P = 5 * (3 ^ a * 2 ^ b)) by (unfold P, fft_size; ring).
  pose proof (P3 a ltac:(lia)) as Pa. pose proof (P2 b ltac:(lia)) as Pb.
  assert (E5 : P / 5 = 3 ^ a * 2 ^ b) by (rewrite EP, (Z.mul_comm 5); apply Z.div_mul; discriminate).
  assert (B : forall q, 0 <= q < P -> 0 <= q / 5 < P / 5).
  { intros q Hq. rewrite E5. split; [apply Z.div_pos; lia|apply Z.div_lt_upper_bound; lia]. }
  assert (First : forall q, 0 <= q < P -> let n := P / 5 in let i := q / 5 in
      fft5_out add sub mul (ft_5 T) (X i) (X (i + n)) (X (i + 2 * n)) (X (i + 3 * n)) (X (i + 4 * n)) (q mod 5) =
      fft5_out add sub mul (ft_5 T) (Y i) (Y (i + n)) (Y (i + 2 * n)) (Y (i + 3 * n)) (Y (i + 4 * n)) (q mod 5)).
  { intros q Hq. cbv zeta. specialize (B q Hq). rewrite !H by lia. reflexivity. }
  induction f as [|f IH]; intros L n q Hf Hn En Hq (i & j & Hi & Hj & Hij & EL); [cbn [fft_val]; apply First; exact Hq|].
  cbn [fft_val]. destruct (L =? 5) eqn:C5; [apply First; exact Hq|].
  pose proof (P3 i ltac:(lia)) as Pi. pose proof (P2 j ltac:(lia)) as Pj.
  destruct (Z.eq_dec j 0) as [Ej|Ej].
  - subst j. change (2 ^ 0) with 1 in EL. rewrite Z.mul_1_r in EL.
    assert (Ci : i = 1 \/ i = 2) by (destruct (Z.eq_dec i 0) as [->|]; [change (3 ^ 0) with 1 in EL; lia|lia]).
    assert (Eo : L mod 2 = 1) by (destruct Ci as [->| ->]; rewrite EL; reflexivity). rewrite Eo. cbn [Z.eqb]. cbv zeta.
    set (M := L / 3). assert (EM : L = 3 * M) by (unfold M; destruct Ci as [->| ->]; rewrite EL; reflexivity).
    assert (EN : P / L = n) by (rewrite <- En; apply Z.div_mul; lia). rewrite EN.
    assert (HM : exists i j, 0 <= i <= a /\ 0 <= j /\ (0 < j -> i = a) /\ M = 5 * 3 ^ i * 2 ^ j).
    { exists (i - 1), 0. split; [lia|]. split; [lia|]. split; [lia|]. unfold M. destruct Ci as [->| ->]; rewrite EL; reflexivity. }
    assert (HM0 : 0 < M) by lia. pose proof (Z.mod_pos_bound q M HM0) as Hk. set (k := q mod M) in *.
    assert (Hi' : 0 <= q / L < n) by (split; [apply Z.div_pos; lia|apply Z.div_lt_upper_bound; lia]).
    assert (Rw : forall i', 0 <= i' < 3 * n -> fft_val f M X (i' * M + k) = fft_val f M Y (i' * M + k)).
    { assert (EnM : 3 * n * M = P) by (rewrite <- En; clear - EM; lia).
      intros i' Hi2. apply (IH M (3 * n)); [lia|lia|exact EnM| |exact HM]. clear - Hi2 Hk EnM. nia. }
    rewrite !Rw by lia. reflexivity.
  - assert (Ei : i = a) by lia. subst i.
    assert (Ep : 2 ^ j = 2 * 2 ^ (j - 1)) by (rewrite <- (Z.pow_succ_r 2 (j - 1)) by lia; f_equal; lia).
    assert (EM0 : L = 2 * (5 * 3 ^ a * 2 ^ (j - 1))) by (rewrite EL, Ep; ring).
    assert (Eo : L mod 2 = 0) by (rewrite EM0, Z.mul_comm; apply Z.mod_mul; lia). rewrite Eo. cbn [Z.eqb]. cbv zeta.
    set (M := L / 2). assert (EM : M = 5 * 3 ^ a * 2 ^ (j - 1)) by (unfold M; rewrite EM0, Z.mul_comm; apply Z.div_mul; lia).
    assert (EN : P / L = n) by (rewrite <- En; apply Z.div_mul; lia). rewrite EN.
    assert (HM : exists i j, 0 <= i <= a /\ 0 <= j /\ (0 < j -> i = a) /\ M = 5 * 3 ^ i * 2 ^ j) by (exists a, (j - 1); repeat split; lia).
    assert (HM0 : 0 < M) by (rewrite EM; pose proof (P2 (j - 1) ltac:(lia)); nia). pose proof (Z.mod_pos_bound q M HM0) as Hk. set (k := q mod M) in *.
    assert (Hi' : 0 <= q / L < n) by (split; [apply Z.div_pos; lia|apply Z.div_lt_upper_bound; lia]).
    assert (Rw : forall i', 0 <= i' < 2 * n -> fft_val f M X (i' * M + k) = fft_val f M Y (i' * M + k)).
    { assert (EnM : 2 * n * M = P) by (rewrite <- En; clear - EM0 EM; lia).
      intros i' Hi2. apply (IH M (2 * n)); [lia|lia|exact EnM| |exact HM]. clear - Hi2 Hk EnM. nia. }
    rewrite !Rw by lia. reflexivity.
Qed.
End Fft.

Lemma list_ext (l l' : list F) : zlen l = zlen l' -> (forall q, 0 <= q < zlen l -> at_ l q = at_ l' q) -> l = l'.
Proof.
  intros L H. apply (nth_ext l l' f0 f0); [unfold zlen in L; lia|]. intros n Hn.
  specialize (H (Z.of_nat n) ltac:(unfold zlen; lia)). unfold MdctModel.at_ in H. rewrite Nat2Z.id in H. exact H.
Qed.

(** ** The inverse transform *)
Section Inverse.
Variables (T : @fft_tables F) (rot : @mdct_rot F) (win : list F) (dt sr ns_src : Z) (scale : F).
Let ns := c_ns dt sr. Let P := ns / 2.
Hypothesis Hc : has_transform dt sr.
Hypothesis Hs : shapes T rot win dt sr.

(** The values given to the window, for the coefficients [X]. *)
Definition ipre (X : Z -> F) (j : Z) : @cpx F := ipre_val add sub mul opp (P / 2) X (znth (r_w rot) j d1) j.
Definition inv_u (X : Z -> F) (q : Z) : F :=
  let p := if q mod 2 =? 0 then q / 2 else (2 * P - 1 - q) / 2 in
  let z := fft_val T (exp3 P) (exp2 P) (Z.to_nat P) P (ipre X) p in let w := znth (r_w rot) p d1 in
  let v := if q mod 2 =? 0 then sub (mul (fst z) (snd w)) (mul (snd z) (fst w)) else add (mul (fst z) (fst w)) (mul (snd z) (snd w)) in
  if ns =? ns_src then v else mul v scale.

Lemma inverse_values src d y buf :
  ns <= zlen (inp src y) -> c_nd dt sr <= zlen d -> ns <= zlen y -> ns <= zlen buf ->
  exists d' y' u, mdct_inverse f0 add sub mul opp T rot ns (c_nd dt sr) win ns_src scale src d y buf = Some (d', y') /\
    zlen d' = zlen d /\ zlen y' = zlen y /\
    (forall q, 0 <= q < ns -> at_ u q = inv_u (at_ (inp src y)) q) /\
    (forall q, 0 <= q < c_nd dt sr -> at_ d' q = iwin_d f0 mul P (c_nd dt sr) win u q) /\
    (forall q, 0 <= q < ns -> at_ y' q = iwin_y f0 add sub mul P (c_nd dt sr) win u d q).
Proof.
  intros Lx Ld Ly Lb. destruct (cfg_ok dt sr Hc) as (Q & HQ & Ha & Hb & EP & Ens & Ef & Hnd & Hu & _).
  unfold shapes in Hs. cbv zeta in Hs. fold ns in EP, Ens, Ha, Hb, Ef, Hu, Hnd, Hs. fold P in EP, Ha, Hb, Ef, Hs. destruct Hs as (S1 & S2 & S3 & S4).
  assert (Hb5 : 0 <= exp2 P <= 5) by (destruct (exp3 P =? 2); lia). clear Hb.
  unfold mdct_inverse. fold P.
  destruct (imdct_pre_ok f0 add sub mul opp rot src y Q) as (x1 & E1 & L1 & V1); try lia. rewrite E1. cbn [bind].
  assert (EPs : P = fft_size (exp3 P) (exp2 P)) by lia.
  destruct (fft_values T (exp3 P) (exp2 P) ltac:(lia) ltac:(lia) S1 x1 buf ltac:(lia) ltac:(lia)) as (is1 & cur & other & E3 & V3 & L3a & L3b).
  rewrite <- EPs in E3, V3. rewrite E3. cbn [bind].
  set (X := at_ (inp src y)) in *.
  assert (Vz : forall p, 0 <= p < P -> cat cur p = fft_val T (exp3 P) (exp2 P) (Z.to_nat P) P (ipre X) p).
  { intros p Hp. rewrite V3 by exact Hp.
    apply (fft_val_ext T (exp3 P) (exp2 P) ltac:(lia) ltac:(lia)) with (n := 1); rewrite <- ?EPs; try lia.
    - intros q Hq. rewrite V1 by lia. unfold ipre. f_equal. rewrite EP, Z.mul_comm. symmetry. apply Z.div_mul. lia.
    - exists (exp3 P), (exp2 P). unfold fft_size in EPs. repeat split; lia. }
  assert (PO : exists h, (if is1 then imdct_post_fft f0 add sub mul rot None cur else imdct_post_fft f0 add sub mul rot (Some cur) other) = Some h /\ zlen h = zlen buf /\
    forall p, 0 <= p < P -> let z := cat cur p in let w := znth (r_w rot) p d1 in
      at_ h (2 * p) = sub (mul (fst z) (snd w)) (mul (snd z) (fst w)) /\
      at_ h (2 * P - 1 - 2 * p) = add (mul (fst z) (fst w)) (mul (snd z) (snd w))).
  { rewrite EP. destruct is1.
    - destruct (imdct_post_ok f0 add sub mul rot None cur Q) as (y' & E & L & V); try (cbn [inp]; lia). exists y'. split; [exact E|]. split; [lia|exact V].
    - destruct (imdct_post_ok f0 add sub mul rot (Some cur) other Q) as (y' & E & L & V); try (cbn [inp]; lia). exists y'. split; [exact E|]. split; [lia|exact V]. }
  destruct PO as (h & E4 & L4 & V4). rewrite E4. cbn [bind].
  set (val := fun q => let p := if q mod 2 =? 0 then q / 2 else (2 * P - 1 - q) / 2 in
    let z := fft_val T (exp3 P) (exp2 P) (Z.to_nat P) P (ipre X) p in let w := znth (r_w rot) p d1 in
    if q mod 2 =? 0 then sub (mul (fst z) (snd w)) (mul (snd z) (fst w)) else add (mul (fst z) (fst w)) (mul (snd z) (snd w))).
  assert (Vh : forall q, 0 <= q < ns -> at_ h q = val q).
  { intros q Hq. unfold val. pose proof (Z.div_mod q 2 ltac:(lia)) as D. pose proof (Z.mod_pos_bound q 2 ltac:(lia)) as B.
    destruct (q mod 2 =? 0) eqn:C.
    - destruct (V4 (q / 2) ltac:(lia)) as (V & _). rewrite Vz in V by lia. rewrite <- V. f_equal. lia.
    - assert (Eq : (2 * P - 1 - q) / 2 = P - 1 - q / 2) by (symmetry; apply (Z.div_unique _ _ _ 0); lia). rewrite Eq.
      destruct (V4 (P - 1 - q / 2) ltac:(lia)) as (_ & V). rewrite Vz in V by lia. rewrite <- V. f_equal. lia. }
  assert (RS : exists h2, (if ns =? ns_src then Some h else rescale f0 mul h ns scale) = Some h2 /\ zlen h2 = zlen buf /\
    forall q, 0 <= q < ns -> at_ h2 q = inv_u X q).
  { unfold inv_u. destruct (ns =? ns_src); [exists h; split; [reflexivity|]; split; [exact L4|exact Vh]|].
    destruct (rescale_ok f0 mul h ns scale Q ltac:(lia) ltac:(lia) ltac:(lia)) as (h2 & E5 & L5 & V5). exists h2. split; [exact E5|]. split; [lia|].
    intros q Hq. rewrite V5 by lia. replace (q <? ns) with true by lia. rewrite Vh by exact Hq. reflexivity. }
  destruct RS as (h2 & E5 & L5 & V5). rewrite E5. cbn [bind].
  destruct (imdct_window_ok f0 add sub mul P (c_nd dt sr) win h2 d (if is1 then other else cur)) as (d' & y' & E6 & Ld' & Ly' & Vd & Vy); try lia.
  { destruct Hu as (u & Hu). exists u. lia. } { exists Q. exact EP. }
  exists d', y', h2. replace ns with (2 * P) at 1 by lia. split; [exact E6|]. split; [exact Ld'|]. split; [lia|]. split; [exact V5|]. split; [exact Vd|].
  intros q Hq. apply Vy. lia.
Qed.

(** The result depends only on the coefficients in range and on the delayed samples. *)
Lemma inverse_indep src src' d y y' buf buf' :
  ns <= zlen (inp src y) -> ns <= zlen (inp src' y') -> (forall q, 0 <= q < ns -> at_ (inp src y) q = at_ (inp src' y') q) ->
  zlen d = c_nd dt sr -> zlen y = ns -> zlen y' = ns -> ns <= zlen buf -> ns <= zlen buf' ->
  mdct_inverse f0 add sub mul opp T rot ns (c_nd dt sr) win ns_src scale src d y buf =
  mdct_inverse f0 add sub mul opp T rot ns (c_nd dt sr) win ns_src scale src' d y' buf'.
Proof.
  intros Lx Lx' Ex Ld Ly Ly' Lb Lb'.
  destruct (inverse_values src d y buf) as (d1 & y1 & u & E & A1 & A2 & Vu & Vd & Vy); try lia.
  destruct (inverse_values src' d y' buf') as (d2 & y2 & u' & E' & B1 & B2 & Vu' & Vd' & Vy'); try lia.
  destruct (cfg_ok dt sr Hc) as (Q & HQ & Ha & Hb & EP & Ens & Ef & Hnd & Hu & _).
  fold ns in EP, Ens, Ha, Hb, Ef, Hu, Hnd. fold P in EP, Ha, Hb, Ef.
  assert (Hb5 : 0 <= exp2 P <= 5) by (destruct (exp3 P =? 2); lia).
  assert (Eu : forall q, 0 <= q < ns -> at_ u q = at_ u' q).
  { intros q Hq. rewrite Vu, Vu' by exact Hq. unfold inv_u. cbv zeta.
    set (p := if q mod 2 =? 0 then q / 2 else (2 * P - 1 - q) / 2).
    assert (Hp : 0 <= p < P).
    { unfold p. pose proof (Z.div_mod q 2 ltac:(lia)) as D. pose proof (Z.mod_pos_bound q 2 ltac:(lia)) as B.
      destruct (q mod 2 =? 0) eqn:C; [lia|].
      assert (Eq : (2 * P - 1 - q) / 2 = P - 1 - q / 2) by (symmetry; apply (Z.div_unique _ _ _ 0); lia). lia. }
    assert (EZ : fft_val T (exp3 P) (exp2 P) (Z.to_nat P) P (ipre (at_ (inp src y))) p = fft_val T (exp3 P) (exp2 P) (Z.to_nat P) P (ipre (at_ (inp src' y'))) p).
    { assert (EPs : P = fft_size (exp3 P) (exp2 P)) by lia.
      apply (fft_val_ext T (exp3 P) (exp2 P) ltac:(lia) ltac:(lia)) with (n := 1); rewrite <- ?EPs; try lia.
      - intros k Hk. unfold ipre, ipre_val, even_odd. replace (2 * (P / 2)) with P by (rewrite EP at 2; rewrite (Z.mul_comm 2 Q), Z.div_mul; lia).
        rewrite !Ex by lia. reflexivity.
      - exists (exp3 P), (exp2 P). unfold fft_size in EPs. repeat split; lia. }
    rewrite EZ. reflexivity. }
  rewrite E, E'. f_equal. f_equal; apply list_ext; try lia; intros q Hq.
  - rewrite Vd, Vd' by lia. unfold iwin_d. rewrite Eu; [reflexivity|]. destruct (q <? _) eqn:C; lia.
  - rewrite Vy, Vy' by lia. unfold iwin_y. destruct (q <? _) eqn:C; [rewrite Eu by lia; reflexivity|]. rewrite Eu by lia. reflexivity.
Qed.
End Inverse.
End Values.
