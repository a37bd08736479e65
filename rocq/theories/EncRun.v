(** * The encoder: the frames that are written *)
From Coq Require Import Reals ZArith List Bool Lia ZifyBool.
From Flocq Require Import Core.Core IEEE754.BinarySingleNaN.
From Verif Require Import Base BaseProofs ConfigModel ConfigSpec ConfigProofs FloatModel ResidualModel ResidualSpec SideModel SideSpec SpecModel SpecSpec FrameModel FrameSpec FloatOps F32Model.
From Verif Require Import BudgetModel BudgetSpec LtpfModel LtpfProofs TnsProofs P_Silence SpecEncModel SpecEncProofs P_SpecEnc EncModel EncSpec EncProofs.
Import ListNotations.
Local Open Scope Z_scope.

Section Frames.
Context (nan : Z) (lit : Z -> f32) (junk : f32) (junkd : ltpf_data).

Lemma coded_zero hr : coded_f32 hr 0.
Proof. split; [reflexivity|]. destruct hr; reflexivity. Qed.

Lemma write_frame_ok hr dt_us srp_hz c n nbytes h sp out : e_geometry hr dt_us srp_hz c n -> hr = false -> 1 <= nbytes <= 400 ->
  side_codable (e_dt c) (e_sr c) nbytes h -> zlen (h_x h) = c_ns (e_dt c) (e_srp c) -> in_reach (e_dt c) (e_sr c) nbytes h -> spec_ok sp ->
  exists f sp', write_frame nan c nbytes h sp out = Some (f, encode out (e_dt c) (e_sr c) f, sp') /\ spec_ok sp' /\ frame_of (e_dt c) (e_sr c) nbytes h f.
Proof.
  intros (S1 & S2 & S3 & G1 & G2 & G3 & G4 & G5 & G6 & G7 & G8 & G9 & _) -> Hn (C1 & C2 & C3 & C4) Lx (R1 & R2) Hsp.
  unfold write_frame. cbv zeta. set (dt := e_dt c) in *. set (sr := e_sr c) in *. set (srp := e_srp c) in *. clearbody dt sr srp.
  assert (Hd : 0 <= dt <= 3) by (destruct G2; lia). assert (Hs : 0 <= sr < 5) by (unfold is_hr, SRATE_48K_HR in G9; lia).
  assert (Er : rdn (h_x h) 0 (c_ne dt sr) = Some (firstn (Z.to_nat (c_ne dt sr)) (h_x h))).
  { unfold rdn. destruct (_ && _) eqn:E; [reflexivity|lia]. }
  rewrite Er. cbn [bind]. set (x := firstn _ (h_x h)) in *.
  assert (Lx0 : zlen x = c_ne dt sr) by (unfold x, zlen in *; rewrite firstn_length; lia).
  destruct (C45_spectrum nan dt sr (h_bw h) nbytes (h_pitch h) (h_tns h) sp x Hd Hs C1 Hn C3 R2 Hsp Lx0 R1)
    as (side & nf & us & sp' & -> & Q1 & Q2 & Q3 & Q4 & Q5 & Q6 & Q7 & (m & bits & Q8 & Q9 & Q10) & Hsp'). cbn [bind].
  eexists _, sp'. split; [reflexivity|]. split; [exact Hsp'|]. unfold frame_of. cbn [f_bw f_tns f_pitch f_sns FrameModel.f_ltpf f_side f_x].
  repeat (split; [reflexivity|]). split.
  - assert (Lu : zlen (firstn (Z.to_nat (q_nq side)) us) = q_nq side) by (unfold zlen in *; rewrite firstn_length; lia).
    assert (Ev : q_nq side mod 2 = 0) by (apply Z.even_spec in Q2; destruct Q2 as (k & ->); rewrite Z.mul_comm; apply Z_mod_mult).
    destruct (Z.eq_dec (q_nq side) 0) as [Z0|NZ].
    + right. split; [exact Z0|]. split; [rewrite Z0; reflexivity|]. unfold frame_ok, at_least_two, side_ok.
      cbn [f_bw f_tns f_pitch f_sns FrameModel.f_ltpf f_side f_x f_nf q_nq q_gidx q_lsb].
      assert (20 <= c_ne dt sr). { clear - Hd Hs. unfold c_ne. assert (20 <= ne_2m5 sr). { assert (S5 : (sr = 0 \/ sr = 1 \/ sr = 2 \/ sr = 3 \/ sr = 4)%Z) by lia. destruct S5 as [-> | [-> | [-> | [-> | ->]]]]; vm_compute; discriminate. } nia. }
      split; [exact C1|]. split; [repeat split; lia|]. split; [exact C3|]. split; [exact C2|]. split; [exact C4|]. split; [lia|]. split; [reflexivity|].
      split; [repeat constructor; apply coded_zero|]. intros Hh; congruence.
    + left. unfold frame_ok, side_ok. cbn [f_bw f_tns f_pitch f_sns FrameModel.f_ltpf f_side f_x f_nf].
      split; [exact C1|]. split. { assert (q_nq side <> 1) by (intros E; rewrite E in Ev; discriminate). repeat split; lia. }
      split; [exact C3|]. split; [exact C2|]. split; [exact C4|]. split; [lia|]. split; [symmetry; exact Lu|]. split; [|intros Hh; congruence].
      rewrite G9. apply Forall_forall. intros u Hu. rewrite Forall_forall in Q6. apply Q6. rewrite <- (firstn_skipn (Z.to_nat (q_nq side)) us). apply in_or_app. left. exact Hu.
  - exists us, m, bits. auto.
Qed.

(** What a call returns. *)
Definition returned (c : enc_cfg) (k : ecall) (oh : option shaped) (r : Z * list Z * bool) : Prop :=
  match oh with
  | None => accepted c (fst (fst k)) = false /\ r = (-1, snd k, false)
  | Some h => accepted c (fst (fst k)) = true /\
      exists f, frame_of (e_dt c) (e_sr c) (fst (fst k)) h f /\ r = (0, encode (snd k) (e_dt c) (e_sr c) f, h_over h)
  end.

Lemma encode_run_ok hr dt_us srp_hz c n bypass : e_geometry hr dt_us srp_hz c n -> hr = false -> forall calls fr mem sp hs,
  shape_run nan lit junk junkd c bypass fr mem calls = Some hs -> spec_ok sp ->
  Forall2 (fun k oh => match oh with
      | Some h => accepted c (fst (fst k)) = true /\ side_codable (e_dt c) (e_sr c) (fst (fst k)) h /\ zlen (h_x h) = c_ns (e_dt c) (e_srp c) /\
                  in_reach (e_dt c) (e_sr c) (fst (fst k)) h
      | None => accepted c (fst (fst k)) = false
      end) calls hs ->
  exists outs st', encode_run nan lit junk junkd (mkEncF c bypass fr sp mem) calls = Some (outs, st') /\ spec_ok (y_spec st') /\
    Forall2 (fun p r => returned c (fst p) (snd p) r) (combine calls hs) outs.
Proof.
  intros G Hr. induction calls as [|[[nb pcm] out] calls IH]; intros fr mem sp hs Es Hsp Hk.
  - cbn [shape_run] in Es. injection Es as <-. cbn [encode_run]. eexists _, _. split; [reflexivity|]. split; [exact Hsp|]. constructor.
  - inversion Hk as [|? oh ? hs1 K1 K2]. subst. cbn [encode_run]. unfold lc3_encode. cbn [y_cfg y_bypass y_front y_mem y_spec].
    assert (EA : (nb <? min_frame_bytes (e_dt c) (e_sr c)) || (max_frame_bytes (e_dt c) (e_sr c) <? nb) = negb (accepted c nb)) by (unfold accepted; lia).
    rewrite EA. cbn [shape_run] in Es. destruct (accepted c nb) eqn:A; cbn [negb].
    + destruct (shape_frame nan lit junk junkd c bypass nb pcm fr mem) as [[[h fr1] mem1]|] eqn:E1; [|discriminate]. cbn [bind] in Es |- *.
      destruct (shape_run nan lit junk junkd c bypass fr1 mem1 calls) as [hs'|] eqn:E2; [|discriminate]. cbn [bind] in Es.
      assert (X : oh = Some h /\ hs1 = hs') by (split; congruence). destruct X as (-> & ->). cbn [fst] in K1. destruct K1 as (_ & K3 & K4 & K5).
      assert (HN : 1 <= nb <= 400).
      { assert (GG := G). destruct GG as (_ & _ & _ & _ & _ & _ & _ & _ & _ & _ & _ & G9 & _). unfold accepted, min_frame_bytes, max_frame_bytes in A. rewrite G9 in A. lia. }
      destruct (write_frame_ok false dt_us srp_hz c n nb h sp out G eq_refl HN K3 K4 K5 Hsp) as (f & sp' & -> & Hsp' & Hf). cbn [bind].
      destruct (IH fr1 mem1 sp' hs' E2 Hsp' K2) as (outs & st' & -> & Hst' & P1). cbn [bind fst snd].
      eexists _, st'. split; [reflexivity|]. split; [exact Hst'|]. 
      cbn [combine]. constructor; [|exact P1]. cbn [fst snd returned]. split; [exact A|]. exists f. auto.
    + destruct (shape_run nan lit junk junkd c bypass fr mem calls) as [hs'|] eqn:E2; [|discriminate]. cbn [bind] in Es |- *.
      assert (X : oh = None /\ hs1 = hs') by (split; congruence). destruct X as (-> & ->).
      destruct (IH fr mem sp hs' E2 Hsp K2) as (outs & st' & -> & Hst' & P1). cbn [bind fst snd].
      eexists _, st'. split; [reflexivity|]. split; [exact Hst'|]. 
      cbn [combine]. constructor; [|exact P1]. cbn [fst snd returned]. auto.
Qed.
End Frames.
