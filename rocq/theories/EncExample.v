(** * The encoder and the decoder on an example, in binary32 *)
From Coq Require Import ZArith List Bool.
From Flocq Require Import IEEE754.BinarySingleNaN.
From Verif Require Import Base ConfigModel FloatModel SideModel FrameModel BudgetSpec FloatOps F32Model SpecEncModel SynthModel EncModel EncSpec.
Import ListNotations.
Local Open Scope Z_scope.

(** 8 kHz, frames of 2.5 ms (20 samples); a triangle of 24 samples and of amplitude 3000; the
    second of three calls has a size that is refused. *)
Definition ex_lit (z : Z) : f32 := Div (f32_dy z 0) (f32_dy (10 ^ 18) 0).
Definition ex_wave (t : Z) : Z := let m := t mod 24 in if m <? 12 then m * 500 - 3000 else (24 - m) * 500 - 3000.
Definition ex_pcm (k : Z) : list (Z * f32) := map (fun i => let v := ex_wave (20 * k + Z.of_nat i) in (v, f32_of_int v)) (seq 0 20).
Definition ex_calls : list ecall := [(24, ex_pcm 0, repeat 0 24); (19, ex_pcm 5, repeat 0 19); (24, ex_pcm 1, repeat 0 24)].
Definition ex_enc : enc_cfg := mkEnc 0 0 0 10 15 35.
Definition ex_junk : f32 := f32_dy 12345 3.
Notation ex_st := (enc_init 0 ex_enc 55 false).
Notation ex_shapes := (shape_run 0 ex_lit ex_junk (mkLtpf 7 7) ex_enc false (y_front ex_st) (y_mem ex_st) ex_calls).

(** Finite numbers of magnitude at most [b], and bits left for the spectrum. *)
Definition ex_reach (b : Z) (h : shaped) : bool :=
  forallb (fun v => is_finite v && Bleb (Babs v) (f32_of_int b)) (firstn (Z.to_nat (c_ne 0 0)) (h_x h)) &&
  (0 <? BudgetModel.spec_budget 0 0 24 (h_pitch h) (h_tns h)).
(** The frame has coefficients, and room for the truncation error of the arithmetic coder. *)
Definition ex_room (h : shaped) : bool :=
  match write_frame 0 ex_enc 24 h spec_init (repeat 0 24) with
  | Some (f, _, _) => (46 * (tns_symbols (f_tns f) + spectrum_symbols (f_q 0 f)) <? 2048 * (spare_bits false 24 + 1)) && (0 <? q_nq (f_side f))
  | None => false
  end.
Example ex_shapes_reach :
  match ex_shapes with Some [Some h; None; Some h'] => ex_reach 9000 h && ex_reach 9000 h' && ex_room h | _ => false end = true.
Proof. vm_compute. reflexivity. Qed.

(** The frames are decoded: the second one gives the samples of the first call, to 40. *)
Definition ex_dec : dec_cfg := match hr_setup_decoder false 2500 8000 0 with Some (Some (c, _)) => c | _ => mkDec 0 0 0 0 0 0 0 end.
Definition ex_decoded (outs : list (Z * list Z * bool)) :=
  run_calls (f32_ops 0) ex_lit ex_junk true (fun _ => 0) (dec_init (f32_ops 0) ex_dec (match hr_setup_decoder false 2500 8000 0 with Some (Some (_, n)) => n | _ => 0 end))
    (map (fun o => (Some (snd (fst o)), zlen (snd (fst o)))) outs).
Definition near (e : Z) (v : f32) (z : Z) : bool :=
  match f32_units v with Some u => Z.abs (u - z * one) <=? e * one | None => false end.
Example ex_chain :
  match encode_run 0 ex_lit ex_junk (mkLtpf 7 7) ex_st ex_calls with
  | Some ([(0, b0, false); (-1, _, false); (0, b1, false)] as outs, _) =>
      match ex_decoded outs with
      | Some ([(0, Some _); (-1, None); (0, Some s)], _) => forallb (fun p => near 40 (fst p) (fst (snd p))) (combine s (ex_pcm 0)) && (zlen s =? 20)
      | _ => false
      end
  | _ => false
  end = true.
Proof. vm_compute. reflexivity. Qed.
