(** * What is expected from a sequence of decoder calls *)
From Coq Require Import ZArith List Bool.
From Verif Require Import Base ConfigModel FloatModel FrameModel DecoderModel.
Import ListNotations.
Local Open Scope Z_scope.

(** What happened before, the last call first: a frame, or a loss ([None]). *)
Definition history := list (option decoded).

(** Number of losses, and of losses since the last frame. *)
Fixpoint losses (h : history) : Z :=
  match h with [] => 0 | None :: h => losses h + 1 | Some _ :: h => losses h end.
Fixpoint losses_in_a_row (h : history) : Z :=
  match h with None :: h => losses_in_a_row h + 1 | _ => 0 end.

(** Spectrum of the last frame, [ne] zeros before the first one. *)
Fixpoint last_spectrum (shape : decoded -> list Z) (ne : Z) (h : history) : list Z :=
  match h with
  | [] => repeat 0 (Z.to_nat ne)
  | Some d :: _ => shape d
  | None :: h => last_spectrum shape ne h
  end.

(** Generator of the signs: [sign j] is the sign of the [j]-th coefficient generated,
    from 1. *)
Definition generator (s : Z) : Z := (16831 + 12821 * s) mod 65536.
Definition sign (j : Z) : Z :=
  if Z.testbit (Nat.iter (Z.to_nat j) generator 24607) 15 then -1 else 1.

(** Attenuation in percent at the [n]-th loss in a row. *)
Definition percent (n : Z) : Z := if n <=? 3 then 100 else if n <=? 7 then 90 else 85.

(** Gain of the [n]-th loss in a row, up to the single precision. *)
Definition gain_law (g : Z -> Z) : Prop :=
  g 0 = one /\
  forall n, 0 <= n ->
    is_f32 (g (n + 1)) /\ 0 <= g (n + 1) <= g n /\
    2 ^ 23 * Z.abs (100 * g (n + 1) - percent (n + 1) * g n) <= 100 * (g n + 2 ^ 23) /\
    (n + 1 <= 3 -> g (n + 1) = one) /\
    (650 <= n -> g n <= one / 2 ^ 147).

(** Spectrum at the [n]-th loss in a row, [j] coefficients generated before. *)
Fixpoint concealed (g : Z -> Z) (n j : Z) (xs : list Z) : list Z :=
  match xs with [] => [] | x :: xs => fmul (g n) (sign (j + 1) * x) :: concealed g n (j + 1) xs end.

(** A call: the frame if any, and its size; [parse] is what is in a frame if it can be
    decoded, [nmax] the largest size. Gives the return value, the spectrum, and the history
    afterwards. *)
Definition expected (shape : decoded -> list Z) (parse : list Z -> option decoded) (g : Z -> Z)
  (nmax ne : Z) (h : history) (call : option (list Z) * Z) : Z * option (list Z) * history :=
  let loss := (1, Some (concealed g (losses_in_a_row h + 1) (ne * losses h) (last_spectrum shape ne h)),
               None :: h) in
  match call with
  | (None, _) => loss
  | (Some data, nbytes) =>
      if (20 <=? nbytes) && (nbytes <=? nmax) then
        match parse (firstn (Z.to_nat nbytes) data) with
        | Some d => (0, Some (shape d), Some d :: h)
        | None => loss
        end
      else (-1, None, h)
  end.
Fixpoint expected_calls shape parse g nmax ne h calls : list (Z * option (list Z)) :=
  match calls with
  | [] => []
  | call :: calls =>
      let '(ret, y, h) := expected shape parse g nmax ne h call in
      (ret, y) :: expected_calls shape parse g nmax ne h calls
  end.

(** What a sequence of calls gives in the model. *)
Fixpoint run_calls (shape : decoded -> list Z) (lf_first : bool) (hw : Z -> Z) (st : option dec_state)
  (calls : list (option (list Z) * Z)) : option (list (Z * option (list Z)) * option dec_state) :=
  match calls with
  | [] => Some ([], st)
  | (inp, nbytes) :: calls =>
      match lc3_decode shape lf_first hw st inp nbytes with
      | None => None
      | Some (ret, y, st) =>
          match run_calls shape lf_first hw st calls with
          | None => None
          | Some (outs, st) => Some ((ret, y) :: outs, st)
          end
      end
  end.
