(** * Specification of the decoder, without its memory
    The steps from the data of a frame to its samples, on lists of their own: there are no
    areas, no window that moves and no array with an old content here. The state between two
    frames is the one of the concealment, the last spectrum and the half of the transform that
    overlaps the next frame. *)
From Coq Require Import ZArith List Bool.
From Verif Require Import Base ConfigModel SideModel FrameModel NoiseModel FloatOps TnsModel SnsModel SynthModel.
Import ListNotations.
Local Open Scope Z_scope.

Section Spec.
Context {F : Type} (fl : fops F).
Let f0 : F := f_z fl 0.
Let zeros (n : Z) : list F := repeat f0 (Z.to_nat n).

Record core := mkCore { k_plc : @plc F; k_spectrum : list F; k_overlap : list F }.

(** The concealment and the coefficients of a frame, and the spectrum to keep. *)
Definition spectrum_of (dt sr : Z) (o : option decoded) (nbytes : Z) (s : core) : option (@plc F * list F * list F) :=
  match o with
  | Some d =>
      do z <- spec_finish dt sr nbytes d;
      do x <- tns_synthesize fl dt (d_bw d) (d_tns d) (map (fun z => f_dy fl z 149) z);
      do r <- sns_synthesize fl f0 dt sr (d_sns d) x (zeros (c_ne dt sr));
      Some (plc_suspend fl (k_plc s), snd r, snd r)
  | None =>
      do r <- plc_synthesize fl (k_plc s) (k_spectrum s);
      Some (snd r, fst r, k_spectrum s)
  end.

(** The samples of a frame before the postfilter. *)
Definition frame_of (dt sr srp : Z) (o : option decoded) (nbytes : Z) (s : core) : option (list F * core) :=
  do r <- spectrum_of dt sr o nbytes s;
  let '(p, x, keep) := r in
  do m <- inverse fl f0 dt srp sr None (k_overlap s) (x ++ zeros (c_ns dt srp - c_ne dt sr));
  Some (snd m, mkCore p keep (fst m)).

Fixpoint frames_of (dt sr srp : Z) (s : core) (fr : list (option decoded * Z)) : option (list (list F)) :=
  match fr with
  | [] => Some []
  | (o, nbytes) :: fr =>
      do r <- frame_of dt sr srp o nbytes s;
      do xs <- frames_of dt sr srp (snd r) fr;
      Some (fst r :: xs)
  end.

Definition core_init (dt sr srp : Z) : core :=
  mkCore (plc_reset fl) (zeros (c_ne dt sr)) (zeros (c_nd dt srp)).
End Spec.

(** What a call asks: [None] when the size is refused, otherwise what is parsed of the frame
    ([None] when it is lost or damaged) and its size. The value returned. *)
Definition request (parse : list Z -> option decoded) (max : Z) (call : option (list Z) * Z) : option (option decoded * Z) :=
  match call with
  | (None, nbytes) => Some (None, nbytes)
  | (Some data, nbytes) =>
      if (20 <=? nbytes) && (nbytes <=? max) then Some (parse (firstn (Z.to_nat nbytes) data), nbytes) else None
  end.
Definition answer (r : option (option decoded * Z)) : Z :=
  match r with None => -1 | Some (Some _, _) => 0 | Some (None, _) => 1 end.
Fixpoint somes {A} (l : list (option A)) : list A :=
  match l with [] => [] | Some a :: l => a :: somes l | None :: l => somes l end.
