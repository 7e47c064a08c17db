(** Specification vocabulary for response data. *)
From Coq Require Import Reals String List.
From Verif Require Import Base NumSig XR M_Utils.
Import ListNotations.

(** The data a reader of response files produces: every detector has exactly a
    response array, a wavelength array and a central wavelength; dictionary keys
    are unique (as in any Python dictionary). *)
Definition reader_det {N : Num} (d : detector N) : Prop :=
  exists r w c, d = [("response"%string, VArr r); ("wavelength"%string, VArr w);
                     ("central_wavelength"%string, VNum c)].
Definition reader_shaped {N : Num} (d : rsrdata N) : Prop :=
  NoDup (dkeys d) /\
  Forall (fun bv => NoDup (dkeys (snd bv)) /\ Forall (fun dv => reader_det (snd dv)) (snd bv)) d.

(** A detector whose wavelengths, if any, are an array and whose response, if
    any, is an array or a dictionary of arrays. *)
Definition typed_det {N : Num} (d : detector N) : Prop :=
  (forall v, dget "wavelength"%string d = Some v -> exists w, v = VArr w) /\
  (forall x, dget "response"%string d <> Some (VNum x)).
(** such detectors everywhere, and unique dictionary keys *)
Definition typed_data {N : Num} (d : rsrdata N) : Prop :=
  NoDup (dkeys d) /\
  Forall (fun bv => NoDup (dkeys (snd bv)) /\ Forall (fun dv => typed_det (snd dv)) (snd bv)) d.

(** response and wavelength arrays of equal length *)
Definition same_length {N : Num} (d : detector N) : Prop :=
  forall r w, dget "response"%string d = Some (VArr r) -> dget "wavelength"%string d = Some (VArr w) ->
              length r = length w.
Definition all_dets {N : Num} (P : detector N -> Prop) (d : rsrdata N) : Prop :=
  Forall (fun bv => Forall (fun dv => P (snd dv)) (snd bv)) d.

(** detector [d] of band [b] in the data *)
Definition det_at {N : Num} (data : rsrdata N) (b d : string) : option (detector N) :=
  match dget b data with Some bd => dget d bd | None => None end.

(** a detector with finite wavelengths [ws] and responses [rs] *)
Definition curve_of (d : detector XRN) (ws rs : list R) : Prop :=
  dget "wavelength"%string d = Some (VArr (map Fin ws)) /\ dget "response"%string d = Some (VArr (map Fin rs)) /\
  length rs = length ws.
