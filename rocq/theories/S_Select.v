(** Specification vocabulary: two ways of selecting the same band. *)
From Coq Require Import Reals ZArith String List Bool.
From Verif Require Import Base NumSig XR M_Tables M_Utils M_Blackbody M_Rsr M_RadTb M_Solar M_World M_Download M_Nir.
Import ListNotations.

(** two attempts to make a converter: the same error, or two converters that
    convert alike *)
Definition same_conversions (a b : res (converter XRN)) : Prop :=
  match a, b with
  | Ok c, Ok c' =>
      (forall oob tbs lut normalized, tb2radiance oob c tbs lut normalized = tb2radiance oob c' tbs lut normalized) /\
      (forall rad, converter_radiance2tb c rad = converter_radiance2tb c' rad) /\
      (forall normalized, make_tb2rad_lut c normalized = make_tb2rad_lut c' normalized)
  | Err e, Err e' => e = e'
  | _, _ => False
  end.

(** the same for calculators; the file system must be left alike, too *)
Definition same_reflectances (a b : world * res (calculator XRN)) : Prop :=
  fst a = fst b /\
  match snd a, snd b with
  | Ok c, Ok c' =>
      (forall E sun nir therm co2 lut st, reflectance_from_tbs E c sun nir therm co2 lut st = reflectance_from_tbs E c' sun nir therm co2 lut st) /\
      (forall tb st, emissive_part_3x c tb st = emissive_part_3x c' tb st)
  | Err e, Err e' => e = e'
  | _, _ => False
  end.

(** a band of the response data and its central wavelength *)
Definition centred (rsr : rsrdata XRN) (k : string) (c : R) : Prop :=
  exists b d, In (k, b) rsr /\ dget "det-1"%string b = Some d /\ dget "central_wavelength"%string d = Some (VNum (Fin c)).
(** every band has a central wavelength, and no two bands have the same name *)
Definition well_centred (rsr : rsrdata XRN) : Prop :=
  NoDup (map fst rsr) /\ forall k b, In (k, b) rsr -> exists c, centred [(k, b)] k c.
