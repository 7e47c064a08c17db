(** Specification vocabulary for band radiances. *)
From Coq Require Import Reals String List Sorting.Sorted.
From Verif Require Import XR S_Planck.
Import ListNotations.
Open Scope R_scope.

(** Planck's law in either space. *)
Definition Planck (wavenumber : bool) (w t : R) : R :=
  if wavenumber then B_nu w t else B_lambda w t.

(** A physically sensible response curve: matching lengths, strictly increasing
    positive waves, non-negative response that is not zero everywhere. *)
Definition good_curve (ws rs : list R) : Prop :=
  length ws = length rs /\ (2 <= length ws)%nat /\ Sorted Rlt ws /\
  Forall (fun w => 0 < w) ws /\ Forall (fun r => 0 <= r) rs /\ Exists (fun r => 0 < r) rs.

(** Unit of a radiance: per metre of wavelength or per m^-1 of wavenumber if
    normalised, without a spectral unit if integrated over the band. *)
Definition radiance_unit (spectral : string) (normalized : bool) : string :=
  String.append "W/m^2 sr^-1" (if normalized then String.append " " spectral else "").

(** The exponent in Planck's law: energy of a photon over k T. *)
Definition photon (wavenumber : bool) (w t : R) : R :=
  if wavenumber then h_planck * c_light * w / (k_boltz * t) else h_planck * c_light / (w * k_boltz * t).
(** Brightness temperature in either space. *)
Definition brightness (wavenumber : bool) (w b : R) : R :=
  if wavenumber then T_nu w b else T_lambda w b.
(** Radiance of a band at one temperature: Planck's law times the response,
    integrated by the trapezoidal rule; over the integral of the response if
    normalised. *)
Definition band_radiance (wavenumber normalized : bool) (ws rs : list R) (t : R) : R :=
  Rtrapz (Rvmul (map (fun w => Planck wavenumber w t) ws) rs) ws / (if normalized then Rtrapz rs ws else 1).
