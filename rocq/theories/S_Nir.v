(** Specification vocabulary for the 3.x um reflectance. *)
From Coq Require Import Reals ZArith String List Bool.
From Verif Require Import Base NumSig XR M_Nir M_RadTb.
Import ListNotations.

(** The value an array (or a single value) has at pixel [k] of an image. *)
Definition pix {N : Num} (k : nat) (a : arr N) : option N :=
  match a_data a with [x] => Some x | l => nth_error l k end.
(** [a] is an image of shape [s], or a single value. *)
Definition fits {N : Num} (s : list nat) (a : arr N) : Prop :=
  (a_shape a = s /\ List.length (a_data a) = size s) \/
  (exists x, a_data a = [x] /\ (a_shape a = [] \/ a_shape a = [1%nat])).
(** [a] is an image of shape [s]. *)
Definition is_image {N : Num} (s : list nat) (a : arr N) : Prop :=
  a_shape a = s /\ List.length (a_data a) = size s.

(** The arguments of a call describe an image of shape [s]: the temperatures have
    that shape, the other arguments that shape or a single value.  If the table
    is switched off the image must be a row. *)
Definition one_image {N : Num} (s : list nat) (sun nir therm : nirarg N) (co2 : option (nirarg N))
           (lut : option (option (tblut N))) : Prop :=
  is_image s (get_as_array nir) /\ is_image s (get_as_array therm) /\ fits s (get_as_array sun) /\
  (forall a, co2 = Some a -> fits s (get_as_array a)) /\
  (lut = Some None -> exists n, s = [n]).

(** the table a call uses *)
Definition table_of {N : Num} (c : calculator N) (lut : option (option (tblut N))) : option (tblut N) :=
  match lut with None => Some (cl_lut c) | Some l => l end.

(** Temperatures are floats. *)
Definition floats {N : Num} (nir therm : nirarg N) : Prop :=
  a_dtype (get_as_array nir) = Float64 /\ a_dtype (get_as_array therm) = Float64.

(** The type of the values handed over. *)
Definition value_type {N : Num} (a : nirarg N) : dtype := match a with NScalar d _ => d | NArray b => a_dtype b end.

(** Shapes that numpy cannot combine: counted from the last axis, some axis has
    different lengths in the two, neither of them 1. *)
Definition clash (s t : list nat) : Prop :=
  exists i x y, nth_error (rev s) i = Some x /\ nth_error (rev t) i = Some y /\ x <> y /\ x <> 1%nat /\ y <> 1%nat.

(** a method call other than reflectance_from_tbs *)
Definition no_reflectance {N : Num} (k : @nir_call N) : bool := match k with CallReflectance _ _ _ _ _ => false | _ => true end.

Local Open Scope R_scope.

(** solar radiance at sun zenith angle [z] (degrees) *)
Definition clipped (thr : option R) (z : R) : R :=
  match thr with Some t => Rmin (Rmax z 0) t | None => Rmax z 0 end.
Definition solar_term (flux : R) (thr : option R) (z : R) : R :=
  flux * cos (clipped thr z * PI / 180) / PI.

(** the sun is outside the range asked for *)
Definition sun_out (lim : option R) (z : R) : Prop :=
  match lim with Some l => z < 0 \/ l < z | None => False end.

(** Rosenfeld's correction *)
Definition rosenfeld (t11 t13 : R) : R := ((3 * t11 + t13) / (4 * t11)) ^ 4.

(** Pixel [k] of a call: sun zenith [z], 3.x um temperature [tn], measured
    spectral radiance [L], thermal spectral radiance [T], CO2 factor [F]. *)
Definition pixel (E : nir_env XRN) (c : calculator XRN) (sun nir therm : nirarg XRN) (co2 : option (nirarg XRN))
           (lut : option (option (tblut XRN))) (k : nat) (z : R) (tn : XR) (L T F : R) : Prop :=
  pix k (get_as_array sun) = Some (Fin z) /\ pix k (get_as_array nir) = Some tn /\
  (exists a, tb2rad E (cl_conv c) (get_as_array nir) (table_of c lut) = Ok a /\ pix k a = Some (Fin L)) /\
  (exists a, tb2rad E (cl_conv c) (get_as_array therm) (table_of c lut) = Ok a /\ pix k a = Some (Fin T)) /\
  match co2 with
  | None => F = 1
  | Some a => exists t11 t13, pix k (get_as_array therm) = Some (Fin t11) /\ pix k (get_as_array a) = Some (Fin t13) /\
                              t11 <> 0 /\ F = rosenfeld t11 t13
  end.

(** A calculator's numbers: band width [I], solar flux, threshold, limit. *)
Definition settings (c : calculator XRN) (I flux : R) (thr lim : option R) : Prop :=
  cv_rsr_integral (cl_conv c) = Fin I /\ cl_solar_flux c = Fin flux /\
  cl_sunz_threshold c = option_map Fin thr /\ cl_masking_limit c = option_map Fin lim.
