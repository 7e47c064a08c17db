(** Specification vocabulary for the 3.x um reflectance in doubles. *)
From Coq Require Import Reals ZArith String List Bool SpecFloat.
From Verif Require Import Base NumSig B64 M_Tables M_Utils M_Rsr M_RadTb M_Nir S_B64 S_Nir.
Import ListNotations.
Local Open Scope R_scope.

(** What a call has left in the attributes, at pixel [k]: the measured radiance
    [L] (_rad3x), the thermal one [T] (_rad3x_t11), the CO2 factor [F]
    (_rad3x_correction) and the solar radiance [S] (_solar_radiance). *)
Definition attributes {lib} (st : nirstate (B64N lib)) (k : nat) (L T F S : b64) : Prop :=
  (exists a, ns_rad3x st = Some a /\ pix k a = Some (L : B64N lib)) /\
  (exists a, ns_rad3x_t11 st = Some a /\ pix k a = Some (T : B64N lib)) /\
  pix k (ns_correction st) = Some (F : B64N lib) /\
  (exists a, ns_solar st = Some a /\ pix k a = Some (S : B64N lib)).

(** none of them out of all proportion *)
Definition ordinary (I L T F S : b64) : Prop :=
  double_between 0 (10 ^ 6) I /\ double_between 0 (10 ^ 12) L /\ double_between 0 (10 ^ 12) T /\
  double_between 0 (10 ^ 3) F /\ double_between 0 (10 ^ 6) S.

(** the sun is outside the range asked for *)
Definition sun_out64 (lim : option b64) (z : b64) : Prop :=
  match lim with Some l => to_R z < 0 \/ to_R l < to_R z | None => False end.
Definition limit_like (lim : option b64) : Prop := match lim with Some l => is_double l | None => True end.

(** the energy left to divide by, and the reflectance, in exact arithmetic *)
Definition contrast (I T F S : b64) : R := to_R S - to_R T * to_R I * to_R F.
Definition exact_reflectance (I L T F S : b64) : R :=
  (to_R L * to_R I - to_R T * to_R I * to_R F) / contrast I T F S.
(** how much cancellation there is: all the energies over the one divided by *)
Definition amplification (I L T F S : b64) : R :=
  (to_R L * to_R I + to_R T * to_R I * to_R F + to_R S) / contrast I T F S.
