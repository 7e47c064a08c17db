(** Specification vocabulary for the wavelength the Rayleigh correction uses. *)
From Coq Require Import Reals String List Sorting.Sorted.
From Verif Require Import Base NumSig XR M_Tables M_Utils M_Rsr S_Names.
Import ListNotations.
Local Open Scope R_scope.

(** the responses [st] have, under the name [name] or what it stands for, a first
    detector with wavelengths [ws] (in micrometres) and responses [rs] *)
Definition band_curve (st : rsr_state XRN) (name : string) (ws rs : list R) : Prop :=
  (forall l, rs_instrument st <> Some (IList l)) /\
  exists bd d,
    (dget name (rs_rsr st) = Some bd \/
     (dget name (rs_rsr st) = None /\ exists k, std_name (rs_instrument st) name k /\ dget k (rs_rsr st) = Some bd)) /\
    dget "det-1"%string bd = Some d /\
    dget "wavelength"%string d = Some (VArr (map Fin ws)) /\
    dget "response"%string d = Some (VArr (map Fin rs)).

(** a usable response curve *)
Definition curve_ok (ws rs : list R) : Prop :=
  List.length rs = List.length ws /\ (2 <= List.length ws)%nat /\ Sorted Rlt ws /\
  Forall (fun w => 0 < w) ws /\ Forall (fun r => 0 <= r) rs /\ Exists (fun r => 0 < r) rs.

(** the sampled function [f] of wavelength and response integrated over the band
    by the trapezoidal rule *)
Fixpoint curve_integral (f : R -> R -> R) (ws rs : list R) : R :=
  match ws, rs with
  | w0 :: ((w1 :: _) as wt), r0 :: ((r1 :: _) as rt) => (w1 - w0) * ((f w0 r0 + f w1 r1) / 2) + curve_integral f wt rt
  | _, _ => 0
  end.

(** mean wavelength, and mean wavelength weighted by 1/w^4 *)
Definition mean_wavelength (ws rs : list R) : R :=
  curve_integral (fun w r => r * w) ws rs / curve_integral (fun _ r => r) ws rs.
Definition rayleigh_wavelength (ws rs : list R) : R :=
  curve_integral (fun w r => r / w ^ 3) ws rs / curve_integral (fun w r => r / w ^ 4) ws rs.
