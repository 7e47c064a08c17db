(** Specification vocabulary for the solar spectrum. *)
From Coq Require Import Reals String List ZArith Sorting.Sorted.
From Verif Require Import Base NumSig XR M_Utils M_Solar.
Import ListNotations.
Local Open Scope string_scope.
Local Open Scope R_scope.

(** [n] equal steps from [a] to [b], both included; just [a] for no step *)
Definition even_grid (a b : R) (n : nat) : list R :=
  match n with
  | O => [a]
  | _ => map (fun i => a + INR i * ((b - a) / INR n)) (seq 0 (S n))
  end.

(** [n] is a nearest integer to [r] *)
Definition nearest (r : R) (n : nat) : Prop := Rabs (r - INR n) <= 1 / 2.

(** the axis of a spectrum object and the dictionary key that goes with it *)
Definition has_axis (s : spectrum XRN) (key : string) (xs : list XR) : Prop :=
  (so_wavespace s = "wavelength" /\ key = "wavelength" /\ so_wavelength s = Some xs) \/
  (so_wavespace s = "wavenumber" /\ key = "wavenumber" /\ so_wavenumber s = Some xs).

(** the interpolating function of (x, y) is [g] on finite points *)
Definition spline_is (spline : list XR -> list XR -> res (XR -> XR)) (x y : list XR) (g : R -> R) : Prop :=
  exists f, spline x y = Ok f /\ forall t, f (Fin t) = Fin (g t).

(** consecutive elements grow at most by the factor [q] *)
Definition ratio_at_most (q : R) (l : list R) : Prop := Sorted (fun a b => b <= q * a) l.

(** Calls on one spectrum object *)
Inductive solar_call :=
| SFlux (rsr : rsrarg XRN) (scale : XR) (det : string)
| SIrr (rsr : rsrarg XRN) (scale : XR) (det : string)
| SConst
| SInterp (dlambda : option XR) (ival : option (XR * XR)).
Inductive solar_out := SNum (r : res XR) | SUnit (r : res unit).
Definition solar_step (spline : list XR -> list XR -> res (XR -> XR)) (s : spectrum XRN) (c : solar_call)
  : spectrum XRN * solar_out :=
  match c with
  | SFlux r k d => let (s', o) := inband_solarflux (N := XRN) spline s r k d in (s', SNum o)
  | SIrr r k d => let (s', o) := inband_solarirradiance (N := XRN) spline s r k d in (s', SNum o)
  | SConst => (s, SNum (solar_constant s))
  | SInterp d i => let (s', o) := interpolate (N := XRN) spline s d i in (s', SUnit o)
  end.
Fixpoint solar_run spline (s : spectrum XRN) (l : list solar_call) : list solar_out :=
  match l with
  | [] => []
  | c :: t => let (s', o) := solar_step spline s c in o :: solar_run spline s' t
  end.
(** a call that sets no resolution *)
Definition keeps_resolution (c : solar_call) : Prop :=
  match c with SInterp (Some _) _ => False | _ => True end.

(** One band of the object [s]: a resolution [dl] > 0, a detector dictionary with
    samples [ws] (times the scale [k], increasing from first to last) and
    responses [rs]; [g] and [h] interpolate the response and the spectrum. *)
Definition band_ok (spline : list XR -> list XR -> res (XR -> XR)) (s : spectrum XRN) (d : detector XRN) (k : R) (ws rs : list R) (dl : R) (g h : R -> R) : Prop :=
  exists key xs, has_axis s key xs /\ so_dlambda s = Fin dl /\ 0 < dl /\
    dget key d = Some (VArr (map Fin ws)) /\ dget "response" d = Some (VArr (map Fin rs)) /\ ws <> [] /\
    hd 0 ws * k < last ws 0 * k /\
    spline_is spline (map Fin (map (fun w => w * k) ws)) (map Fin rs) g /\
    spline_is spline xs (so_irradiance s) h.

(** scaling the spectrum; [linear_spline] says that the interpolation is linear in the data *)
Definition linear_spline (sp : list XR -> list XR -> res (XR -> XR)) : Prop :=
  forall x ys c g, spline_is sp x (map Fin ys) g -> spline_is sp x (map Fin (map (Rmult c) ys)) (fun t => c * g t).

Definition scaled (s : spectrum XRN) (c : R) (irr : list R) : spectrum XRN :=
  {| so_wavelength := so_wavelength s; so_wavenumber := so_wavenumber s;
     so_irradiance := map Fin (map (Rmult c) irr); so_wavespace := so_wavespace s;
     so_dlambda := so_dlambda s; so_ipol := so_ipol s |}.
