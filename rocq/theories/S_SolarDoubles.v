(** Specification vocabulary for the solar spectrum in doubles (C116). *)
From Coq Require Import Reals String List ZArith SpecFloat.
From Flocq Require Import Core BinarySingleNaN.
From Verif Require Import Base NumSig B64 M_Tables M_Utils M_Solar S_B64.
Import ListNotations.
Local Open Scope string_scope.
Local Open Scope R_scope.

(** a sampled irradiance or response: zero, or from 1e-12 to 1e6 *)
Definition irradiance_like (x : b64) : Prop :=
  double_between 0 (10 ^ 6) x /\ x <> S754_zero true /\ (to_R x = 0 \/ 1 / 10 ^ 12 <= to_R x).

(** the axis of the spectrum object [s], and the dictionary key that goes with it *)
Definition has_axis64 {lib} (s : spectrum (B64N lib)) (key : string) (xs : list b64) : Prop :=
  (so_wavespace s = "wavelength" /\ key = "wavelength" /\ so_wavelength s = Some xs) \/
  (so_wavespace s = "wavenumber" /\ key = "wavenumber" /\ so_wavenumber s = Some xs).

(** One band of the object [s]: the samples of the detector times the scale run
    from [a] to [b]; [f] and [h] interpolate the response and the spectrum. *)
Definition band64 {lib} (spline : list b64 -> list b64 -> res (b64 -> b64)) (s : spectrum (B64N lib)) (d : detector (B64N lib))
    (scale a b : b64) (f h : b64 -> b64) : Prop :=
  exists key xs (ws rs : list b64), has_axis64 s key xs /\ dget key d = Some (VArr (ws : list (B64N lib))) /\ dget "response" d = Some (VArr (rs : list (B64N lib))) /\
    let wl := map (fun w => nmul (B64N lib) w scale) ws in
    hd_error wl = Some a /\ last wl a = b /\ spline wl rs = Ok f /\ spline xs (so_irradiance s) = Ok h.

(** [n] doubles from [a] to [b] in order, in equal steps up to rounding *)
Definition even_doubles (a b : b64) (n : nat) (g : list b64) : Prop :=
  List.length g = n /\ hd_error g = Some a /\ last g a = b /\
  forall i, (i < n)%nat -> exists x, nth_error g i = Some x /\ is_double x /\ to_R a <= to_R x <= to_R b /\
    Rabs (to_R x - (to_R a + INR i * ((to_R b - to_R a) / INR (n - 1)))) <= 1 / 10 ^ 15 * to_R b.
