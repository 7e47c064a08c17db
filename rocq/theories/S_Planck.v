(** Specification vocabulary: Planck's law over the reals, in the textbook form. *)
From Coq Require Import Reals.
Open Scope R_scope.

Definition h_planck : R := 662606957 / 10 ^ 42.     (* J s *)
Definition k_boltz : R := 13806488 / 10 ^ 30.       (* J / K *)
Definition c_light : R := 299792458.                 (* m / s *)

(** spectral radiance per metre of wavelength *)
Definition B_lambda (l t : R) : R :=
  (2 * h_planck * c_light ^ 2 / l ^ 5) / (exp (h_planck * c_light / (l * k_boltz * t)) - 1).

(** spectral radiance per inverse metre of wavenumber *)
Definition B_nu (n t : R) : R :=
  (2 * h_planck * c_light ^ 2 * n ^ 3) / (exp (h_planck * c_light * n / (k_boltz * t)) - 1).

(** brightness temperature *)
Definition T_lambda (l b : R) : R :=
  h_planck * c_light / (l * k_boltz * ln (2 * h_planck * c_light ^ 2 / (b * l ^ 5) + 1)).
Definition T_nu (n b : R) : R :=
  h_planck * c_light * n / (k_boltz * ln (2 * h_planck * c_light ^ 2 * n ^ 3 / b + 1)).

(** temperature below which the code refuses to evaluate the law *)
Definition T_cut : R := 1 / 10 ^ 6.
