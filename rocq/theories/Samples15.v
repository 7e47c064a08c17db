(** A solar spectrum and a band in doubles, for the Examples of C116. *)
From Coq Require Import Reals Lra Lia ZArith String List Bool SpecFloat Sorting.Sorted.
From Flocq Require Import Core BinarySingleNaN.
From Verif Require Import Base NumSig B64 M_Tables M_Utils M_Solar S_B64 S_SolarDoubles P_B64ops P_B64lib.
Import ListNotations.
Local Open Scope R_scope.

(** 1, 2 and 0 at 1, 2 and 3 um; resolution 1 um *)
Definition sun_doubles lib : spectrum (B64N lib) :=
  {| so_wavelength := Some ([b64_ratio 1 1; b64_ratio 2 1; b64_ratio 3 1] : list (B64N lib)); so_wavenumber := None;
     so_irradiance := ([b64_ratio 1 1; b64_ratio 2 1; b64_ratio 0 1] : list (B64N lib)); so_wavespace := "wavelength"; so_dlambda := (b64_ratio 1 1 : B64N lib); so_ipol := None |}.
Definition detector_doubles lib : detector (B64N lib) :=
  [("wavelength"%string, VArr ([b64_ratio 1 1; b64_ratio 2 1] : list (B64N lib))); ("response"%string, VArr ([b64_ratio 1 1; b64_ratio 2 1] : list (B64N lib)))].
(** an interpolating function of that response, used for the spectrum as well *)
Definition growing (x y : list b64) : res (b64 -> b64) := Ok (fun t => t).

Lemma small_ints : to_R (b64_ratio 1 1) = 1 /\ to_R (b64_ratio 2 1) = 2 /\ to_R (b64_ratio 3 1) = 3.
Proof. repeat split; apply ratio_int; lia. Qed.
Lemma ints_double : is_double (b64_ratio 1 1) /\ is_double (b64_ratio 2 1).
Proof. repeat split; vm_compute; reflexivity. Qed.
Lemma two_like : Forall irradiance_like [b64_ratio 1 1; b64_ratio 2 1].
Proof.
  destruct small_ints as (E1 & E2 & _). destruct ints_double as [D1 D2]. constructor; [|constructor; [|constructor]].
  - split; [split; [exact D1|rewrite E1; lra]|]. split; [vm_compute; discriminate|right; rewrite E1; lra].
  - split; [split; [exact D2|rewrite E2; lra]|]. split; [vm_compute; discriminate|right; rewrite E2; lra].
Qed.
Lemma sun_like : Forall irradiance_like [b64_ratio 1 1; b64_ratio 2 1; b64_ratio 0 1].
Proof.
  pose proof two_like as H. inversion H as [|? ? A H1]; subst. inversion H1 as [|? ? B _]; subst. constructor; [exact A|]. constructor; [exact B|]. constructor; [|constructor].
  change (b64_ratio 0 1) with (S754_zero false). split; [split; [split; reflexivity|cbn; lra]|]. split; [discriminate|left; reflexivity].
Qed.
Lemma band_doubles : band64 growing (sun_doubles rounded_lib) (detector_doubles rounded_lib) (b64_ratio 1 1) (b64_ratio 1 1) (b64_ratio 2 1) (fun x => x) (fun x => x).
Proof.
  exists "wavelength"%string, [b64_ratio 1 1; b64_ratio 2 1; b64_ratio 3 1], [b64_ratio 1 1; b64_ratio 2 1], [b64_ratio 1 1; b64_ratio 2 1].
  split; [left; repeat split|]. split; [reflexivity|]. split; [reflexivity|]. cbv zeta. cbn [map hd_error last].
  change (nmul (B64N rounded_lib)) with (SFmul prec64 emax64).
  assert (A : SFmul prec64 emax64 (b64_ratio 1 1) (b64_ratio 1 1) = b64_ratio 1 1) by (vm_compute; reflexivity).
  assert (B : SFmul prec64 emax64 (b64_ratio 2 1) (b64_ratio 1 1) = b64_ratio 2 1) by (vm_compute; reflexivity).
  split; [f_equal; exact A|]. split; [exact B|]. split; reflexivity.
Qed.
Lemma two_points a b g : even_doubles a b 2 g -> g = [a; b].
Proof. intros (L & H & E & _). destruct g as [|x [|y [|z g]]]; try discriminate L. cbn in H, E. congruence. Qed.
