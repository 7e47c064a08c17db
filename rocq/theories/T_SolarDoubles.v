(** Property C116: the solar constant and the in-band calculations in IEEE doubles. *)
From Coq Require Import Reals Lra Lia ZArith String List Bool SpecFloat Sorting.Sorted.
From Flocq Require Import Core BinarySingleNaN.
From Verif Require Import Base NumSig B64 M_Tables M_Utils M_Solar S_B64 S_Planck S_RadTb S_SolarDoubles XR XR P_B64ops P_B64lib P_SolarDoubles P_SolarDoubles2 Samples15.
Import ListNotations.
Local Open Scope R_scope.

(** The solar constant is the trapezoidal integral of the data to 5 parts in 10^12. *)
Theorem C116_constant : forall lib (s : spectrum (B64N lib)) (ws : list b64),
  so_wavenumber s = Some (ws : list (B64N lib)) \/ so_wavenumber s = None /\ so_wavelength s = Some (ws : list (B64N lib)) ->
  List.length (so_irradiance s) = List.length ws -> (Z.of_nat (List.length ws) <= 10000)%Z -> Forall (double_between (1 / 10 ^ 12) (10 ^ 12)) ws -> Sorted Rle (map to_R ws) ->
  Forall irradiance_like (so_irradiance s) ->
  exists c, solar_constant s = Ok c /\ within (5 / 10 ^ 12) c (Rtrapz (map to_R (so_irradiance s)) (map to_R ws)).
Proof. exact constant64. Qed.
Print Assumptions C116_constant.
Example C116_case_constant : exists c, solar_constant (sun_doubles rounded_lib) = Ok c /\ within (5 / 10 ^ 12) c (5 / 2).
Proof.
  destruct (C116_constant rounded_lib (sun_doubles rounded_lib) [b64_ratio 1 1; b64_ratio 2 1; b64_ratio 3 1]) as (c & Hc & W).
  - right. split; reflexivity.
  - reflexivity.
  - cbn. lia.
  - repeat constructor; try (vm_compute; reflexivity); destruct small_ints as (E1 & E2 & E3); rewrite ?E1, ?E2, ?E3; lra.
  - destruct small_ints as (E1 & E2 & E3). cbn [map]. rewrite E1, E2, E3. repeat constructor; lra.
  - exact sun_like.
  - exists c. split; [exact Hc|]. cbn [sun_doubles so_irradiance map Rtrapz] in W. destruct small_ints as (E1 & E2 & E3). rewrite E1, E2, E3 in W.
    change (to_R (b64_ratio 0 1)) with 0 in W. replace (5 / 2) with ((2 - 1) * (2 + 1) / 2 + ((3 - 2) * (0 + 2) / 2 + 0)) by lra. exact W.
Qed.

(** A band at least one step wide: the call succeeds; it resamples on doubles in
    order from the first to the last sample, of which none is masked away; and
    flux and irradiance are the trapezoidal integral and the quotient of integrals
    of the resampled data to 5 parts in 10^12. *)
Theorem C116_in_band : forall lib spline (s : spectrum (B64N lib)) d flux scale det a b f h,
  band64 spline s d scale a b f h -> is_double a -> is_double b -> 1 / 10 ^ 3 <= to_R a -> to_R a + 1 / 10 ^ 6 <= to_R b <= 10 ^ 6 ->
  is_double (so_dlambda s) -> let dl := to_R (so_dlambda s) in 0 < dl -> 1 <= (to_R b - to_R a) / dl <= 9990 ->
  exists n g c, let call := band_calculations (N := B64N lib) spline s (FlatRsr d) flux scale det in
    snd call = Ok c /\ so_ipol (fst call) = Some (g, map h g) /\ (1 <= n)%nat /\ Rabs ((to_R b - to_R a) / dl - INR n) <= 1 / 2 + 1 / 10 ^ 11 /\
    even_doubles a b (S n) g /\ Sorted Rle (map to_R g) /\
    (Forall irradiance_like (map f g) -> Forall irradiance_like (map h g) ->
     let F := Rtrapz (Rvmul (map to_R (map h g)) (map to_R (map f g))) (map to_R g) in let W := Rtrapz (map to_R (map f g)) (map to_R g) in
     if flux then within (5 / 10 ^ 12) c F else 0 < W -> within (5 / 10 ^ 12) c (F / W)).
Proof. exact inband64. Qed.
Print Assumptions C116_in_band.
(** one step from 1 to 2 um, response and spectrum both growing from 1 to 2 *)
Example C116_case_band : exists c e,
  snd (inband_solarflux (N := B64N rounded_lib) growing (sun_doubles rounded_lib) (FlatRsr (detector_doubles rounded_lib)) (b64_ratio 1 1) "det-1") = Ok c /\ within (5 / 10 ^ 12) c (5 / 2) /\
  snd (inband_solarirradiance (N := B64N rounded_lib) growing (sun_doubles rounded_lib) (FlatRsr (detector_doubles rounded_lib)) (b64_ratio 1 1) "det-1") = Ok e /\ within (5 / 10 ^ 12) e (5 / 3).
Proof.
  destruct small_ints as (E1 & E2 & E3). destruct ints_double as (D1 & D2).
  assert (K : forall flux, exists c, snd (band_calculations (N := B64N rounded_lib) growing (sun_doubles rounded_lib) (FlatRsr (detector_doubles rounded_lib)) flux (b64_ratio 1 1) "det-1") = Ok c /\
     within (5 / 10 ^ 12) c (if flux then 5 / 2 else 5 / 3)).
  { intros flux.
    destruct (C116_in_band rounded_lib growing (sun_doubles rounded_lib) (detector_doubles rounded_lib) flux (b64_ratio 1 1) "det-1"%string (b64_ratio 1 1) (b64_ratio 2 1) (fun x => x) (fun x => x))
      as (n & g & c & Hc & _ & N1 & Nn & Ev & _ & W).
    - exact band_doubles.
    - exact D1.
    - exact D2.
    - rewrite E1. lra.
    - rewrite E1, E2. lra.
    - exact D1.
    - cbn [sun_doubles so_dlambda]. rewrite E1. lra.
    - cbn [sun_doubles so_dlambda]. rewrite E1, E2. lra.
    - exists c. split; [exact Hc|]. cbn [sun_doubles so_dlambda] in Nn. rewrite E1, E2 in Nn. apply Rabs_le_inv in Nn.
      assert (n = 1%nat) as -> by (assert (n < 2)%nat by (apply INR_lt; cbn; lra); lia).
      rewrite (two_points _ _ _ Ev), !map_id in W. specialize (W two_like two_like). cbv zeta in W. cbn [map Rvmul combine fst snd Rtrapz] in W. rewrite E1, E2 in W.
      destruct flux.
      + replace (5 / 2) with ((2 - 1) * (2 * 2 + 1 * 1) / 2 + 0) by lra. exact W.
      + replace (5 / 3) with (((2 - 1) * (2 * 2 + 1 * 1) / 2 + 0) / ((2 - 1) * (2 + 1) / 2 + 0)) by lra. apply W. lra. }
  destruct (K true) as (c & Hc & Wc). destruct (K false) as (e & He & We). exists c, e. auto.
Qed.
