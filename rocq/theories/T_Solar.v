(** Property theorems C28-C32 (solar.py). *)
From Coq Require Import Reals Lra ZArith String List Lia Sorting.Sorted.
From Verif Require Import Base NumSig XR P_Trapz M_Utils M_Solar S_Solar S_Convert P_Solar P_Solar2.
Import ListNotations.
Local Open Scope string_scope.
Local Open Scope R_scope.

(** C28: the spectrum loaded in wavenumber space; sample [k] of the file ends
    up at position [length - 1 - k]. *)
Theorem C28_conversion_conserves_energy :
  forall wl irr dl, List.length irr = List.length wl -> Forall (fun w => w <> 0) wl ->
  exists s irr', SolarIrradianceSpectrum (N := XRN) (map Fin wl) (map Fin irr) dl (Some "wavenumber") = Ok s /\
    so_wavelength s = None /\ so_wavenumber s = Some (map Fin (wavenumbers wl)) /\
    so_irradiance s = map Fin irr' /\ List.length irr' = List.length wl /\
    (forall k w e, nth_error wl k = Some w -> nth_error irr k = Some e ->
       exists nu e', nth_error (wavenumbers wl) (List.length wl - 1 - k) = Some nu /\
                     nth_error irr' (List.length wl - 1 - k) = Some e' /\
                     nu = 10000 / w /\ e' * nu = 1000 * (e * w)) /\
    (Sorted Rlt wl -> Forall (fun w => 0 < w) wl -> Sorted Rlt (wavenumbers wl)).
Proof. exact solar_energy. Qed.
Print Assumptions C28_conversion_conserves_energy.

Example C28_case : exists s, SolarIrradianceSpectrum (N := XRN) (map Fin [1; 2; 4]) (map Fin [4; 2; 1]) None (Some "wavenumber") = Ok s /\
  exists e0 e1 e2, so_irradiance s = [Fin e0; Fin e1; Fin e2] /\ e2 * 10000 = 1000 * (4 * 1) /\ e0 * 2500 = 1000 * (1 * 4).
Proof.
  destruct (C28_conversion_conserves_energy [1; 2; 4] [4; 2; 1] None eq_refl) as (s & irr' & H1 & _ & _ & H2 & H3 & H4 & _).
  { repeat constructor; lra. }
  exists s. split; [exact H1|]. destruct irr' as [|e0 [|e1 [|e2 [|]]]]; try discriminate. exists e0, e1, e2. split; [exact H2|].
  destruct (H4 0%nat 1 4 eq_refl eq_refl) as (nu & e' & A1 & A2 & A3 & A4).
  destruct (H4 2%nat 4 1 eq_refl eq_refl) as (nu' & e'' & B1 & B2 & B3 & B4).
  cbn in A2, B2. injection A2 as <-. injection B2 as <-. subst nu nu'. split; lra.
Qed.

Theorem C28_no_second_conversion : forall s s' : spectrum XRN, solar_convert2wavenumber s = Ok s' ->
  solar_convert2wavenumber s' = Err TypeError.
Proof. exact convert_twice. Qed.
Print Assumptions C28_no_second_conversion.

Example C28_second_case : exists s, solar_convert2wavenumber (sample_sun 1) = Ok s.
Proof. eexists. reflexivity. Qed.

(** C29 *)
Theorem C29_solar_constant_both_spaces :
  forall wl irr q dl dl', List.length irr = List.length wl -> Sorted Rlt wl ->
  Forall (fun w => 0 < w) wl -> Forall (fun e => 0 <= e) irr -> 0 < q -> ratio_at_most q wl ->
  exists s1 s2 C1 C2,
    SolarIrradianceSpectrum (N := XRN) (map Fin wl) (map Fin irr) dl None = Ok s1 /\
    SolarIrradianceSpectrum (N := XRN) (map Fin wl) (map Fin irr) dl' (Some "wavenumber") = Ok s2 /\
    solar_constant s1 = Ok (Fin C1) /\ solar_constant s2 = Ok (Fin C2) /\
    1000 / q * C1 <= C2 <= 1000 * q * C1.
Proof. exact solar_constants. Qed.
Print Assumptions C29_solar_constant_both_spaces.

Example C29_case : exists s1 s2 C2,
    SolarIrradianceSpectrum (N := XRN) (map Fin [1; 2; 4]) (map Fin [4; 2; 1]) None None = Ok s1 /\
    SolarIrradianceSpectrum (N := XRN) (map Fin [1; 2; 4]) (map Fin [4; 2; 1]) None (Some "wavenumber") = Ok s2 /\
    solar_constant s1 = Ok (Fin 6) /\ solar_constant s2 = Ok (Fin C2) /\ 3000 <= C2 <= 12000.
Proof.
  destruct (C29_solar_constant_both_spaces [1; 2; 4] [4; 2; 1] 2 None None eq_refl) as (s1 & s2 & C1 & C2 & H1 & H2 & H3 & H4 & H5).
  - repeat constructor; lra.
  - repeat constructor; lra.
  - repeat constructor; lra.
  - lra.
  - repeat constructor; lra.
  - exists s1, s2, C2. split; [exact H1|]. split; [exact H2|].
    assert (C1 = 6).
    { injection H1 as <-. unfold solar_constant in H3. cbn [so_wavenumber so_wavelength so_irradiance] in H3.
      pose proof (trapezoid_fin [4; 2; 1] [1; 2; 4] eq_refl) as E. cbn [map] in E. change (num XRN) with XR in *.
      rewrite E in H3. injection H3 as <-. cbn [Rtrapz]. lra. }
    subst C1. split; [exact H3|]. split; [exact H4|]. lra.
Qed.

Theorem C29_no_coordinate : forall s : spectrum XRN, so_wavenumber s = None -> so_wavelength s = None ->
  solar_constant s = Err TypeError.
Proof. exact solar_constant_none. Qed.
Print Assumptions C29_no_coordinate.

(** C30: [W] is the equivalent width of the resampled response. *)
Theorem C30_irradiance_is_a_mean :
  forall spline s d k det ws rs dl g h, band_ok spline s d k ws rs dl g h ->
  exists n F W, nearest ((last ws 0 * k - hd 0 ws * k) / dl) n /\
    let grid := even_grid (hd 0 ws * k) (last ws 0 * k) n in
    W = Rtrapz (map g grid) grid /\
    snd (inband_solarflux (N := XRN) spline s (FlatRsr d) (Fin k) det) = Ok (Fin F) /\
    (W <> 0 -> exists I, snd (inband_solarirradiance (N := XRN) spline s (FlatRsr d) (Fin k) det) = Ok (Fin I) /\
               F = I * W /\
               (0 < W -> forall m M, (forall t, In t grid -> 0 <= g t) -> (forall t, In t grid -> m <= h t <= M) -> m <= I <= M)).
Proof. exact inband_mean. Qed.
Print Assumptions C30_irradiance_is_a_mean.

Theorem C30_scaling :
  forall spline s d k det ws rs dl g h c irr, linear_spline spline ->
  band_ok spline s d k ws rs dl g h -> so_irradiance s = map Fin irr ->
  (forall F, snd (inband_solarflux (N := XRN) spline s (FlatRsr d) (Fin k) det) = Ok (Fin F) ->
             snd (inband_solarflux (N := XRN) spline (scaled s c irr) (FlatRsr d) (Fin k) det) = Ok (Fin (c * F))) /\
  (forall I, snd (inband_solarirradiance (N := XRN) spline s (FlatRsr d) (Fin k) det) = Ok (Fin I) ->
             snd (inband_solarirradiance (N := XRN) spline (scaled s c irr) (FlatRsr d) (Fin k) det) = Ok (Fin (c * I))).
Proof. exact inband_scaling. Qed.
Print Assumptions C30_scaling.

Theorem C30_other_detectors_ignored :
  forall spline s b d k det flux, dget det b = Some d -> dget "response" b = None -> dhas "response" d = true ->
  band_calculations (N := XRN) spline s (NestedRsr b) flux k det =
  band_calculations (N := XRN) spline s (FlatRsr d) flux k det.
Proof. exact detector_choice. Qed.
Print Assumptions C30_other_detectors_ignored.

(** the band of P_Solar2: response (t-1)/2 and spectrum 5-t on [2, 3], step 1/2 *)
Example C30_case :
  band_ok chord (sample_sun (1 / 2)) sun_det 1 [2; 5 / 2; 3] [1 / 2; 1; 1] (1 / 2) g_sun h_sun /\
  linear_spline chord /\
  snd (inband_solarflux (N := XRN) chord (sample_sun (1 / 2)) (FlatRsr sun_det) (Fin 1) "det-1") = Ok (Fin (29 / 16)) /\
  snd (inband_solarirradiance (N := XRN) chord (sample_sun (1 / 2)) (FlatRsr sun_det) (Fin 1) "det-1") = Ok (Fin (29 / 12)).
Proof. split; [apply sample_band; lra|]. split; [exact chord_linear|]. exact sample_flux_half. Qed.

(** C31 *)
Theorem C31_grids_agree :
  forall spline s d k det flux ws rs dl g h, band_ok spline s d k ws rs dl g h ->
  exists n v, nearest ((last ws 0 * k - hd 0 ws * k) / dl) n /\
    let grid := even_grid (hd 0 ws * k) (last ws 0 * k) n in
    let call := band_calculations (N := XRN) spline s (FlatRsr d) flux (Fin k) det in
    snd call = Ok v /\ so_ipol (fst call) = Some (map Fin grid, map Fin (map h grid)) /\
    List.length grid = S n /\ hd 0 grid = hd 0 ws * k /\ Sorted Rlt grid /\
    ((0 < n)%nat -> last grid 0 = last ws 0 * k /\
       Rabs ((last ws 0 * k - hd 0 ws * k) / INR n - dl) <= dl / (2 * INR n)).
Proof. exact grids_agree. Qed.
Print Assumptions C31_grids_agree.

(** Finding: a band narrower than half the resolution is resampled on one
    point, so the flux is 0 and the irradiance NaN. *)
Theorem C31_narrow_band_refuted :
  forall spline s d k det ws rs dl g h, band_ok spline s d k ws rs dl g h ->
  (last ws 0 * k - hd 0 ws * k) < dl / 2 ->
  snd (inband_solarflux (N := XRN) spline s (FlatRsr d) (Fin k) det) = Ok (Fin 0) /\
  snd (inband_solarirradiance (N := XRN) spline s (FlatRsr d) (Fin k) det) = Ok NaN.
Proof. exact narrow_band. Qed.
Print Assumptions C31_narrow_band_refuted.

Example C31_narrow_case :
  snd (inband_solarflux (N := XRN) chord (sample_sun 3) (FlatRsr sun_det) (Fin 1) "det-1") = Ok (Fin 0) /\
  snd (inband_solarirradiance (N := XRN) chord (sample_sun 3) (FlatRsr sun_det) (Fin 1) "det-1") = Ok NaN.
Proof.
  apply (C31_narrow_band_refuted chord (sample_sun 3) sun_det 1 "det-1" _ _ _ _ _ (sample_band 3 ltac:(lra))).
  cbn [hd last]. lra.
Qed.

(** C32 *)
Theorem C32_calls_do_not_interfere :
  forall spline l s, Forall keeps_resolution l ->
  solar_run spline s l = map (fun c => snd (solar_step spline s c)) l.
Proof. exact histories_independent. Qed.
Print Assumptions C32_calls_do_not_interfere.

Example C32_case :
  let call := SFlux (FlatRsr sun_det) (Fin 1) "det-1" in
  solar_run chord (sample_sun (1 / 2)) [call; SConst; call] =
    [SNum (Ok (Fin (29 / 16))); SNum (solar_constant (sample_sun (1 / 2))); SNum (Ok (Fin (29 / 16)))].
Proof.
  cbv zeta. rewrite C32_calls_do_not_interfere by (repeat constructor). cbn [map].
  assert (E : snd (solar_step chord (sample_sun (1 / 2)) (SFlux (FlatRsr sun_det) (Fin 1) "det-1")) = SNum (Ok (Fin (29 / 16)))).
  { cbn [solar_step]. pose proof (proj1 sample_flux_half) as E. destruct (inband_solarflux _ _ _ _ _). cbn in E. now rewrite E. }
  rewrite E. reflexivity.
Qed.

(** An [interpolate] call with a resolution changes what later calls return. *)
Theorem C32_resolution_sticks :
  exists (spline : list XR -> list XR -> res (XR -> XR)) (s : spectrum XRN) rsr k det dl F F',
  solar_run spline s [SFlux rsr k det] = [SNum (Ok F)] /\
  solar_run spline s [SInterp (Some dl) None; SFlux rsr k det] = [SUnit (Ok tt); SNum (Ok F')] /\ F <> F'.
Proof. exact resolution_sticks. Qed.
Print Assumptions C32_resolution_sticks.
