(** Selecting a band by its wavelength: property C100. *)
From Coq Require Import Reals Lra ZArith String List Bool.
From Verif Require Import Base NumSig XR M_Tables M_Utils M_Rsr M_Blackbody M_RadTb M_Solar M_World M_Download M_Nir
     S_Select P_Tight P_Select Samples Samples2 Samples3 P_Nir6.
Import ListNotations.
Local Open Scope R_scope.

(** One band within 0.1 um: what follows is as if its name had been given. *)
Theorem C100_one_band : forall load p i det x tbr (s : rsr_state XRN) k c, load p i = Ok s -> well_centred (rs_rsr s) -> tbr <> Fin 0 ->
  centred (rs_rsr s) k c -> Rabs (c - x) < 1 / 10 ->
  (forall k' c', centred (rs_rsr s) k' c' -> Rabs (c' - x) < 1 / 10 -> k' = k) ->
  same_conversions (RadTbConverter load p i (BNumber (Fin x)) det WAVE_LENGTH tbr) (RadTbConverter load p i (BStr k) det WAVE_LENGTH tbr).
Proof. exact by_number_one. Qed.
Print Assumptions C100_one_band.

Theorem C100_no_band : forall load p i det x tbr (s : rsr_state XRN), load p i = Ok s -> well_centred (rs_rsr s) -> tbr <> Fin 0 ->
  (forall k c, centred (rs_rsr s) k c -> 1 / 10 <= Rabs (c - x)) ->
  RadTbConverter load p i (BNumber (Fin x)) det WAVE_LENGTH tbr = Err KeyError.
Proof. exact by_number_none. Qed.
Print Assumptions C100_no_band.

Theorem C100_several_bands : forall load p i det x tbr (s : rsr_state XRN) k c k' c', load p i = Ok s -> well_centred (rs_rsr s) -> tbr <> Fin 0 ->
  k <> k' -> centred (rs_rsr s) k c -> centred (rs_rsr s) k' c' -> Rabs (c - x) < 1 / 10 -> Rabs (c' - x) < 1 / 10 ->
  RadTbConverter load p i (BNumber (Fin x)) det WAVE_LENGTH tbr = Err AttributeError.
Proof. exact by_number_several. Qed.
Print Assumptions C100_several_bands.

(** Calculators: whenever the name works, so does any wavelength between 3.5 and
    3.95 um that belongs to this band only; reflectances are the same. *)
Theorem C100_calculator : forall (E : nir_env XRN) p i det fl sz ml w w' x (s : rsr_state XRN) k c cl, nx_load E p i = Ok s -> well_centred (rs_rsr s) ->
  centred (rs_rsr s) k c -> Rabs (c - x) < 1 / 10 ->
  (forall k' c', centred (rs_rsr s) k' c' -> Rabs (c' - x) < 1 / 10 -> k' = k) -> 35 / 10 <= x <= 395 / 100 ->
  Calculator E p i (BStr k) det WAVE_LENGTH fl sz ml w = (w', Ok cl) ->
  exists cl', Calculator E p i (BNumber (Fin x)) det WAVE_LENGTH fl sz ml w = (w', Ok cl') /\ same_reflectances (w', Ok cl') (w', Ok cl).
Proof. exact by_number_calculator. Qed.
Print Assumptions C100_calculator.

(** ch4 at 11 um and ch3b at 3.7 um *)
Example C100_case :
  well_centred sample_data /\ centred sample_data "ch3b" (37 / 10) /\
  (exists cv, RadTbConverter sample_load "NOAA-19" "avhrr-3" (BNumber (Fin (378 / 100))) "det-1" WAVE_LENGTH (Fin (1 / 10)) = Ok cv) /\
  RadTbConverter sample_load "NOAA-19" "avhrr-3" (BNumber (Fin (39 / 10))) "det-1" WAVE_LENGTH (Fin (1 / 10)) = Err KeyError /\
  RadTbConverter twin_load "NOAA-19" "avhrr-3" (BNumber (Fin (1095 / 100))) "det-1" WAVE_LENGTH (Fin (1 / 10)) = Err AttributeError.
Proof. exact select_case. Qed.

Example C100_calculator_case : exists w' cl, Calculator nir_E "NOAA-19" "avhrr-3" (BStr "ch3b"%string) "det-1" WAVE_LENGTH (Some (Fin 10)) None None nir_w0 = (w', Ok cl) /\
  exists cl', Calculator nir_E "NOAA-19" "avhrr-3" (BNumber (Fin (363 / 100))) "det-1" WAVE_LENGTH (Some (Fin 10)) None None nir_w0 = (w', Ok cl').
Proof. exact select_calculator_case. Qed.
