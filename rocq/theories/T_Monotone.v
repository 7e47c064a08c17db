(** Properties C93, C94: rounding never reverses an order.  Radiances and
    temperatures as the machine computes them, in IEEE doubles. *)
From Coq Require Import ZArith Reals List String SpecFloat Sorting.Sorted.
From Flocq Require Import Core BinarySingleNaN.
From Verif Require Import Base NumSig B64 M_Tables M_Utils M_Blackbody M_Rsr M_RadTb S_B64 P_B642 P_B64band P_B64lib.
Import ListNotations.
Local Open Scope R_scope.

(** [lib] is the platform's mathematical library; what is asked of its exp and
    log is stated each time, and a correctly rounding library has it: *)
Example C93_case_library : monotone_exp (m_exp rounded_lib) /\ monotone_log (m_log rounded_lib) /\ accurate_exp (1 / 10 ^ 13) (m_exp rounded_lib).
Proof. exact (conj exp_rounded_monotone (conj log_rounded_monotone exp_rounded_accurate13)). Qed.

(** Planck's function: a temperature at least as high gives a radiance at least
    as high, at every wavelength or wavenumber, however close the temperatures
    and whatever overflows or underflows on the way; no result is NaN. *)
Theorem C93_planck_monotone : forall lib wl waves ts ts', monotone_exp (m_exp lib) -> Forall (double_between (1 / 10 ^ 12) (10 ^ 12)) waves ->
  Forall (fun t => encodable t /\ le_double (b64_ratio 1 1000) t) ts -> Forall encodable ts' -> Forall2 le_double ts ts' ->
  Forall2 (Forall2 le_double) (@planck (B64N lib) waves ts wl) (@planck (B64N lib) waves ts' wl).
Proof. exact planck_monotone. Qed.
Print Assumptions C93_planck_monotone.
Example C93_case_planck : Forall encodable [b64_ratio 300 1; b64_ratio 1 1000] /\ Forall2 le_double [b64_ratio 300 1; b64_ratio 1 1000] [b64_ratio 3001 10; S754_infinity false].
Proof. repeat constructor. Qed.

(** The inverses: a radiance at least as high gives a temperature at least as
    high. *)
Theorem C93_rad2temp_monotone : forall lib w rs rs', monotone_log (m_log lib) -> double_between (1 / 10 ^ 12) (10 ^ 12) w ->
  Forall nonnegative rs -> Forall nonnegative rs' -> Forall2 le_double rs rs' -> exists ts ts',
  @blackbody_rad2temp (B64N lib) [NpScalar (w : B64N lib); NpArray (rs : list (B64N lib))] = Ok (NpArray ts) /\
  @blackbody_rad2temp (B64N lib) [NpScalar (w : B64N lib); NpArray (rs' : list (B64N lib))] = Ok (NpArray ts') /\ Forall2 le_double ts ts'.
Proof. exact inverse_monotone. Qed.
Print Assumptions C93_rad2temp_monotone.
Theorem C93_wn_rad2temp_monotone : forall lib w rs rs', monotone_log (m_log lib) -> double_between (1 / 10 ^ 12) (10 ^ 12) w ->
  Forall nonnegative rs -> Forall nonnegative rs' -> Forall2 le_double rs rs' -> exists ts ts',
  @blackbody_wn_rad2temp (B64N lib) [NpScalar (w : B64N lib); NpArray (rs : list (B64N lib))] = Ok (NpArray ts) /\
  @blackbody_wn_rad2temp (B64N lib) [NpScalar (w : B64N lib); NpArray (rs' : list (B64N lib))] = Ok (NpArray ts') /\ Forall2 le_double ts ts'.
Proof. exact wn_inverse_monotone. Qed.
Print Assumptions C93_wn_rad2temp_monotone.
Example C93_case_inverse : nonnegative (b64_ratio 9573177 1) /\ nonnegative (S754_zero false) /\ nonnegative (S754_infinity false) /\
  le_double (b64_ratio 9573177 1) (b64_ratio 95731771 10).
Proof. repeat split; discriminate. Qed.

(** Band radiances by integration over the response. *)
Theorem C94_band_radiance_monotone : forall lib oob (c : converter (B64N lib)) norm ts ts' rads rads', monotone_exp (m_exp lib) -> accurate_exp (1 / 10 ^ 13) (m_exp lib) ->
  Forall (wave_like (String.eqb (cv_wavespace c) WAVE_NUMBER)) (cv_waves c) -> Sorted Rle (map to_R (cv_waves c)) ->
  Forall response_like (cv_response c) -> double_between (1 / 10 ^ 12) (10 ^ 12) (cv_rsr_integral c) ->
  Forall (double_between 1 (10 ^ 6)) ts -> Forall (double_between 1 (10 ^ 6)) ts' -> Forall2 le_double ts ts' ->
  tb2radiance oob c ts None norm = Ok rads -> tb2radiance oob c ts' None norm = Ok rads' -> Forall2 le_double rads rads'.
Proof. exact tb2radiance_monotone. Qed.
Print Assumptions C94_band_radiance_monotone.
(** And from the table, for every double from 0 to 3276.7 K. *)
Theorem C94_table_monotone : forall lib oob load platform instrument band det wavespace (c : converter (B64N lib)) norm norm' lut t t',
  monotone_exp (m_exp lib) -> accurate_exp (1 / 10 ^ 13) (m_exp lib) ->
  RadTbConverter load platform instrument band det wavespace (nlit (B64N lib) 1 10) = Ok c -> make_tb2rad_lut c norm = Ok lut ->
  Forall (wave_like (String.eqb (cv_wavespace c) WAVE_NUMBER)) (cv_waves c) -> Sorted Rle (map to_R (cv_waves c)) ->
  Forall response_like (cv_response c) -> double_between (1 / 10 ^ 12) (10 ^ 12) (cv_rsr_integral c) ->
  double_between 0 (32767 / 10) t -> double_between 0 (32767 / 10) t' -> le_double t t' ->
  exists r r', tb2radiance oob c [t : B64N lib] (Some lut) norm' = Ok [r] /\ tb2radiance oob c [t' : B64N lib] (Some lut) norm' = Ok [r'] /\ le_double r r'.
Proof. exact lookup_monotone. Qed.
Print Assumptions C94_table_monotone.
Example C94_case : forall lib, exists c lut,
  RadTbConverter (load64 lib) "NOAA-19" "avhrr-3" (BStr "b"%string) "det-1" WAVE_LENGTH (nlit (B64N lib) 1 10) = Ok c /\
  make_tb2rad_lut c true = Ok lut /\
  Forall (wave_like (String.eqb (cv_wavespace c) WAVE_NUMBER)) (cv_waves c) /\ Sorted Rle (map to_R (cv_waves c)) /\
  Forall response_like (cv_response c) /\ double_between (1 / 10 ^ 12) (10 ^ 12) (cv_rsr_integral c).
Proof. exact case_converter. Qed.

(** The SEVIRI conversions, both ways, for every channel and satellite. *)
Theorem C94_seviri_monotone : forall lib (c : seviri) xs xs' ys ys', Forall nonnegative xs -> Forall nonnegative xs' -> Forall2 le_double xs xs' ->
  (monotone_exp (m_exp lib) -> @seviri_tb2radiance (B64N lib) c xs false true = Ok ys -> @seviri_tb2radiance (B64N lib) c xs' false true = Ok ys' -> Forall2 le_double ys ys') /\
  (monotone_log (m_log lib) -> @seviri_radiance2tb (B64N lib) c xs = Ok ys -> @seviri_radiance2tb (B64N lib) c xs' = Ok ys' -> Forall2 le_double ys ys').
Proof. exact seviri_monotone. Qed.
Print Assumptions C94_seviri_monotone.
Example C94_case_seviri : forall lib, exists ys zs, let c := {| sv_platform := "Meteosat-9"; sv_bandname := "IR10.8" |} in
  @seviri_tb2radiance (B64N lib) c [b64_ratio 300 1] false true = Ok ys /\ @seviri_radiance2tb (B64N lib) c [b64_ratio 1 100000] = Ok zs.
Proof. intros lib. do 2 eexists. split; reflexivity. Qed.
