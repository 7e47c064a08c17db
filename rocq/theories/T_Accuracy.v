(** Properties C95, C96: how far radiances and temperatures computed in IEEE
    doubles are from the exact values of the formulas. *)
From Coq Require Import ZArith Reals List String SpecFloat Sorting.Sorted.
From Flocq Require Import Core BinarySingleNaN.
From Verif Require Import Base NumSig XR B64 M_Tables M_Utils M_Blackbody M_Rsr M_RadTb S_B64 S_Planck S_RadTb P_B642 P_B64lib P_B64err3.
Import ListNotations.
Local Open Scope R_scope.

(** [lib] is the platform's mathematical library; a correctly rounding one has
    the accuracy asked for: *)
Example C95_case_library : accurate_exp (1 / 10 ^ 15) (m_exp rounded_lib) /\ accurate_log (1 / 10 ^ 15) (m_log rounded_lib).
Proof. exact (conj exp_rounded_accurate log_rounded_accurate). Qed.

(** Planck's function is right to 2 parts in 10^13, in every entry of the table
    it returns: nothing overflows, underflows or cancels. *)
Theorem C95_radiance : forall lib wn waves ts i j w t, accurate_exp (1 / 10 ^ 15) (m_exp lib) -> nth_error waves i = Some w -> nth_error ts j = Some t ->
  double_between (1 / 10 ^ 12) (10 ^ 12) w -> double_between (1 / 100) (10 ^ 6) t -> 1 / 10 <= photon wn (to_R w) (to_R t) <= 100 ->
  exists row b, nth_error (@planck (B64N lib) waves ts (negb wn)) j = Some row /\ nth_error row i = Some b /\
  within (2 / 10 ^ 13) b (Planck wn (to_R w) (to_R t)).
Proof. exact planck_entry. Qed.
Print Assumptions C95_radiance.
(** The inverses are right to 5 parts in 10^14. *)
Theorem C95_temperature : forall lib w rs, accurate_log (1 / 10 ^ 15) (m_log lib) -> double_between (1 / 10 ^ 12) (10 ^ 12) w -> Forall (double_between (1 / 10 ^ 100) (10 ^ 40)) rs ->
  (Forall (fun r => 1 / 10 <= photon false (to_R w) (brightness false (to_R w) (to_R r)) <= 100) rs -> exists ts,
    @blackbody_rad2temp (B64N lib) [NpScalar (w : B64N lib); NpArray (rs : list (B64N lib))] = Ok (NpArray ts) /\
    Forall2 (fun t r => within (5 / 10 ^ 14) t (brightness false (to_R w) (to_R r))) ts rs) /\
  (Forall (fun r => 1 / 10 <= photon true (to_R w) (brightness true (to_R w) (to_R r)) <= 100) rs -> exists ts,
    @blackbody_wn_rad2temp (B64N lib) [NpScalar (w : B64N lib); NpArray (rs : list (B64N lib))] = Ok (NpArray ts) /\
    Forall2 (fun t r => within (5 / 10 ^ 14) t (brightness true (to_R w) (to_R r))) ts rs).
Proof. exact temperatures. Qed.
Print Assumptions C95_temperature.
(** There and back in doubles: the temperature comes back to 3 parts in 10^13. *)
Theorem C95_round_trip : forall lib w ts, accurate_exp (1 / 10 ^ 15) (m_exp lib) -> accurate_log (1 / 10 ^ 15) (m_log lib) ->
  double_between (1 / 10 ^ 12) (10 ^ 12) w -> Forall (double_between (1 / 100) (10 ^ 6)) ts ->
  (Forall (fun t => 1 / 10 <= photon false (to_R w) (to_R t) <= 100) ts -> exists bs ts',
    @blackbody (B64N lib) [w] ts = map (fun b => [b]) bs /\ @blackbody_rad2temp (B64N lib) [NpScalar (w : B64N lib); NpArray (bs : list (B64N lib))] = Ok (NpArray ts') /\
    Forall2 (fun t' t => within (3 / 10 ^ 13) t' (to_R t)) ts' ts) /\
  (Forall (fun t => 1 / 10 <= photon true (to_R w) (to_R t) <= 100) ts -> exists bs ts',
    @blackbody_wn (B64N lib) [w] ts = map (fun b => [b]) bs /\ @blackbody_wn_rad2temp (B64N lib) [NpScalar (w : B64N lib); NpArray (bs : list (B64N lib))] = Ok (NpArray ts') /\
    Forall2 (fun t' t => within (3 / 10 ^ 13) t' (to_R t)) ts' ts).
Proof. exact there_and_back. Qed.
Print Assumptions C95_round_trip.
(** 11 um, 300 K, and 9573177 W/m^2 sr^-1 m^-1 *)
Example C95_case : double_between (1 / 10 ^ 12) (10 ^ 12) (b64_ratio 11 1000000) /\ double_between (1 / 100) (10 ^ 6) (b64_ratio 300 1) /\
  1 / 10 <= photon false (to_R (b64_ratio 11 1000000)) (to_R (b64_ratio 300 1)) <= 100.
Proof. exact case_wave. Qed.
Example C95_case_radiance : 1 / 10 <= photon false (to_R (b64_ratio 11 1000000)) (brightness false (to_R (b64_ratio 11 1000000)) (to_R (b64_ratio 9573177 1))) <= 100.
Proof. exact case_radiance. Qed.

(** Band radiances of a converter, by integration over the response: right to 5
    parts in 10^12 for up to ten thousand samples. *)
Theorem C96_band_radiance : forall lib oob load platform instrument band det wavespace tbr (c : converter (B64N lib)) norm ts,
  accurate_exp (1 / 10 ^ 15) (m_exp lib) -> RadTbConverter load platform instrument band det wavespace tbr = Ok c ->
  (Z.of_nat (List.length (cv_waves c)) <= 10000)%Z -> Forall (double_between (1 / 10 ^ 12) (10 ^ 12)) (cv_waves c) -> Sorted Rle (map to_R (cv_waves c)) ->
  Forall sampled (cv_response c) -> 0 < Rtrapz (map to_R (cv_response c)) (map to_R (cv_waves c)) ->
  ts <> [] -> Forall (double_between (1 / 100) (10 ^ 6)) ts ->
  (forall w t, In w (cv_waves c) -> In t ts -> 1 / 10 <= photon (String.eqb wavespace WAVE_NUMBER) (to_R w) (to_R t) <= 100) ->
  exists rads, tb2radiance oob c ts None norm = Ok rads /\
  Forall2 (fun b t => within (5 / 10 ^ 12) b (band_radiance (String.eqb wavespace WAVE_NUMBER) norm (map to_R (cv_waves c)) (map to_R (cv_response c)) (to_R t))) rads ts.
Proof. exact band_accuracy. Qed.
Print Assumptions C96_band_radiance.
Example C96_case : forall lib, exists c, RadTbConverter (load64 lib) "NOAA-19" "avhrr-3" (BStr "b"%string) "det-1" WAVE_LENGTH (nlit (B64N lib) 1 10) = Ok c /\
  (Z.of_nat (List.length (cv_waves c)) <= 10000)%Z /\ Forall (double_between (1 / 10 ^ 12) (10 ^ 12)) (cv_waves c) /\ Sorted Rle (map to_R (cv_waves c)) /\
  Forall sampled (cv_response c) /\ 0 < Rtrapz (map to_R (cv_response c)) (map to_R (cv_waves c)) /\
  Forall (double_between (1 / 100) (10 ^ 6)) [b64_ratio 300 1] /\
  (forall w t, In w (cv_waves c) -> In t [b64_ratio 300 1] -> 1 / 10 <= photon (String.eqb WAVE_LENGTH WAVE_NUMBER) (to_R w) (to_R t) <= 100).
Proof. exact case_band. Qed.
