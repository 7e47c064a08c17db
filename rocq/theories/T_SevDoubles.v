(** Property C114: the SEVIRI conversions in IEEE doubles. *)
From Coq Require Import ZArith Reals List String SpecFloat.
From Flocq Require Import Core BinarySingleNaN.
From Verif Require Import Base NumSig XR B64 M_Tables M_Utils M_Blackbody M_Rsr M_RadTb S_B64 S_Planck S_Seviri S_SevDoubles P_B64lib P_B64err3 P_SevDoubles.
Import ListNotations.
Local Open Scope R_scope.

(** The channels that convert are those with published coefficients. *)
Theorem C114_channels : forall p s, seviri_supported p s <-> exists vc a b, seviri_published p s vc a b.
Proof. exact published_iff. Qed.
Print Assumptions C114_channels.

(** Over the reals the conversions are Planck's law with these coefficients. *)
Theorem C114_exact : forall p s wsp tbr c vc a b, @SeviriRadTbConverter XRN p (BStr s) wsp tbr = Ok c -> seviri_published p s vc a b ->
  (forall ts, Forall (fun t => 0 <= t) ts -> @seviri_tb2radiance XRN c (map Fin ts) false true = Ok (map (fun t => Fin (B_nu (100 * vc) (a * t + b))) ts)) /\
  (forall Ls, Forall (fun l => 0 < l) Ls -> @seviri_radiance2tb XRN c (map Fin Ls) = Ok (map (fun l => Fin ((T_nu (100 * vc) l - b) / a)) Ls)).
Proof. exact seviri_exact. Qed.
Print Assumptions C114_exact.

(** In doubles: from 100 to 1000 K the radiances are right to 2 parts in 10^13. *)
Theorem C114_radiance : forall lib p s wsp tbr c vc a b ts, accurate_exp (1 / 10 ^ 15) (m_exp lib) ->
  @SeviriRadTbConverter (B64N lib) p (BStr s) wsp tbr = Ok c -> seviri_published p s vc a b -> Forall (double_between 100 1000) ts -> exists Ls,
  @seviri_tb2radiance (B64N lib) c ts false true = Ok Ls /\ Forall2 (fun L t => within (2 / 10 ^ 13) L (B_nu (100 * vc) (a * to_R t + b))) Ls ts.
Proof. exact seviri_radiance_accurate. Qed.
Print Assumptions C114_radiance.

(** Temperatures from 100 to 1000 K come out right to 5 parts in 10^14. *)
Theorem C114_temperature : forall lib p s wsp tbr c vc a b Ls, accurate_log (1 / 10 ^ 15) (m_log lib) ->
  @SeviriRadTbConverter (B64N lib) p (BStr s) wsp tbr = Ok c -> seviri_published p s vc a b -> Forall (double_between (1 / 10 ^ 100) (10 ^ 100)) Ls -> exists ts,
  @seviri_radiance2tb (B64N lib) c Ls = Ok ts /\
  Forall2 (fun t L => let e := (T_nu (100 * vc) (to_R L) - b) / a in 100 <= e <= 1000 -> within (5 / 10 ^ 14) t e) ts Ls.
Proof. exact seviri_temperature_accurate. Qed.
Print Assumptions C114_temperature.

(** There and back in doubles: the temperature returns to 2 parts in 10^13. *)
Theorem C114_round_trip : forall lib p s wsp tbr c ts, accurate_exp (1 / 10 ^ 15) (m_exp lib) -> accurate_log (1 / 10 ^ 15) (m_log lib) ->
  @SeviriRadTbConverter (B64N lib) p (BStr s) wsp tbr = Ok c -> seviri_supported p s -> Forall (double_between 100 1000) ts -> exists Ls ts',
  @seviri_tb2radiance (B64N lib) c ts false true = Ok Ls /\ @seviri_radiance2tb (B64N lib) c Ls = Ok ts' /\
  Forall2 (fun t' t => within (2 / 10 ^ 13) t' (to_R t)) ts' ts.
Proof. exact seviri_round_trip_accurate. Qed.
Print Assumptions C114_round_trip.

(** 300 K and 203.2 K in the 10.8 um channel of Meteosat-9 *)
Example C114_case : forall lib, exists c, @SeviriRadTbConverter (B64N lib) "Meteosat-9" (BStr "IR_108"%string) "wavelength" (nlit (B64N lib) 1 10) = Ok c /\
  seviri_published "Meteosat-9" "IR_108" (931700 / 1000) (9983 / 10000) (640 / 1000) /\
  Forall (double_between 100 1000) [b64_ratio 300 1; b64_ratio 2032 10].
Proof. exact case_seviri. Qed.
(** a radiance whose exact temperature is in the range: that of 300 K *)
Example C114_case_radiance : forall lib, accurate_exp (1 / 10 ^ 15) (m_exp lib) -> exists c l,
  @SeviriRadTbConverter (B64N lib) "Meteosat-9" (BStr "IR_108"%string) "wavelength" (nlit (B64N lib) 1 10) = Ok c /\
  double_between (1 / 10 ^ 100) (10 ^ 100) l /\ Rabs ((T_nu 93170 (to_R l) - 640 / 1000) / (9983 / 10000) - 300) <= 1 / 10 ^ 10.
Proof. exact case_seviri_radiance. Qed.
(** a library with the accuracy asked for *)
Example C114_case_library : accurate_exp (1 / 10 ^ 15) (m_exp rounded_lib) /\ accurate_log (1 / 10 ^ 15) (m_log rounded_lib).
Proof. exact (conj exp_rounded_accurate log_rounded_accurate). Qed.
