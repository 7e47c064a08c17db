(** Property theorems C09-C12, C16, C85 (radiance_tb_conversion.py). *)
From Coq Require Import Reals Lra ZArith String List Lia Sorting.Sorted.
From Verif Require Import Base NumSig XR M_Tables M_Utils M_Rsr M_Blackbody M_RadTb
     S_Planck S_RadTb S_Rsr P_Blackbody P_RadTb P_RadTb2 P_RadTb3 P_RadTb4 Samples.
Import ListNotations.
Open Scope R_scope.

(** C09: [n] and [i] are the normalised and the integrated band radiances. *)
Theorem C09_band_radiance_is_weighted_mean :
  forall load platform instrument band det wavespace tbr (c : converter XRN) ws rs oob ts,
  RadTbConverter load platform instrument band det wavespace tbr = Ok c ->
  cv_waves c = map Fin ws -> cv_response c = map Fin rs -> good_curve ws rs ->
  ts <> [] -> Forall (fun t => T_cut < t) ts ->
  exists ns ints,
    tb2radiance oob c (map Fin ts) None true = Ok (map Fin ns) /\
    tb2radiance oob c (map Fin ts) None false = Ok (map Fin ints) /\
    ints = map (fun n => n * Rtrapz rs ws) ns /\
    Forall2 (fun t n => forall m M,
               (forall w, In w ws -> m <= Planck (String.eqb wavespace WAVE_NUMBER) w t <= M) ->
               m <= n <= M) ts ns.
Proof. exact band_mean. Qed.
Print Assumptions C09_band_radiance_is_weighted_mean.

(** For the sample band at 10-12 um and 200, 300 K. *)
Example C09_case :
  exists c n200 n300 M, RadTbConverter sample_load "NOAA-19" "avhrr-3" (BStr "4"%string) "det-1"
                 WAVE_LENGTH (Fin (1/10)) = Ok c /\
    tb2radiance (fun _ => 0%Z) c [Fin 200; Fin 300] None true = Ok [Fin n200; Fin n300] /\
    0 < n200 /\ n300 <= M /\ M = Rmax (B_lambda (10/1000000) 300) (Rmax (B_lambda (11/1000000) 300)
                                    (B_lambda (12/1000000) 300)).
Proof. exact band_mean_case. Qed.

(** the unit that comes with the radiances *)
Theorem C09_units : forall (N : Num) load p i b det wavespace tbr (c : converter N) normalized,
  RadTbConverter load p i b det wavespace tbr = Ok c ->
  tb2radiance_unit c normalized = radiance_unit (if String.eqb wavespace "wavenumber" then "(m^-1)^-1" else "m^-1") normalized.
Proof. exact units. Qed.
Print Assumptions C09_units.

Example C09_units_case : radiance_unit "m^-1" true = "W/m^2 sr^-1 m^-1"%string /\ radiance_unit "m^-1" false = "W/m^2 sr^-1"%string.
Proof. split; reflexivity. Qed.

(** C10 *)
Theorem C10_band_radiance_increases :
  forall load platform instrument band det wavespace tbr (c : converter XRN) ws rs oob t t' norm,
  RadTbConverter load platform instrument band det wavespace tbr = Ok c ->
  cv_waves c = map Fin ws -> cv_response c = map Fin rs -> good_curve ws rs ->
  T_cut < t -> t < t' ->
  exists r r', tb2radiance oob c [Fin t; Fin t'] None norm = Ok [Fin r; Fin r'] /\ 0 < r < r'.
Proof. exact band_incr. Qed.
Print Assumptions C10_band_radiance_increases.

Example C10_case :
  exists c r r', RadTbConverter sample_load "NOAA-19" "avhrr-3" (BStr "4"%string) "det-1"
                 WAVE_LENGTH (Fin (1/10)) = Ok c /\
    tb2radiance (fun _ => 0%Z) c [Fin 280; Fin 280.01] None false = Ok [Fin r; Fin r'] /\ 0 < r < r'.
Proof.
  destruct (sample_converter (1/10)) as (c & Hc & Hw & Hr); [lra|].
  destruct (C10_band_radiance_increases _ _ _ _ _ _ _ c _ _ (fun _ => 0%Z) 280 280.01 false
              Hc Hw Hr good_sample) as (r & r' & H); [unfold T_cut; lra|lra|].
  exists c, r, r'. tauto.
Qed.

(** C11: two converters whose responses differ by a factor, or whose samples
    are reversed. *)
Theorem C11_response_scale :
  forall load1 load2 p1 p2 i1 i2 b1 b2 d1 d2 wavespace tbr1 tbr2 (c1 c2 : converter XRN) ws rs k oob ts,
  RadTbConverter load1 p1 i1 b1 d1 wavespace tbr1 = Ok c1 ->
  RadTbConverter load2 p2 i2 b2 d2 wavespace tbr2 = Ok c2 ->
  cv_waves c1 = map Fin ws -> cv_response c1 = map Fin rs ->
  cv_waves c2 = map Fin ws -> cv_response c2 = map Fin (map (Rmult k) rs) ->
  k <> 0 -> Rtrapz rs ws <> 0 -> ws <> [] -> Forall (fun w => 0 < w) ws ->
  ts <> [] -> Forall (fun t => T_cut < t) ts ->
  tb2radiance oob c2 (map Fin ts) None true = tb2radiance oob c1 (map Fin ts) None true /\
  exists is1, tb2radiance oob c1 (map Fin ts) None false = Ok (map Fin is1) /\
              tb2radiance oob c2 (map Fin ts) None false = Ok (map Fin (map (Rmult k) is1)).
Proof. exact band_scale. Qed.
Print Assumptions C11_response_scale.

Theorem C11_reversed_grid :
  forall load1 load2 p1 p2 i1 i2 b1 b2 d1 d2 wavespace tbr1 tbr2 (c1 c2 : converter XRN) ws rs oob ts,
  RadTbConverter load1 p1 i1 b1 d1 wavespace tbr1 = Ok c1 ->
  RadTbConverter load2 p2 i2 b2 d2 wavespace tbr2 = Ok c2 ->
  cv_waves c1 = map Fin ws -> cv_response c1 = map Fin rs ->
  cv_waves c2 = map Fin (rev ws) -> cv_response c2 = map Fin (rev rs) ->
  Rtrapz rs ws <> 0 -> ws <> [] -> Forall (fun w => 0 < w) ws ->
  ts <> [] -> Forall (fun t => T_cut < t) ts ->
  exists ns, tb2radiance oob c1 (map Fin ts) None true = Ok (map Fin ns) /\
             tb2radiance oob c2 (map Fin ts) None true = Ok (map Fin ns).
Proof. exact band_reversed. Qed.
Print Assumptions C11_reversed_grid.

(** Two real converters meeting the hypotheses: the sample band, and the same
    band from a file with doubled (resp. reversed) samples. *)
Example C11_case :
  (exists c1 c2, RadTbConverter sample_load "NOAA-19" "avhrr-3" (BStr "4"%string) "det-1" WAVE_LENGTH (Fin (1/10)) = Ok c1 /\
     RadTbConverter (one_band_load [Fin 10; Fin 11; Fin 12] [Fin (4/10); Fin 2; Fin (6/10)]) "" ""
                    (BStr "b"%string) "det-1" WAVE_LENGTH (Fin (1/10)) = Ok c2 /\
     cv_waves c2 = map Fin ws_sample /\ cv_response c2 = map Fin (map (Rmult 2) rs_sample)) /\
  (exists c3, RadTbConverter (one_band_load [Fin 12; Fin 11; Fin 10] [Fin (3/10); Fin 1; Fin (2/10)]) "" ""
                    (BStr "b"%string) "det-1" WAVE_LENGTH (Fin (1/10)) = Ok c3 /\
     cv_waves c3 = map Fin (rev ws_sample) /\ cv_response c3 = map Fin (rev rs_sample)) /\
  Rtrapz rs_sample ws_sample <> 0.
Proof. exact band_scale_case. Qed.

(** C12 (a): whatever the temperatures (NaN and infinities included), whatever the
    number format and whatever the platform's float-to-int16 cast does outside its
    range, each result is an entry of the table. *)
Theorem C12_lookup_stays_in_table :
  forall (N : Num) oob (c : converter N) (lut : tblut N) tbs norm t0 s,
  hd_error (lut_tb lut) = Some t0 -> ntrunc N (nmul N t0 (cv_tb_scale c)) = Some s ->
  (-32768 <= s <= 32767)%Z ->
  (1 <= length (lut_radiance lut))%nat -> (Z.of_nat (length (lut_radiance lut)) <= 32768)%Z ->
  exists rs, tb2radiance oob c tbs (Some lut) norm = Ok rs /\ length rs = length tbs /\
             Forall (fun r => In r (lut_radiance lut)) rs.
Proof. exact lut_in_table. Qed.
Print Assumptions C12_lookup_stays_in_table.

(** C12 (b): exact arithmetic, default table; the looked-up value is the one
    calculated directly for the table temperature [ti]. *)
Theorem C12_lookup_accuracy :
  forall oob load platform instrument band det wavespace (c : converter XRN) norm norm' lut t,
  RadTbConverter load platform instrument band det wavespace (Fin (1/10)) = Ok c ->
  make_tb2rad_lut c norm = Ok lut -> 0 <= t <= 32767 / 10 ->
  exists r i ti,
    tb2radiance oob c [Fin t] (Some lut) norm' = Ok [r] /\
    nth_error (lut_radiance lut) i = Some r /\ nth_error (lut_tb lut) i = Some (Fin ti) /\
    tb2radiance oob c [Fin ti] None norm = Ok [r] /\
    (150 <= t < 360 -> ti <= t < ti + 1/10) /\
    (t < 150 -> i = 0%nat /\ ti = 150) /\
    (360 <= t -> S i = length (lut_radiance lut) /\ ti = 3599/10).
Proof. exact lut_accuracy. Qed.
Print Assumptions C12_lookup_accuracy.

Theorem C12_lookup_monotone :
  forall oob load platform instrument band det wavespace (c : converter XRN) norm norm' lut ws rs t t',
  RadTbConverter load platform instrument band det wavespace (Fin (1/10)) = Ok c ->
  make_tb2rad_lut c norm = Ok lut ->
  cv_waves c = map Fin ws -> cv_response c = map Fin rs -> good_curve ws rs ->
  0 <= t -> t <= t' -> t' <= 32767 / 10 ->
  exists r r', tb2radiance oob c [Fin t; Fin t'] (Some lut) norm' = Ok [Fin r; Fin r'] /\ r <= r'.
Proof. exact lut_monotone. Qed.
Print Assumptions C12_lookup_monotone.

Example C12_case : exists c lut,
  RadTbConverter sample_load "NOAA-19" "avhrr-3" (BStr "4"%string) "det-1" WAVE_LENGTH (Fin (1/10)) = Ok c /\
  make_tb2rad_lut c true = Ok lut /\ length (lut_radiance lut) = 2100%nat.
Proof. exact lut_case. Qed.

(** C16 (a): the wave-space check comes before the responses are loaded: its
    failure does not depend on the loader at all; with an accepted wave space
    the loader's failure is what the caller sees. *)
Theorem C16_wavespace_checked_first :
  forall (N : Num) load p i band det wavespace (tbr : N),
  ~ In wavespace ["wavelength"; "wavenumber"]%string ->
  RadTbConverter load p i band det wavespace tbr = Err AttributeError.
Proof. exact wavespace_bad. Qed.
Print Assumptions C16_wavespace_checked_first.

Theorem C16_wavespace_accepted :
  forall (N : Num) p i band det wavespace (tbr : N) e,
  In wavespace ["wavelength"; "wavenumber"]%string -> neqb N tbr n0 = false ->
  RadTbConverter (fun _ _ => Err e) p i band det wavespace tbr = Err e.
Proof. exact wavespace_good. Qed.
Print Assumptions C16_wavespace_accepted.

(** C16 (b): wavenumber space with response data as read from file. *)
Theorem C16_wavenumber_by_name :
  forall (N : Num) load p i name det tbr (s : rsr_state N) bd w r cw,
  load p i = Ok s -> reader_shaped (rs_rsr s) -> neqb N tbr n0 = false ->
  dget (translate_band i name) (rs_rsr s) = Some bd ->
  dget det bd = Some [("response"%string, VArr r); ("wavelength"%string, VArr w);
                      ("central_wavelength"%string, VNum cw)] ->
  length r = length w ->
  exists c, RadTbConverter load p i (BStr name) det WAVE_NUMBER tbr = Ok c /\
    cv_response c = rev r /\
    cv_waves c = map (fun x => nmul N x (nlit N 100 1)) (rev (map wl2wn w)).
Proof. exact wn_byname. Qed.
Print Assumptions C16_wavenumber_by_name.

Theorem C16_wavenumber_by_number_fails :
  forall (N : Num) load p i x det tbr (s : rsr_state N),
  load p i = Ok s -> reader_shaped (rs_rsr s) -> neqb N tbr n0 = false ->
  RadTbConverter load p i (BNumber x) det WAVE_NUMBER tbr = Err KeyError.
Proof. exact wn_bynumber. Qed.
Print Assumptions C16_wavenumber_by_number_fails.

Theorem C16_wavenumber_radiance2tb_fails :
  forall (N : Num) load p i b det tbr (s : rsr_state N) c rad,
  load p i = Ok s -> reader_shaped (rs_rsr s) ->
  RadTbConverter load p i b det WAVE_NUMBER tbr = Ok c ->
  converter_radiance2tb c rad = Err KeyError.
Proof. exact wn_radiance2tb. Qed.
Print Assumptions C16_wavenumber_radiance2tb_fails.

Example C16_case :
  reader_shaped (rs_rsr sample_state) /\
  exists c, RadTbConverter sample_load "NOAA-19" "avhrr-3" (BStr "4"%string) "det-2" WAVE_NUMBER (Fin (1/10)) = Ok c /\
            converter_radiance2tb c (NpArray [Fin 1000000]) = Err KeyError.
Proof. exact wn_case. Qed.

(** C85: radiance2tb inverts Planck's law at the detector's central wavelength
    (given in um). *)
Theorem C85_radiance2tb_inverts_planck : forall load p i b det tbr (s : rsr_state XRN) (c : converter XRN) name bd d cw,
  load p i = Ok s -> RadTbConverter load p i b det WAVE_LENGTH tbr = Ok c -> cv_bandname c = Some name ->
  RSRDict_getitem (rs_instrument s) (rs_rsr s) name = Ok bd -> dget det bd = Some d ->
  dget "central_wavelength"%string d = Some (VNum (Fin cw)) -> 0 < cw ->
  (forall ts, Forall (fun t => 0 < t) ts ->
     converter_radiance2tb c (NpArray (map Fin (map (B_lambda (cw / 10 ^ 6)) ts))) = Ok (NpArray (map Fin ts))) /\
  (forall bs, Forall (fun b => 0 < b) bs -> exists ts,
     converter_radiance2tb c (NpArray (map Fin bs)) = Ok (NpArray (map Fin ts)) /\ Forall (fun t => 0 < t) ts /\
     map (B_lambda (cw / 10 ^ 6)) ts = bs).
Proof. exact radiance2tb_inverts. Qed.
Print Assumptions C85_radiance2tb_inverts_planck.

(** Temperature to band radiance to temperature keeps the order. *)
Theorem C85_roundtrip_keeps_order : forall load p i b det tbr (s : rsr_state XRN) (c : converter XRN) name bd d cw ws rs oob t t',
  load p i = Ok s -> RadTbConverter load p i b det WAVE_LENGTH tbr = Ok c -> cv_bandname c = Some name ->
  RSRDict_getitem (rs_instrument s) (rs_rsr s) name = Ok bd -> dget det bd = Some d ->
  dget "central_wavelength"%string d = Some (VNum (Fin cw)) -> 0 < cw ->
  cv_waves c = map Fin ws -> cv_response c = map Fin rs -> good_curve ws rs -> T_cut < t -> t < t' ->
  exists Ls u u', tb2radiance oob c [Fin t; Fin t'] None true = Ok Ls /\
    converter_radiance2tb c (NpArray Ls) = Ok (NpArray [Fin u; Fin u']) /\ 0 < u < u'.
Proof. exact roundtrip_order. Qed.
Print Assumptions C85_roundtrip_keeps_order.

Example C85_case : exists c, RadTbConverter sample_load "NOAA-19" "avhrr-3" (BStr "4"%string) "det-1" WAVE_LENGTH (Fin (1/10)) = Ok c /\
  converter_radiance2tb c (NpArray [Fin (B_lambda (11 / 10 ^ 6) 280)]) = Ok (NpArray [Fin 280]) /\
  exists Ls u u', tb2radiance (fun _ => 0%Z) c [Fin 280; Fin 280.01] None true = Ok Ls /\
    converter_radiance2tb c (NpArray Ls) = Ok (NpArray [Fin u; Fin u']) /\ 0 < u < u'.
Proof.
  destruct (sample_converter (1/10)) as (c & Hc & Hw & Hr); [lra|]. exists c. split; [exact Hc|].
  assert (Hn : cv_bandname c = Some "ch4"%string).
  { unfold RadTbConverter in Hc. change (check_wavespace WAVE_LENGTH) with (Ok tt) in Hc. cbn [bind] in Hc.
    rewrite n0_fin in Hc. cbn [neqb XRN xeqb] in Hc. replace (Reqb (1 / 10) 0) with false in Hc by (symmetry; apply Reqb_false_iff; lra).
    cbn -[trapezoid Rdiv IZR] in Hc. injection Hc as <-. reflexivity. }
  split.
  - destruct (C85_radiance2tb_inverts_planck _ _ _ _ _ _ sample_state c _ _ _ 11 eq_refl Hc Hn eq_refl eq_refl eq_refl ltac:(lra)) as [H _].
    exact (H [280] ltac:(repeat constructor; lra)).
  - exact (C85_roundtrip_keeps_order _ _ _ _ _ _ sample_state c _ _ _ 11 _ _ (fun _ => 0%Z) 280 280.01 eq_refl Hc Hn eq_refl eq_refl eq_refl ltac:(lra)
             Hw Hr good_sample ltac:(unfold T_cut; lra) ltac:(lra)).
Qed.
