(** The fake data of pyspectral.testing: property C108. *)
From Coq Require Import Reals Lra Lia ZArith String Ascii List Bool.
From Verif Require Import Base NumSig XR M_Tables M_Utils M_Solar M_Nir M_RadTb M_Rayleigh M_World M_Download M_Rsr M_Fake
     S_Solar S_Nir S_Rayleigh S_Effective S_Fake P_Fake P_Fake2 P_Fake3 Samples Samples4.
Import ListNotations.
Local Open Scope string_scope.
Local Open Scope R_scope.

(** C108.  Every instrument name has its table of band names; the mock offers
    exactly the standard names of it, each with the wavelength asked for. *)
Theorem C108_band_table : forall i, exists t, band_table i t /\ forall t', band_table i t' -> t' = t.
Proof.
  intros i. destruct (table_exists i) as [t T]. exists t. split; [exact T|]. intros t' T'.
  destruct T as [(A & [[B ->]|[B ->]])|(A & [B|[B ->]])]; destruct T' as [(A' & [[B' ->]|[B' ->]])|(A' & [B'|[B' ->]])]; try contradiction; congruence.
Qed.
Print Assumptions C108_band_table.

Theorem C108_fake_responses : forall dir (central : dict R) platform sensor i t,
  check_and_adjust_instrument_name platform sensor = Ok i -> plain i -> plain platform -> band_table i t ->
  exists s, @mocked_response XRN dir (dmap Fin central) platform sensor = Ok s /\
    rs_instrument s = Some (IOne i) /\ rs_wavespace s = "wavelength" /\ rs_unit s = "1e-6 m" /\
    NoDup (dkeys (rs_rsr s)) /\ (forall b, In b (dkeys (rs_rsr s)) <-> In b (map snd t)) /\
    (forall b, In b (map snd t) -> dget b (rs_rsr s) = Some (saw_tooth (wanted t central b))).
Proof. exact mocked_ok. Qed.
Print Assumptions C108_fake_responses.

Theorem C108_user_names : forall dir (central : dict R) platform sensor i t n b,
  check_and_adjust_instrument_name platform sensor = Ok i -> plain i -> plain platform -> band_table i t -> ~ is_avhrr i -> dget n t = Some b ->
  exists s, @mocked_response XRN dir (dmap Fin central) platform sensor = Ok s /\
    RSRDict_getitem (rs_instrument s) (rs_rsr s) n = Ok (saw_tooth (wanted t central b)).
Proof. exact by_user_name. Qed.
Print Assumptions C108_user_names.

(** SEVIRI with a wavelength for VIS006 *)
Example C108_case_seviri : exists s, @mocked_response XRN "/tmp/x" (dmap Fin [("VIS006", 635 / 1000)]) "Meteosat-10" "seviri" = Ok s /\
  dget "VIS0.6" (rs_rsr s) = Some (saw_tooth (635 / 1000)) /\ dget "IR10.8" (rs_rsr s) = Some (saw_tooth (46 / 100)) /\
  dget "ch1" (rs_rsr s) = None /\ RSRDict_getitem (rs_instrument s) (rs_rsr s) "VIS006" = Ok (saw_tooth (635 / 1000)).
Proof.
  assert (T : band_table "seviri" BN_seviri) by (right; split; [intros [r Hr]; discriminate|left; reflexivity]).
  assert (A : check_and_adjust_instrument_name "Meteosat-10" "seviri" = Ok "seviri") by reflexivity.
  assert (Hi : plain "seviri") by (split; reflexivity). assert (Hp : plain "Meteosat-10") by (split; reflexivity).
  destruct (C108_fake_responses "/tmp/x" [("VIS006", 635 / 1000)] _ _ _ _ A Hi Hp T) as (s & E & _ & _ & _ & _ & K & G).
  destruct (C108_user_names "/tmp/x" [("VIS006", 635 / 1000)] _ _ _ _ "VIS006" "VIS0.6" A Hi Hp T) as (s' & E' & U); [intros [r Hr]; discriminate|reflexivity|].
  assert (s' = s) by (rewrite E in E'; injection E'; auto). subst s'. exists s. split; [exact E|]. split; [|split; [|split]].
  - rewrite G by (cbn; tauto). reflexivity.
  - rewrite G by (cbn; tauto). reflexivity.
  - apply dget_in_keys. rewrite K. cbn. intuition discriminate.
  - exact U.
Qed.

(** Finding: names of the AVHRR table are not understood. *)
Theorem C108_avhrr_user_names_refuted : forall dir (central : dict R), exists s,
  @mocked_response XRN dir (dmap Fin central) "NOAA-19" "avhrr-3" = Ok s /\
  dget "3b" BN_avhrr_3 = Some "ch3b" /\ dget "ch3b" (rs_rsr s) = Some (saw_tooth (wanted BN_avhrr_3 central "ch3b")) /\
  RSRDict_getitem (rs_instrument s) (rs_rsr s) "3b" = Err KeyError.
Proof. exact avhrr_alias_missing. Qed.
Print Assumptions C108_avhrr_user_names_refuted.

(** Opened by file name, the names come out of the file name. *)
Theorem C108_names_from_file : forall dir (central : dict R) platform i t, lower i = i -> plain i -> plain platform -> band_table i t ->
  exists j s, @mocked_response_from_file XRN (dmap Fin central) (join dir (get_rsr_filename platform i)) = Ok (platform, j, s) /\
    (~ is_avhrr i -> j = i) /\ (forall p c, is_avhrr i -> i = p ++ String c "" -> j = "avhrr/" ++ String c "") /\
    rs_instrument s = Some (IOne j) /\
    (forall b, In b (map snd t) -> dget b (rs_rsr s) = Some (saw_tooth (wanted t central b))).
Proof. exact mocked_file. Qed.
Print Assumptions C108_names_from_file.

Example C108_case_file : exists s, @mocked_response_from_file XRN [] "/tmp/x/rsr_avhrr3_NOAA-19.h5" = Ok ("NOAA-19", "avhrr/3", s) /\
  dget "ch3b" (rs_rsr s) = Some (saw_tooth (46 / 100)).
Proof.
  destruct (C108_names_from_file "/tmp/x" [] "NOAA-19" "avhrr3" BN_avhrr_3) as (j & s & E & _ & J & _ & G);
    [reflexivity|split; reflexivity|split; reflexivity|left; split; [now exists "3"|left; split; [now exists "avhrr"|reflexivity]]|].
  rewrite (J "avhrr" "3"%char) in E by (now exists "3" || reflexivity). exists s. split; [exact E|]. rewrite G by (cbn; tauto). reflexivity.
Qed.

(** Finding: an instrument name with an underscore is cut. *)
Theorem C108_names_from_file_refuted : forall dir (central : dict R), exists i s,
  check_and_adjust_instrument_name "Landsat-8" "oli_tirs" = Ok i /\
  @mocked_response_from_file XRN (dmap Fin central) (join dir (get_rsr_filename "Landsat-8" i)) = Ok ("tirs", "oli", s).
Proof. exact landsat_file. Qed.
Print Assumptions C108_names_from_file_refuted.

(** Without wavelengths asked for, all bands are at 0.46: searching there never
    gives one band. *)
Theorem C108_same_wavelength : forall dir platform sensor i t name eps (multiple : bool),
  check_and_adjust_instrument_name platform sensor = Ok i -> plain i -> plain platform -> band_table i t -> 0 < eps ->
  exists s, @mocked_response XRN dir [] platform sensor = Ok s /\
    if multiple then exists l, get_bandname_from_wavelength name (Fin (46 / 100)) (rs_rsr s) (Fin eps) true = Ok (BNames l)
    else get_bandname_from_wavelength name (Fin (46 / 100)) (rs_rsr s) (Fin eps) false = Err AttributeError.
Proof. exact same_wavelength. Qed.
Print Assumptions C108_same_wavelength.

Example C108_case_same : exists s, @mocked_response XRN "/tmp/x" [] "Suomi-NPP" "viirs" = Ok s /\
  get_bandname_from_wavelength "viirs" (Fin (46 / 100)) (rs_rsr s) (Fin (1 / 10)) false = Err AttributeError.
Proof.
  apply (C108_same_wavelength "/tmp/x" "Suomi-NPP" "viirs" "viirs" BN_viirs "viirs" (1 / 10) false);
    [reflexivity|split; reflexivity|split; reflexivity|right; split; [intros [r Hr]; discriminate|left; reflexivity]|lra].
Qed.

(** ** The fake Rayleigh table *)
Theorem C108_table_in_use : (exists lut, @fake_rayleigh_file XRN None = Ok lut /\ holds lut (even_grid 400 800 80) (even_grid 1 (2475 / 100) 95)
    (even_grid 0 180 18) (even_grid 1 3 8) (map (fun v => repeat v (96 * (19 * 9))) (even_grid (668 / 1000) (115 / 1000) 80)) (2475 / 100) 3) /\
  forall own, @fake_rayleigh_file XRN (Some own) = Ok own.
Proof. split; [exact fake_table_ok|reflexivity]. Qed.
Print Assumptions C108_table_in_use.

(** Inside 400..800 nm the correction depends on the wavelength only (and on the
    red band), whatever the angles; also for zenith angles that are NaN. *)
Theorem C108_correction : forall oob dask load platform sensor band lut w s sun sat azi red,
  @fake_rayleigh_file XRN None = Ok lut ->
  effective_wavelength load platform sensor band = Ok (Fin w) -> 400 < w < 800 -> ray_image s sun sat azi red ->
  exists r, get_reflectance oob dask load platform sensor (Some lut) sun sat azi band red = Ok r /\ fits s r /\
    forall k a, (k < size s)%nat -> pix k (r_arr azi) = Some (Fin a) ->
      match red with
      | None => pix k r = Some (Fin (fake_correction w))
      | Some rd => forall b, pix k (r_arr rd) = Some (Fin b) -> pix k r = Some (Fin (percent (cloud_factor b * fake_correction w)))
      end.
Proof. exact fake_reflectance. Qed.
Print Assumptions C108_correction.

(** at 500 nm 52.975 percent, also where the sun angle is unknown *)
Example C108_case_correction : exists lut r, @fake_rayleigh_file XRN None = Ok lut /\
  get_reflectance (fun _ => 0%Z) true sample_load "NOAA-19" "avhrr-3" (Some lut) ray_sun ray_sat ray_azi (BNumber (Fin (5 / 10))) None = Ok r /\
  pix 0 r = Some (Fin (52975 / 1000)) /\ pix 1 r = Some (Fin (52975 / 1000)).
Proof.
  destruct (proj1 C108_table_in_use) as (lut & E & _).
  assert (Wb : effective_wavelength sample_load "NOAA-19" "avhrr-3" (BNumber (Fin (5 / 10))) = Ok (Fin 500)) by (rewrite ray_band; do 2 f_equal; lra).
  destruct (C108_correction (fun _ => 0%Z) true _ _ _ _ lut 500 _ _ _ _ _ E Wb ltac:(lra) ray_im) as (r & Er & _ & P).
  exists lut, r. split; [exact E|]. split; [exact Er|].
  replace (52975 / 1000) with (fake_correction 500) by (unfold fake_correction; lra).
  split; [apply (P 0%nat 180)|apply (P 1%nat 90)]; try reflexivity; cbn; lia.
Qed.

Theorem C108_no_correction_outside : forall oob dask load platform sensor band lut w s sun sat azi red,
  @fake_rayleigh_file XRN None = Ok lut ->
  effective_wavelength load platform sensor band = Ok (Fin w) -> ~ 400 < w < 800 -> sane dask sun red ->
  fits s (r_arr (match red with None => sun | Some r => r end)) -> ~ (dask = true /\ r_kind sun = Numpy /\ red = None) ->
  exists r, get_reflectance oob dask load platform sensor (Some lut) sun sat azi band red = Ok r /\ fits s r /\
     forall k, (k < size s)%nat ->
       match red with
       | None => pix k r = Some (Fin 0)
       | Some rd => forall b, pix k (r_arr rd) = Some (Fin b) -> pix k r = Some (Fin 0)
       end.
Proof. exact fake_outside. Qed.
Print Assumptions C108_no_correction_outside.

Example C108_case_outside : exists lut r, @fake_rayleigh_file XRN None = Ok lut /\
  get_reflectance (fun _ => 0%Z) false sample_load "NOAA-19" "avhrr-3" (Some lut) ray_sun ray_sat ray_azi (BNumber (Fin (8 / 10))) None = Ok r /\
  pix 0 r = Some (Fin 0).
Proof.
  destruct (proj1 C108_table_in_use) as (lut & E & _).
  assert (Wb : effective_wavelength sample_load "NOAA-19" "avhrr-3" (BNumber (Fin (8 / 10))) = Ok (Fin 800)) by (rewrite ray_band; do 2 f_equal; lra).
  destruct (C108_no_correction_outside (fun _ => 0%Z) false _ _ _ _ lut 800 [2%nat] ray_sun ray_sat ray_azi None E Wb) as (r & Er & _ & P);
    [lra|right; split; [reflexivity|discriminate]|left; split; reflexivity|intros [Q _]; discriminate|].
  exists lut, r. split; [exact E|]. split; [exact Er|]. apply P. cbn. lia.
Qed.

(** ** Both together, by band name *)
Theorem C108_mocked_correction : forall oob dask dir (central : dict R) platform sensor i t n b lut s sun sat azi red,
  check_and_adjust_instrument_name platform sensor = Ok i -> plain i -> plain platform -> band_table i t ->
  In b (map snd t) -> n = b \/ (~ is_avhrr i /\ dget n t = Some b) ->
  @fake_rayleigh_file XRN None = Ok lut -> ray_image s sun sat azi red ->
  let c := wanted t central b in 42 / 100 < c < 78 / 100 ->
  exists r, @get_reflectance XRN oob dask (mocked_response dir (dmap Fin central)) platform sensor (Some lut) sun sat azi (BStr n) red = Ok r /\ fits s r /\
    forall k a, (k < size s)%nat -> pix k (r_arr azi) = Some (Fin a) ->
      match red with
      | None => pix k r = Some (Fin (fake_correction (1000 * saw_wavelength c)))
      | Some rd => forall x, pix k (r_arr rd) = Some (Fin x) -> pix k r = Some (Fin (percent (cloud_factor x * fake_correction (1000 * saw_wavelength c))))
      end.
Proof. exact mocked_correction. Qed.
Print Assumptions C108_mocked_correction.

Theorem C108_correction_bounds : forall c, 2 / 100 < c ->
  fake_correction (1000 * (c + 2 / 100)) <= fake_correction (1000 * saw_wavelength c) <= fake_correction (1000 * (c - 2 / 100)).
Proof. exact correction_bounds. Qed.
Print Assumptions C108_correction_bounds.

(** mock_rayleigh asks for no wavelengths: every band of every instrument gets
    one and the same correction *)
Example C108_case_default : exists v, 5574 / 100 <= v <= 6127 / 100 /\
  forall lut, @fake_rayleigh_file XRN None = Ok lut -> forall platform sensor b, In (platform, sensor, b)
    [("Meteosat-10", "seviri", "VIS0.6"); ("Meteosat-10", "seviri", "VIS006"); ("Suomi-NPP", "viirs", "M1"); ("NOAA-19", "avhrr-3", "ch1")] ->
  exists r, @get_reflectance XRN (fun _ => 0%Z) true (mocked_response "/tmp/x" []) platform sensor (Some lut) ray_sun ray_sat ray_azi (BStr b) None = Ok r /\
    pix 0 r = Some (Fin v) /\ pix 1 r = Some (Fin v).
Proof.
  exists (fake_correction (1000 * saw_wavelength (46 / 100))). split.
  { pose proof (C108_correction_bounds (46 / 100) ltac:(lra)) as B. unfold fake_correction in *. lra. }
  intros lut E platform sensor b H.
  assert (K : forall i t n bb, check_and_adjust_instrument_name platform sensor = Ok i -> plain i -> plain platform -> band_table i t ->
    In bb (map snd t) -> n = bb \/ (~ is_avhrr i /\ dget n t = Some bb) ->
    exists r, @get_reflectance XRN (fun _ => 0%Z) true (mocked_response "/tmp/x" []) platform sensor (Some lut) ray_sun ray_sat ray_azi (BStr n) None = Ok r /\
      pix 0 r = Some (Fin (fake_correction (1000 * saw_wavelength (46 / 100)))) /\ pix 1 r = Some (Fin (fake_correction (1000 * saw_wavelength (46 / 100))))).
  { intros i t n bb A Hi Hp T Hb Hn.
    destruct (C108_mocked_correction (fun _ => 0%Z) true "/tmp/x" [] platform sensor i t n bb lut _ _ _ _ _ A Hi Hp T Hb Hn E ray_im) as (r & Er & _ & P); [cbn; lra|].
    exists r. split; [exact Er|]. split; [apply (P 0%nat 180)|apply (P 1%nat 90)]; try reflexivity; cbn; lia. }
  cbn [In] in H. destruct H as [[= <- <- <-]|[[= <- <- <-]|[[= <- <- <-]|[[= <- <- <-]|[]]]]].
  - apply (K "seviri" BN_seviri _ "VIS0.6"); [reflexivity|split; reflexivity|split; reflexivity|right; split; [intros [r Hr]; discriminate|now left]|cbn; tauto|now left].
  - apply (K "seviri" BN_seviri _ "VIS0.6"); [reflexivity|split; reflexivity|split; reflexivity|right; split; [intros [r Hr]; discriminate|now left]|cbn; tauto|].
    right. split; [intros [r Hr]; discriminate|reflexivity].
  - apply (K "viirs" BN_viirs _ "M1"); [reflexivity|split; reflexivity|split; reflexivity|right; split; [intros [r Hr]; discriminate|now left]|cbn; tauto|now left].
  - apply (K "avhrr3" BN_avhrr_3 _ "ch1"); [reflexivity|split; reflexivity|split; reflexivity| |cbn; tauto|now left].
    left. split; [now exists "3"|left; split; [now exists "avhrr"|reflexivity]].
Qed.
