(** The constant tables of names, platforms and look-up tables: property C110. *)
From Coq Require Import String Ascii List NArith Bool Arith Lia.
From Verif Require Import Base M_Tables M_Utils M_Rsr S_Names S_Tables P_Tables.
Import ListNotations.
Local Open Scope string_scope.

(** A name of the instrument's own scheme becomes the name of the band; any other
    text stays. *)
Theorem C110_own_names : forall i k, has_names i ->
  (forall b, standard i k b -> translate_band i k = b) /\ ((forall b, ~ standard i k b) -> translate_band i k = k).
Proof. exact translate_names. Qed.
Print Assumptions C110_own_names.

(** Instruments without a scheme share one. *)
Theorem C110_other_instruments : forall i k, ~ has_names i ->
  (forall b, generic_name k b -> translate_band i k = b) /\ ((forall b, ~ generic_name k b) -> translate_band i k = k).
Proof. exact translate_others. Qed.
Print Assumptions C110_other_instruments.

Example C110_own_names_case : has_names "fci" /\ standard "fci" "ir_105" "IR10.5_HR" /\ translate_band "fci" "ir_105" = "IR10.5_HR" /\
  has_names "ami" /\ standard "ami" "SW038" "ch7" /\ translate_band "ami" "SW038" = "ch7" /\ translate_band "ami" "ch7" = "ch7".
Proof.
  split; [unfold has_names; cbn; tauto|]. split; [exact (nm_fci_high "ir_" "IR" 105 ltac:(cbn; tauto))|]. split; [reflexivity|].
  split; [unfold has_names; cbn; tauto|]. split; [exact (nm_ami 6 "SW" 38 eq_refl)|]. split; reflexivity.
Qed.
Example C110_other_instruments_case : ~ has_names "olci" /\ generic_name "21" "ch21" /\ translate_band "olci" "21" = "ch21" /\ translate_band "olci" "Oa21" = "Oa21".
Proof.
  split; [unfold has_names; cbn; intros H; repeat (destruct H as [H|H]; [discriminate|]); exact H|].
  split; [exact (gn_number 21 ltac:(lia))|]. split; reflexivity.
Qed.

(** Indexing the responses of an instrument finds the band of that name, or else the
    band that is meant, and otherwise raises KeyError. *)
Theorem C110_indexing : forall V i (d : dict V) key, i <> "generic" ->
  (forall v, RSRDict_getitem (Some (IOne i)) d key = Ok v <-> dget key d = Some v \/ (dget key d = None /\ exists b, meant i key b /\ dget b d = Some v)) /\
  (forall e, RSRDict_getitem (Some (IOne i)) d key = Err e -> e = KeyError).
Proof. exact indexing. Qed.
Print Assumptions C110_indexing.

Example C110_indexing_case : meant "viirs" "M05" "M5" /\ RSRDict_getitem (Some (IOne "viirs")) [("M5", 5%nat); ("ch7", 7%nat)] "M05" = Ok 5%nat /\
  meant "viirs" "7" "ch7" /\ RSRDict_getitem (Some (IOne "viirs")) [("M5", 5%nat); ("ch7", 7%nat)] "7" = Ok 7%nat /\
  RSRDict_getitem (Some (IOne "viirs")) [("M5", 5%nat); ("ch7", 7%nat)] "M06" = Err KeyError.
Proof.
  split; [left; exact (nm_viirs_m 5 ltac:(lia))|]. split; [reflexivity|]. split; [|split; reflexivity].
  right. split; [|exact (gn_number 7 ltac:(lia))]. intros b H. inversion H.
Qed.

(** Two names of one instrument are two bands, but for the fire channels of SLSTR. *)
Theorem C110_one_band_each : forall i k k' b, standard i k b -> standard i k' b -> k = k' \/ (i = "slstr" /\ (b = "ch7" \/ b = "ch8")).
Proof. exact one_band_each. Qed.
Print Assumptions C110_one_band_each.

(** One name is one band, and a band keeps its name. *)
Theorem C110_name_once : forall i k b b', standard i k b -> standard i k b' -> b = b'.
Proof. exact name_once. Qed.
Print Assumptions C110_name_once.
Theorem C110_band_stays : forall i k b, standard i k b -> translate_band i b = b.
Proof. exact band_stays. Qed.
Print Assumptions C110_band_stays.

Example C110_fire_channels : standard "slstr" "S7" "ch7" /\ standard "slstr" "F1" "ch7" /\ translate_band "slstr" "ch7" = "ch7".
Proof. split; [exact (nm_slstr 7 ltac:(lia))|]. split; [exact (nm_slstr_fire 1 ltac:(lia))|reflexivity]. Qed.

(** What the shared scheme says of an instrument's own name agrees with the
    instrument, except for MODIS, whose bands are plain numbers. *)
Theorem C110_shared_scheme : forall i k b b', i <> "modis" -> standard i k b -> generic_name k b' -> b = b'.
Proof. exact generic_agrees. Qed.
Print Assumptions C110_shared_scheme.

Example C110_shared_scheme_case : standard "avhrr-3" "5" "ch5" /\ generic_name "5" "ch5" /\ standard "modis" "5" "5".
Proof. split; [exact (nm_avhrr "5" ltac:(cbn; tauto))|]. split; [exact (gn_number 5 ltac:(lia))|exact (nm_modis 5 ltac:(lia))]. Qed.

(** ** Platforms and instruments *)
Theorem C110_platforms : forall p i, carries p i <-> fleet p i.
Proof. exact carries_fleet. Qed.
Print Assumptions C110_platforms.

Example C110_platforms_case : fleet "NOAA-18" "avhrr/3" /\ carries "NOAA-18" "avhrr/3" /\ fleet "FY-4B" "ghi" /\ carries "FY-4B" "ghi" /\ ~ fleet "NOAA-13" "avhrr/2".
Proof.
  split; [exact (fl_avhrr3 18 ltac:(lia))|]. split; [left; reflexivity|]. split; [exact fl_ghi|].
  split; [right; exists ["agri"; "ghi"]; split; [reflexivity|cbn; tauto]|]. rewrite <- carries_fleet. intros [H|(l & H & _)]; discriminate H.
Qed.

(** Nine of the eleven schemes belong to an instrument that some platform carries and
    whose name is kept when the responses are opened. *)
Theorem C110_schemes_in_use : forall i, has_names i -> i <> "avhrr-3" -> i <> "VII" ->
  exists p, carries p i /\ check_and_adjust_instrument_name p i = Ok i.
Proof. exact reachable_table. Qed.
Print Assumptions C110_schemes_in_use.

(** That all of them do is false: the schemes of AVHRR/3 and METimage are filed under
    names that no platform's instrument has. *)
Theorem C110_every_scheme_in_use_refuted : forall i, In i ["avhrr-3"; "VII"] -> has_names i /\ forall p, ~ carries p i.
Proof. exact unreachable_table. Qed.
Print Assumptions C110_every_scheme_in_use_refuted.

(** so that a name of the scheme is not found in the responses of the instrument,
    even when the instrument is given as it is filed *)
Theorem C110_own_names_found_refuted : exists p given i (d : dict nat) name band, carries p "avhrr/3" /\ standard given name band /\
  check_and_adjust_instrument_name p given = Ok i /\ dget band d = Some 1%nat /\ RSRDict_getitem (Some (IOne i)) d name = Err KeyError.
Proof. exact lost_names. Qed.
Print Assumptions C110_own_names_found_refuted.

Example C110_schemes_case : carries "Metop-SG-A1" "metimage" /\ check_and_adjust_instrument_name "Metop-SG-A1" "VII" = Ok "metimage" /\
  standard "VII" "vii_443" "vii-4" /\ translate_band "metimage" "vii_443" = "vii_443" /\ check_and_adjust_instrument_name "GOES-16" "abi" = Ok "abi".
Proof. split; [left; reflexivity|]. split; [reflexivity|]. split; [exact (nm_vii 443 4 ltac:(cbn; tauto))|]. split; reflexivity. Qed.

(** ** Look-up tables of the atmospheric correction *)
Theorem C110_aerosol_types : forall t, In t AEROSOL_TYPES <-> t = "rayleigh_only" \/ exists a, In a aerosol_kinds /\ t = a ++ "_aerosol".
Proof. exact types. Qed.
Print Assumptions C110_aerosol_types.

(** Every aerosol type has a version file named after its initials and an address
    named after the type; nothing else has. *)
Theorem C110_luts : forall t, In t AEROSOL_TYPES ->
  dget t ATM_CORRECTION_LUT_VERSION = Some ("v1.0.1", "PYSPECTRAL_ATM_CORR_LUT_" ++ initials t) /\
  dget t HTTPS_RAYLEIGH_LUTS = Some ("https://zenodo.org/record/1288441/files/pyspectral_atm_correction_luts_" ++ (if string_dec t "rayleigh_only" then "no_aerosol" else t) ++ ".tgz").
Proof. exact lut_tables. Qed.
Print Assumptions C110_luts.
Theorem C110_no_other_luts : forall t, ~ In t AEROSOL_TYPES -> dget t ATM_CORRECTION_LUT_VERSION = None /\ dget t HTTPS_RAYLEIGH_LUTS = None.
Proof. exact other_types. Qed.
Print Assumptions C110_no_other_luts.

(** No two types share a version file or an address. *)
Theorem C110_version_files : forall t t' v v' f, dget t ATM_CORRECTION_LUT_VERSION = Some (v, f) -> dget t' ATM_CORRECTION_LUT_VERSION = Some (v', f) -> t = t'.
Proof. exact version_files. Qed.
Print Assumptions C110_version_files.
Theorem C110_addresses : forall t t' u, dget t HTTPS_RAYLEIGH_LUTS = Some u -> dget t' HTTPS_RAYLEIGH_LUTS = Some u -> t = t'.
Proof. exact urls. Qed.
Print Assumptions C110_addresses.

(** The atmospheres are numbered from four. *)
Theorem C110_atmospheres : forall a n, dget a ATMOSPHERES = Some n <-> (4 <= n)%nat /\ nth_error atmospheres (n - 4) = Some a.
Proof. exact atmosphere_numbers. Qed.
Print Assumptions C110_atmospheres.

Example C110_luts_case : In "marine_tropical_aerosol" AEROSOL_TYPES /\ initials "marine_tropical_aerosol" = "MTA" /\
  dget "marine_tropical_aerosol" ATM_CORRECTION_LUT_VERSION = Some ("v1.0.1", "PYSPECTRAL_ATM_CORR_LUT_MTA") /\
  dget "rayleigh_only" HTTPS_RAYLEIGH_LUTS = Some "https://zenodo.org/record/1288441/files/pyspectral_atm_correction_luts_no_aerosol.tgz" /\
  ~ In "no_aerosol" AEROSOL_TYPES /\ dget "tropical" ATMOSPHERES = Some 8%nat.
Proof.
  split; [cbn; tauto|]. split; [reflexivity|]. split; [reflexivity|]. split; [reflexivity|]. split; [|reflexivity].
  cbn. intros H. repeat (destruct H as [H|H]; [discriminate|]). exact H.
Qed.
