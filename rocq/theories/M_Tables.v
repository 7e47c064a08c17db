(** Constant tables of the package: band names, instruments, aerosol types. *)
From Coq Require Import String Ascii List Bool Arith ZArith DecimalString.
From Verif Require Import Base.
Import ListNotations.

(** [str(n)] for a non-negative int *)
(** the numerals of bandnames.py:4-49 *)
Definition str_nat (n : nat) : string := NilZero.string_of_uint (Nat.to_uint n).

(** ** bandnames.py *)

(** bandnames.py:4-46 *)
Definition BN_generic0 : dict string :=
  [ ("VIS006"%string, "VIS0.6"%string) ;
      ("VIS008"%string, "VIS0.8"%string) ;
      ("IR_016"%string, "NIR1.6"%string) ;
      ("IR_039"%string, "IR3.9"%string) ;
      ("WV_062"%string, "IR6.2"%string) ;
      ("WV_073"%string, "IR7.3"%string) ;
      ("IR_087"%string, "IR8.7"%string) ;
      ("IR_097"%string, "IR9.7"%string) ;
      ("IR_108"%string, "IR10.8"%string) ;
      ("IR_120"%string, "IR12.0"%string) ;
      ("IR_134"%string, "IR13.4"%string) ;
      ("HRV"%string, "HRV"%string) ;
      ("I01"%string, "I1"%string) ;
      ("I02"%string, "I2"%string) ;
      ("I03"%string, "I3"%string) ;
      ("I04"%string, "I4"%string) ;
      ("I05"%string, "I5"%string) ;
      ("M01"%string, "M1"%string) ;
      ("M02"%string, "M2"%string) ;
      ("M03"%string, "M3"%string) ;
      ("M04"%string, "M4"%string) ;
      ("M05"%string, "M5"%string) ;
      ("M06"%string, "M6"%string) ;
      ("M07"%string, "M7"%string) ;
      ("M08"%string, "M8"%string) ;
      ("M09"%string, "M9"%string) ;
      ("C01"%string, "ch1"%string) ;
      ("C02"%string, "ch2"%string) ;
      ("C03"%string, "ch3"%string) ;
      ("C04"%string, "ch4"%string) ;
      ("C05"%string, "ch5"%string) ;
      ("C06"%string, "ch6"%string) ;
      ("C07"%string, "ch7"%string) ;
      ("C08"%string, "ch8"%string) ;
      ("C09"%string, "ch9"%string) ;
      ("C10"%string, "ch10"%string) ;
      ("C11"%string, "ch11"%string) ;
      ("C12"%string, "ch12"%string) ;
      ("C13"%string, "ch13"%string) ;
      ("C14"%string, "ch14"%string) ;
      ("C15"%string, "ch15"%string) ;
      ("C16"%string, "ch16"%string) ].

(** bandnames.py:47-49: [for chan_num in range(1, 37)] adds str(n) -> 'chn' *)
Definition BN_generic : dict string :=
  fold_left (fun d n => dset (str_nat n) ("ch" ++ str_nat n)%string d) (seq 1 36) BN_generic0.

(** bandnames.py:52 *)
Definition BN_modis : dict string := map (fun n => (str_nat n, str_nat n)) (seq 1 36).

(** bandnames.py:54-65 *)
Definition BN_seviri : dict string :=
  [ ("VIS006"%string, "VIS0.6"%string) ;
      ("VIS008"%string, "VIS0.8"%string) ;
      ("IR_016"%string, "NIR1.6"%string) ;
      ("IR_039"%string, "IR3.9"%string) ;
      ("WV_062"%string, "IR6.2"%string) ;
      ("WV_073"%string, "IR7.3"%string) ;
      ("IR_087"%string, "IR8.7"%string) ;
      ("IR_097"%string, "IR9.7"%string) ;
      ("IR_108"%string, "IR10.8"%string) ;
      ("IR_120"%string, "IR12.0"%string) ;
      ("IR_134"%string, "IR13.4"%string) ;
      ("HRV"%string, "HRV"%string) ].

(** bandnames.py:67-81 *)
Definition BN_viirs : dict string :=
  [ ("I01"%string, "I1"%string) ;
      ("I02"%string, "I2"%string) ;
      ("I03"%string, "I3"%string) ;
      ("I04"%string, "I4"%string) ;
      ("I05"%string, "I5"%string) ;
      ("M01"%string, "M1"%string) ;
      ("M02"%string, "M2"%string) ;
      ("M03"%string, "M3"%string) ;
      ("M04"%string, "M4"%string) ;
      ("M05"%string, "M5"%string) ;
      ("M06"%string, "M6"%string) ;
      ("M07"%string, "M7"%string) ;
      ("M08"%string, "M8"%string) ;
      ("M09"%string, "M9"%string) ].

(** bandnames.py:83-88 *)
Definition BN_avhrr_3 : dict string :=
  [ ("1"%string, "ch1"%string) ;
      ("2"%string, "ch2"%string) ;
      ("3b"%string, "ch3b"%string) ;
      ("3a"%string, "ch3a"%string) ;
      ("4"%string, "ch4"%string) ;
      ("5"%string, "ch5"%string) ].

(** bandnames.py:90-106 *)
Definition BN_abi : dict string :=
  [ ("C01"%string, "ch1"%string) ;
      ("C02"%string, "ch2"%string) ;
      ("C03"%string, "ch3"%string) ;
      ("C04"%string, "ch4"%string) ;
      ("C05"%string, "ch5"%string) ;
      ("C06"%string, "ch6"%string) ;
      ("C07"%string, "ch7"%string) ;
      ("C08"%string, "ch8"%string) ;
      ("C09"%string, "ch9"%string) ;
      ("C10"%string, "ch10"%string) ;
      ("C11"%string, "ch11"%string) ;
      ("C12"%string, "ch12"%string) ;
      ("C13"%string, "ch13"%string) ;
      ("C14"%string, "ch14"%string) ;
      ("C15"%string, "ch15"%string) ;
      ("C16"%string, "ch16"%string) ].

(** bandnames.py:108-122 *)
Definition BN_agri : dict string :=
  [ ("C01"%string, "ch1"%string) ;
      ("C02"%string, "ch2"%string) ;
      ("C03"%string, "ch3"%string) ;
      ("C04"%string, "ch4"%string) ;
      ("C05"%string, "ch5"%string) ;
      ("C06"%string, "ch6"%string) ;
      ("C07"%string, "ch7"%string) ;
      ("C08"%string, "ch8"%string) ;
      ("C09"%string, "ch9"%string) ;
      ("C10"%string, "ch10"%string) ;
      ("C11"%string, "ch11"%string) ;
      ("C12"%string, "ch12"%string) ;
      ("C13"%string, "ch13"%string) ;
      ("C14"%string, "ch14"%string) ].

(** bandnames.py:124-140 *)
Definition BN_ahi : dict string :=
  [ ("B01"%string, "ch1"%string) ;
      ("B02"%string, "ch2"%string) ;
      ("B03"%string, "ch3"%string) ;
      ("B04"%string, "ch4"%string) ;
      ("B05"%string, "ch5"%string) ;
      ("B06"%string, "ch6"%string) ;
      ("B07"%string, "ch7"%string) ;
      ("B08"%string, "ch8"%string) ;
      ("B09"%string, "ch9"%string) ;
      ("B10"%string, "ch10"%string) ;
      ("B11"%string, "ch11"%string) ;
      ("B12"%string, "ch12"%string) ;
      ("B13"%string, "ch13"%string) ;
      ("B14"%string, "ch14"%string) ;
      ("B15"%string, "ch15"%string) ;
      ("B16"%string, "ch16"%string) ].

(** bandnames.py:142-158 *)
Definition BN_ami : dict string :=
  [ ("VI004"%string, "ch1"%string) ;
      ("VI005"%string, "ch2"%string) ;
      ("VI006"%string, "ch3"%string) ;
      ("VI008"%string, "ch4"%string) ;
      ("NR013"%string, "ch5"%string) ;
      ("NR016"%string, "ch6"%string) ;
      ("SW038"%string, "ch7"%string) ;
      ("WV063"%string, "ch8"%string) ;
      ("WV069"%string, "ch9"%string) ;
      ("WV073"%string, "ch10"%string) ;
      ("IR087"%string, "ch11"%string) ;
      ("IR096"%string, "ch12"%string) ;
      ("IR105"%string, "ch13"%string) ;
      ("IR112"%string, "ch14"%string) ;
      ("IR123"%string, "ch15"%string) ;
      ("IR133"%string, "ch16"%string) ].

(** bandnames.py:160-176 *)
Definition BN_fci : dict string :=
  [ ("vis_04"%string, "VIS0.4"%string) ;
      ("vis_05"%string, "VIS0.5"%string) ;
      ("vis_06"%string, "VIS0.6_HR"%string) ;
      ("vis_08"%string, "VIS0.8"%string) ;
      ("vis_09"%string, "VIS0.9"%string) ;
      ("nir_13"%string, "NIR1.3"%string) ;
      ("nir_16"%string, "NIR1.6"%string) ;
      ("nir_22"%string, "NIR2.2_HR"%string) ;
      ("ir_38"%string, "IR3.8_HR"%string) ;
      ("wv_63"%string, "WV6.3"%string) ;
      ("wv_73"%string, "WV7.3"%string) ;
      ("ir_87"%string, "IR8.7"%string) ;
      ("ir_97"%string, "IR9.7"%string) ;
      ("ir_105"%string, "IR10.5_HR"%string) ;
      ("ir_123"%string, "IR12.3"%string) ;
      ("ir_133"%string, "IR13.3"%string) ].

(** bandnames.py:178-189 *)
Definition BN_slstr : dict string :=
  [ ("S1"%string, "ch1"%string) ;
      ("S2"%string, "ch2"%string) ;
      ("S3"%string, "ch3"%string) ;
      ("S4"%string, "ch4"%string) ;
      ("S5"%string, "ch5"%string) ;
      ("S6"%string, "ch6"%string) ;
      ("S7"%string, "ch7"%string) ;
      ("S8"%string, "ch8"%string) ;
      ("S9"%string, "ch9"%string) ;
      ("F1"%string, "ch7"%string) ;
      ("F2"%string, "ch8"%string) ].

(** bandnames.py:191-211 *)
Definition BN_VII : dict string :=
  [ ("vii_443"%string, "vii-4"%string) ;
      ("vii_555"%string, "vii-8"%string) ;
      ("vii_668"%string, "vii-12"%string) ;
      ("vii_752"%string, "vii-15"%string) ;
      ("vii_763"%string, "vii-16"%string) ;
      ("vii_865"%string, "vii-17"%string) ;
      ("vii_914"%string, "vii-20"%string) ;
      ("vii_1240"%string, "vii-22"%string) ;
      ("vii_1375"%string, "vii-23"%string) ;
      ("vii_1630"%string, "vii-24"%string) ;
      ("vii_2250"%string, "vii-25"%string) ;
      ("vii_3740"%string, "vii-26"%string) ;
      ("vii_3959"%string, "vii-28"%string) ;
      ("vii_4050"%string, "vii-30"%string) ;
      ("vii_6725"%string, "vii-33"%string) ;
      ("vii_7325"%string, "vii-34"%string) ;
      ("vii_8540"%string, "vii-35"%string) ;
      ("vii_10690"%string, "vii-37"%string) ;
      ("vii_12020"%string, "vii-39"%string) ;
      ("vii_13345"%string, "vii-40"%string) ].

(** bandnames.py:3-: the BANDNAMES dictionary, in insertion order *)
Definition BANDNAMES : dict (dict string) :=
  [ ("generic"%string, BN_generic) ;
    ("modis"%string, BN_modis) ;
    ("seviri"%string, BN_seviri) ;
    ("viirs"%string, BN_viirs) ;
    ("avhrr-3"%string, BN_avhrr_3) ;
    ("abi"%string, BN_abi) ;
    ("agri"%string, BN_agri) ;
    ("ahi"%string, BN_ahi) ;
    ("ami"%string, BN_ami) ;
    ("fci"%string, BN_fci) ;
    ("slstr"%string, BN_slstr) ;
    ("VII"%string, BN_VII) ].

(** The expression [BANDNAMES.get(sensor, BANDNAMES['generic']).get(band, band)] that
    occurs in utils.py:247, radiance_tb_conversion.py:129 and 264 and
    near_infrared_reflectance.py:78. *)
Definition translate_band (sensor band : string) : string :=
  let table := match dget sensor BANDNAMES with Some t => t | None => BN_generic end in
  match dget band table with Some b => b | None => band end.

(** utils.py:30 *)
Definition WAVE_LENGTH : string := "wavelength"%string.

(** utils.py:31 *)
Definition WAVE_NUMBER : string := "wavenumber"%string.

(** ** utils.py *)
(** An INSTRUMENTS value is one name or a list of names. *)
(** the values of utils.py:33-91 *)
Inductive instr_entry := IOne (s : string) | IList (l : list string).

(** utils.py:33-91 *)
Definition INSTRUMENTS : dict instr_entry :=
  [ ("Envisat"%string, IOne "aatsr"%string) ;
    ("GOES-16"%string, IOne "abi"%string) ;
    ("GOES-17"%string, IOne "abi"%string) ;
    ("GOES-18"%string, IOne "abi"%string) ;
    ("GOES-19"%string, IOne "abi"%string) ;
    ("FY-4A"%string, IOne "agri"%string) ;
    ("FY-4B"%string, IList ["agri"%string; "ghi"%string]) ;
    ("Himawari-8"%string, IOne "ahi"%string) ;
    ("Himawari-9"%string, IOne "ahi"%string) ;
    ("GEO-KOMPSAT-2A"%string, IOne "ami"%string) ;
    ("GEO-KOMPSAT-2B"%string, IOne "goci-2"%string) ;
    ("NOAA-10"%string, IOne "avhrr/1"%string) ;
    ("NOAA-6"%string, IOne "avhrr/1"%string) ;
    ("NOAA-8"%string, IOne "avhrr/1"%string) ;
    ("TIROS-N"%string, IOne "avhrr/1"%string) ;
    ("NOAA-11"%string, IOne "avhrr/2"%string) ;
    ("NOAA-12"%string, IOne "avhrr/2"%string) ;
    ("NOAA-14"%string, IOne "avhrr/2"%string) ;
    ("NOAA-7"%string, IOne "avhrr/2"%string) ;
    ("NOAA-9"%string, IOne "avhrr/2"%string) ;
    ("Metop-A"%string, IOne "avhrr/3"%string) ;
    ("Metop-B"%string, IOne "avhrr/3"%string) ;
    ("Metop-C"%string, IOne "avhrr/3"%string) ;
    ("NOAA-15"%string, IOne "avhrr/3"%string) ;
    ("NOAA-16"%string, IOne "avhrr/3"%string) ;
    ("NOAA-17"%string, IOne "avhrr/3"%string) ;
    ("NOAA-18"%string, IOne "avhrr/3"%string) ;
    ("NOAA-19"%string, IOne "avhrr/3"%string) ;
    ("HY-1C"%string, IOne "cocts"%string) ;
    ("Meteosat-12"%string, IOne "fci"%string) ;
    ("MTG-I1"%string, IOne "fci"%string) ;
    ("Metop-SG-A1"%string, IOne "metimage"%string) ;
    ("EOS-Aqua"%string, IOne "modis"%string) ;
    ("EOS-Terra"%string, IOne "modis"%string) ;
    ("Aqua"%string, IOne "modis"%string) ;
    ("Terra"%string, IOne "modis"%string) ;
    ("Sentinel-2A"%string, IOne "msi"%string) ;
    ("Sentinel-2B"%string, IOne "msi"%string) ;
    ("Sentinel-2C"%string, IOne "msi"%string) ;
    ("Arctica-M-N1"%string, IOne "msu-gsa"%string) ;
    ("Electro-L-N2"%string, IOne "msu-gs"%string) ;
    ("Sentinel-3A"%string, IList ["olci"%string; "slstr"%string]) ;
    ("Sentinel-3B"%string, IList ["olci"%string; "slstr"%string]) ;
    ("Landsat-8"%string, IOne "oli_tirs"%string) ;
    ("Landsat-9"%string, IOne "oli_tirs"%string) ;
    ("Meteosat-10"%string, IOne "seviri"%string) ;
    ("Meteosat-11"%string, IOne "seviri"%string) ;
    ("Meteosat-8"%string, IOne "seviri"%string) ;
    ("Meteosat-9"%string, IOne "seviri"%string) ;
    ("NOAA-20"%string, IOne "viirs"%string) ;
    ("NOAA-21"%string, IOne "viirs"%string) ;
    ("Suomi-NPP"%string, IOne "viirs"%string) ;
    ("FY-3A"%string, IList ["virr"%string; "mersi-1"%string]) ;
    ("FY-3B"%string, IList ["virr"%string; "mersi-1"%string]) ;
    ("FY-3C"%string, IList ["virr"%string; "mersi-1"%string]) ;
    ("FY-3D"%string, IOne "mersi-2"%string) ;
    ("FY-3F"%string, IOne "mersi-3"%string) ;
    ("FY-3G"%string, IOne "mersi-rm"%string) ;
    ("DSCOVR"%string, IOne "epic"%string) ].

(** utils.py:94-96 *)
Definition DASH2SLASH : dict string :=
  [ ("avhrr-1"%string, "avhrr/1"%string) ;
      ("avhrr-2"%string, "avhrr/2"%string) ;
      ("avhrr-3"%string, "avhrr/3"%string) ].

(** utils.py:98 *)
Definition HTTP_PYSPECTRAL_RSR : string := "https://zenodo.org/records/19373017/files/pyspectral_rsr_data.tgz"%string.

(** utils.py:99 *)
Definition RSR_DATA_VERSION_FILENAME : string := "PYSPECTRAL_RSR_VERSION"%string.

(** utils.py:100 *)
Definition RSR_DATA_VERSION : string := "v1.6.1"%string.

(** utils.py:128-132 *)
Definition AEROSOL_TYPES : list string :=
  [ "antarctic_aerosol"%string ;
    "continental_average_aerosol"%string ;
    "continental_clean_aerosol"%string ;
    "continental_polluted_aerosol"%string ;
    "desert_aerosol"%string ;
    "marine_clean_aerosol"%string ;
    "marine_polluted_aerosol"%string ;
    "marine_tropical_aerosol"%string ;
    "rayleigh_only"%string ;
    "rural_aerosol"%string ;
    "urban_aerosol"%string ].

(** utils.py:134-136 *)
Definition ATMOSPHERES : dict nat :=
  [ ("subarctic summer"%string, 4%nat) ;
    ("subarctic winter"%string, 5%nat) ;
    ("midlatitude summer"%string, 6%nat) ;
    ("midlatitude winter"%string, 7%nat) ;
    ("tropical"%string, 8%nat) ;
    ("us-standard"%string, 9%nat) ].

(** utils.py:139 *)
Definition LUT_URL_PREFIX : string := "https://zenodo.org/record/1288441/files/pyspectral_atm_correction_luts"%string.

(** utils.py:103-125: aerosol type -> (version, filename) *)
Definition ATM_CORRECTION_LUT_VERSION : dict (string * string) :=
  [ ("antarctic_aerosol"%string, ("v1.0.1"%string, "PYSPECTRAL_ATM_CORR_LUT_AA"%string)) ;
    ("continental_average_aerosol"%string, ("v1.0.1"%string, "PYSPECTRAL_ATM_CORR_LUT_CAA"%string)) ;
    ("continental_clean_aerosol"%string, ("v1.0.1"%string, "PYSPECTRAL_ATM_CORR_LUT_CCA"%string)) ;
    ("continental_polluted_aerosol"%string, ("v1.0.1"%string, "PYSPECTRAL_ATM_CORR_LUT_CPA"%string)) ;
    ("desert_aerosol"%string, ("v1.0.1"%string, "PYSPECTRAL_ATM_CORR_LUT_DA"%string)) ;
    ("marine_clean_aerosol"%string, ("v1.0.1"%string, "PYSPECTRAL_ATM_CORR_LUT_MCA"%string)) ;
    ("marine_polluted_aerosol"%string, ("v1.0.1"%string, "PYSPECTRAL_ATM_CORR_LUT_MPA"%string)) ;
    ("marine_tropical_aerosol"%string, ("v1.0.1"%string, "PYSPECTRAL_ATM_CORR_LUT_MTA"%string)) ;
    ("rural_aerosol"%string, ("v1.0.1"%string, "PYSPECTRAL_ATM_CORR_LUT_RA"%string)) ;
    ("urban_aerosol"%string, ("v1.0.1"%string, "PYSPECTRAL_ATM_CORR_LUT_UA"%string)) ;
    ("rayleigh_only"%string, ("v1.0.1"%string, "PYSPECTRAL_ATM_CORR_LUT_RO"%string)) ].

(** utils.py:138-143: the loop filling HTTPS_RAYLEIGH_LUTS *)
Definition lut_url (atype : string) : string :=
  let name := if String.eqb atype "rayleigh_only" then "no_aerosol"%string else atype in
  (LUT_URL_PREFIX ++ "_" ++ name ++ ".tgz")%string.
Definition HTTPS_RAYLEIGH_LUTS : dict string :=
  fold_left (fun d a => dset a (lut_url a) d) AEROSOL_TYPES [].

(** ** rsr_reader.py:31-35 *)
Definition OSCAR_PLATFORM_NAMES : dict string :=
  [ ("eos-2"%string, "EOS-Aqua"%string) ;
      ("meteosat-11"%string, "Meteosat-11"%string) ;
      ("meteosat-10"%string, "Meteosat-10"%string) ;
      ("meteosat-9"%string, "Meteosat-9"%string) ;
      ("meteosat-8"%string, "Meteosat-8"%string) ].
