(** Specification vocabulary for the constant tables: which names there are, by
    rule. *)
From Coq Require Import String Ascii List NArith DecimalString.
From Verif Require Import Base M_Tables.
Import ListNotations.
Local Open Scope string_scope.

(** decimal numbers: 7, 07 and 007 *)
Definition dec (n : N) : string := NilZero.string_of_uint (N.to_uint n).
Definition two (n : N) : string := (if (n <? 10)%N then "0" else "") ++ dec n.
Definition three (n : N) : string := (if (n <? 100)%N then "0" else "") ++ two n.
(** a wavelength in tenths of a micrometre: 108 is 10.8 *)
Definition micrometres (w : N) : string := dec (w / 10) ++ "." ++ dec (w mod 10).

(** [standard i name band]: the instrument [i] has a band called [band] in the
    response files, for which users write [name]. *)
Inductive standard : string -> string -> string -> Prop :=
| nm_abi n : (1 <= n <= 16)%N -> standard "abi" ("C" ++ two n) ("ch" ++ dec n)
| nm_agri n : (1 <= n <= 14)%N -> standard "agri" ("C" ++ two n) ("ch" ++ dec n)
| nm_ahi n : (1 <= n <= 16)%N -> standard "ahi" ("B" ++ two n) ("ch" ++ dec n)
| nm_modis n : (1 <= n <= 36)%N -> standard "modis" (dec n) (dec n)
| nm_viirs_i n : (1 <= n <= 5)%N -> standard "viirs" ("I" ++ two n) ("I" ++ dec n)
| nm_viirs_m n : (1 <= n <= 9)%N -> standard "viirs" ("M" ++ two n) ("M" ++ dec n)
| nm_slstr n : (1 <= n <= 9)%N -> standard "slstr" ("S" ++ dec n) ("ch" ++ dec n)
| nm_slstr_fire n : (1 <= n <= 2)%N -> standard "slstr" ("F" ++ dec n) ("ch" ++ dec (n + 6))
| nm_avhrr n : In n ["1"; "2"; "3a"; "3b"; "4"; "5"] -> standard "avhrr-3" n ("ch" ++ n)
| nm_seviri_vis w : In w [6; 8]%N -> standard "seviri" ("VIS" ++ three w) ("VIS" ++ micrometres w)
| nm_seviri_nir w : w = 16%N -> standard "seviri" ("IR_" ++ three w) ("NIR" ++ micrometres w)
| nm_seviri_ir w : In w [39; 87; 97; 108; 120; 134]%N -> standard "seviri" ("IR_" ++ three w) ("IR" ++ micrometres w)
| nm_seviri_wv w : In w [62; 73]%N -> standard "seviri" ("WV_" ++ three w) ("IR" ++ micrometres w)
| nm_seviri_hrv : standard "seviri" "HRV" "HRV"
| nm_fci_vis w : In w [4; 5; 8; 9]%N -> standard "fci" ("vis_" ++ two w) ("VIS" ++ micrometres w)
| nm_fci_nir w : In w [13; 16]%N -> standard "fci" ("nir_" ++ two w) ("NIR" ++ micrometres w)
| nm_fci_ir w : In w [87; 97; 123; 133]%N -> standard "fci" ("ir_" ++ two w) ("IR" ++ micrometres w)
| nm_fci_wv w : In w [63; 73]%N -> standard "fci" ("wv_" ++ two w) ("WV" ++ micrometres w)
| nm_fci_high p q w : In (p, q, w) [("vis_", "VIS", 6); ("nir_", "NIR", 22); ("ir_", "IR", 38); ("ir_", "IR", 105)]%N ->
    standard "fci" (p ++ two w) (q ++ micrometres w ++ "_HR")
(** the bands of AMI in the order of their wavelengths *)
| nm_ami n p w : nth_error [("VI", 4); ("VI", 5); ("VI", 6); ("VI", 8); ("NR", 13); ("NR", 16); ("SW", 38); ("WV", 63); ("WV", 69); ("WV", 73);
      ("IR", 87); ("IR", 96); ("IR", 105); ("IR", 112); ("IR", 123); ("IR", 133)]%N n = Some (p, w) ->
    standard "ami" (p ++ three w) ("ch" ++ dec (N.of_nat n + 1))
(** METimage (VII): wavelengths in nanometres and band numbers *)
| nm_vii w n : In (w, n) [(443, 4); (555, 8); (668, 12); (752, 15); (763, 16); (865, 17); (914, 20); (1240, 22); (1375, 23); (1630, 24);
      (2250, 25); (3740, 26); (3959, 28); (4050, 30); (6725, 33); (7325, 34); (8540, 35); (10690, 37); (12020, 39); (13345, 40)]%N ->
    standard "VII" ("vii_" ++ dec w) ("vii-" ++ dec n).

(** instruments with names of their own *)
Definition has_names (i : string) : Prop :=
  In i ["abi"; "agri"; "ahi"; "ami"; "avhrr-3"; "fci"; "modis"; "seviri"; "slstr"; "viirs"; "VII"].

(** the names understood for every other instrument *)
Inductive generic_name : string -> string -> Prop :=
| gn_number n : (1 <= n <= 36)%N -> generic_name (dec n) ("ch" ++ dec n)
| gn_other i k b : In i ["seviri"; "viirs"; "abi"] -> standard i k b -> generic_name k b.

(** [fleet p i]: the platform [p] carries the instrument [i] *)
Inductive fleet : string -> string -> Prop :=
| fl_abi n : (16 <= n <= 19)%N -> fleet ("GOES-" ++ dec n) "abi"
| fl_agri p : In p ["FY-4A"; "FY-4B"] -> fleet p "agri"
| fl_ghi : fleet "FY-4B" "ghi"
| fl_ahi n : (8 <= n <= 9)%N -> fleet ("Himawari-" ++ dec n) "ahi"
| fl_ami : fleet "GEO-KOMPSAT-2A" "ami"
| fl_goci2 : fleet "GEO-KOMPSAT-2B" "goci-2"
| fl_tiros : fleet "TIROS-N" "avhrr/1"
| fl_avhrr1 n : In n [6; 8; 10]%N -> fleet ("NOAA-" ++ dec n) "avhrr/1"
| fl_avhrr2 n : In n [7; 9; 11; 12; 14]%N -> fleet ("NOAA-" ++ dec n) "avhrr/2"
| fl_avhrr3 n : (15 <= n <= 19)%N -> fleet ("NOAA-" ++ dec n) "avhrr/3"
| fl_metop x : In x ["A"; "B"; "C"] -> fleet ("Metop-" ++ x) "avhrr/3"
| fl_cocts : fleet "HY-1C" "cocts"
| fl_fci p : In p ["Meteosat-12"; "MTG-I1"] -> fleet p "fci"
| fl_metimage : fleet "Metop-SG-A1" "metimage"
| fl_modis p q : In p [""; "EOS-"] -> In q ["Aqua"; "Terra"] -> fleet (p ++ q) "modis"
| fl_msi x : In x ["A"; "B"; "C"] -> fleet ("Sentinel-2" ++ x) "msi"
| fl_msugsa : fleet "Arctica-M-N1" "msu-gsa"
| fl_msugs : fleet "Electro-L-N2" "msu-gs"
| fl_sentinel3 x i : In x ["A"; "B"] -> In i ["olci"; "slstr"] -> fleet ("Sentinel-3" ++ x) i
| fl_landsat n : (8 <= n <= 9)%N -> fleet ("Landsat-" ++ dec n) "oli_tirs"
| fl_seviri n : (8 <= n <= 11)%N -> fleet ("Meteosat-" ++ dec n) "seviri"
| fl_viirs p : In p ["NOAA-20"; "NOAA-21"; "Suomi-NPP"] -> fleet p "viirs"
| fl_fy3 x i : In x ["A"; "B"; "C"] -> In i ["virr"; "mersi-1"] -> fleet ("FY-3" ++ x) i
| fl_mersi x k : In (x, k) [("D", "2"); ("F", "3"); ("G", "rm")] -> fleet ("FY-3" ++ x) ("mersi-" ++ k)
| fl_epic : fleet "DSCOVR" "epic"
| fl_aatsr : fleet "Envisat" "aatsr".

(** the first letters of the words of a name, as capitals *)
Definition capital (c : ascii) : ascii := ascii_of_nat (nat_of_ascii c - 32).
Fixpoint after_underscore (s : string) : string :=
  match s with
  | EmptyString => EmptyString
  | String c t => if Ascii.eqb c "_" then match t with String d _ => String (capital d) (after_underscore t) | _ => EmptyString end
                  else after_underscore t
  end.
Definition initials (s : string) : string := after_underscore ("_" ++ s).

(** the band that a user of the instrument [i] means by [name] when there is no band of that very name *)
Definition meant (i name band : string) : Prop :=
  standard i name band \/ ((forall b, ~ standard i name b) /\ generic_name name band).

(** the six atmospheres of the look-up tables, in the order in which they are numbered (from 4) *)
Definition atmospheres : list string :=
  ["subarctic summer"; "subarctic winter"; "midlatitude summer"; "midlatitude winter"; "tropical"; "us-standard"].

(** the kinds of aerosol *)
Definition aerosol_kinds : list string :=
  ["antarctic"; "continental_average"; "continental_clean"; "continental_polluted"; "desert"; "marine_clean"; "marine_polluted"; "marine_tropical"; "rural"; "urban"].
