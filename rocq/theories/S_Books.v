(** Specification vocabulary: readers of NetCDF files and work books. *)
From Coq Require Import String Ascii List Bool ZArith Reals.
From Verif Require Import Base NumSig XR M_Tables M_Utils M_World M_Hdf5 M_Raw M_Books S_Raw.
Import ListNotations.
Local Open Scope string_scope.

(** an entry of the section of a platform and instrument *)
Definition entry (options : dict cfg) (p i key v : string) : Prop :=
  exists m, dget (p ++ "-" ++ i) options = Some (CMap m) /\ dget key m = Some (Leaf (LStr v)).
(** column [i] of a table given by its rows *)
Definition column_of {A} (rows : list (list A)) (i : nat) (l : list A) : Prop := Forall2 (fun row v => nth_error row i = Some v) rows l.
(** the last place of an element *)
Definition last_at {A} (l : list A) (a : A) (i : nat) : Prop := nth_error l i = Some a /\ forall j, (i < j)%nat -> nth_error l j <> Some a.
(** the elements with a property, in their order *)
Inductive picked {A} (P : A -> Prop) : list A -> list A -> Prop :=
| picked_none : picked P [] []
| picked_take x l k : P x -> picked P l k -> picked P (x :: l) (x :: k)
| picked_skip x l k : ~ P x -> picked P l k -> picked P (x :: l) k.
(** real numbers as a column, and pairs of them as two *)
Definition reals (l : list R) : list XRN := map (fun x => Fin x : XRN) l.
Definition firsts (l : list (R * R)) : list XRN := map (fun q => Fin (fst q) : XRN) l.
Definition seconds (l : list (R * R)) : list XRN := map (fun q => Fin (snd q) : XRN) l.

(** ** OLCI *)
Definition OLCI_NAMES : list string :=
  ["Oa01"; "Oa02"; "Oa03"; "Oa04"; "Oa05"; "Oa06"; "Oa07"; "Oa08"; "Oa09"; "Oa10"; "Oa11"; "Oa12"; "Oa13"; "Oa14"; "Oa15"; "Oa16";
   "Oa17"; "Oa18"; "Oa19"; "Oa20"; "Oa21"].

(** ** METimage: names, the digits in the name of the variable, wavelength in nm *)
Definition METIMAGE : list (string * string * Z) :=
  [("vii-4", "443", 443%Z); ("vii-8", "555", 555%Z); ("vii-12", "668", 668%Z); ("vii-15", "752", 752%Z); ("vii-16", "763", 763%Z);
   ("vii-17", "865", 865%Z); ("vii-20", "914", 914%Z); ("vii-22", "1240", 1240%Z); ("vii-23", "1375", 1375%Z); ("vii-24", "1630", 1630%Z);
   ("vii-25", "2250", 2250%Z); ("vii-26", "3740", 3740%Z); ("vii-28", "3959", 3959%Z); ("vii-30", "4050", 4050%Z); ("vii-33", "6725", 6725%Z);
   ("vii-34", "7325", 7325%Z); ("vii-35", "8540", 8540%Z); ("vii-37", "10690", 10690%Z); ("vii-39", "12020", 12020%Z); ("vii-40", "13345", 13345%Z)].
Inductive metimage_group (z : Z) : string -> Prop :=
| mg_visible : (z <= 1000)%Z -> metimage_group z "VISNIR"
| mg_middle : (1000 < z <= 6000)%Z -> metimage_group z "SMWIR"
| mg_long : (6000 < z)%Z -> metimage_group z "LVWIR".
(** int() reads these digits *)
Definition reads_digits (py_int : string -> res Z) : Prop := forall b d z, In (b, d, z) METIMAGE -> py_int d = Ok z.
(** the greatest value *)
Definition peak (l : list XRN) (m : XRN) : Prop :=
  In m l /\ forall l', l = reals l' -> exists v, m = Fin v /\ forall x, In x l' -> (x <= v)%R.

(** ** Frames *)
(** the column [name] and the one to the left of it; the first one has the last
    column to its left *)
Inductive left_of {A} (df : list (string * A)) (name : string) : A -> A -> Prop :=
| lo_next j k w y : nth_error df j = Some (k, w) -> nth_error df (S j) = Some (name, y) -> left_of df name w y
| lo_first l k w y : nth_error df 0 = Some (name, y) -> df = (l ++ [(k, w)])%list -> left_of df name w y.
(** the cells that are not blank *)
Fixpoint present (l : list XRN) : list XRN := match l with [] => [] | NaN :: t => present t | x :: t => x :: present t end.
(** rows of two cells, both blank or both a number *)
Definition both (i : R * R -> R) (o : option (R * R)) : XRN := match o with Some q => Fin (i q) | None => NaN end.
Definition somes {A} (l : list (option A)) : list A := flat_map (fun o => match o with Some a => [a] | None => [] end) l.
(** the curve of two columns: nanometres, responses relative to the greatest *)
Definition curve_from (w y : list XRN) (r : raw XRN) : Prop :=
  exists m, peak (present y) m /\ rw_wavelength r = map (fun x => ndiv XRN x (nlit XRN 1000 1)) (present w) /\
    rw_response r = map (fun x => ndiv XRN x m) (present y) /\
    forall rows, w = map (both fst) rows -> y = map (both snd) rows ->
      points r = map (fun q => (Fin (fst q / 1000), ndiv XRN (Fin (snd q)) m)) (somes rows).
Definition EPIC_COLUMNS : list (string * string) :=
  [("B317", "T(317.5) %"); ("B325", "T(325) %"); ("B340", "T(340) %"); ("B388", "T(388) %"); ("B443", "T(443) %");
   ("B551", "T(551) %"); ("B680", "T(680) %"); ("B688", "T(687.75) %"); ("B764", "T(764) %"); ("B780", "T(779.5) %")].
Definition GOCI2_COLUMNS : list (string * string) :=
  [("L380", "B1 (380 nm)"); ("L412", "B2 (412 nm)"); ("L443", "B3 (443 nm)"); ("L490", "B4 (490 nm)"); ("L510", "B5 (510 nm)");
   ("L555", "B6 (555 nm)"); ("L620", "B7 (620 nm)"); ("L660", "B8 (660 nm)"); ("L680", "B9 (680 nm)"); ("L709", "B10 (709 nm)");
   ("L745", "B11 (745 nm)"); ("L865", "B12 (865 nm)")].

(** ** MSI *)
Definition SENTINELS : list (string * string) := [("Sentinel-2A", "S2A"); ("Sentinel-2B", "S2B"); ("Sentinel-2C", "S2C")].
Definition MSI_COLUMNS : list (string * string) :=
  [("B01", "B1"); ("B02", "B2"); ("B03", "B3"); ("B04", "B4"); ("B05", "B5"); ("B06", "B6"); ("B07", "B7"); ("B08", "B8");
   ("B8A", "B8A"); ("B09", "B9"); ("B10", "B10"); ("B11", "B11"); ("B12", "B12")].
(** not further than 2 nm outside the points with a response above 1e-5 *)
Definition near (rows : list (R * R)) (q : R * R) : Prop :=
  exists a b, In a rows /\ In b rows /\ (1 / 100000 < snd a)%R /\ (1 / 100000 < snd b)%R /\ (fst a - 2 <= fst q <= fst b + 2)%R.

(** ** OLI and TIRS: platform, band, file, sheet, columns *)
Inductive oli_layout : string -> string -> string -> string -> string -> string -> Prop :=
| ol_oli p b sheet : In (b, sheet) [("B1", "CoastalAerosol"); ("B2", "Blue"); ("B3", "Green"); ("B4", "Red"); ("B5", "NIR");
                                    ("B6", "Cirrus"); ("B7", "SWIR1"); ("B8", "SWIR2"); ("B9", "Pan")] ->
    oli_layout p b "oli" sheet "Wavelength" "BA RSR [watts]"
| ol_8_10 : oli_layout "Landsat-8" "B10" "tirs" "TIRS BA RSR" "wavelength [um]" "TIRS1 10.8um band average"
| ol_8_11 : oli_layout "Landsat-8" "B11" "tirs" "TIRS BA RSR" "wavelength [um]" "TIRS2 12.0um band average"
| ol_9_10 : oli_layout "Landsat-9" "B10" "tirs" "TIRS Band 10 BA RSR" "wavelength [um]" "Band 10 Band=Average RSR"
| ol_9_11 : oli_layout "Landsat-9" "B11" "tirs" "TIRS Band 11 BA RSR" "wavelength [um]" "Band 11 Band-Average RSR".
(** the bands of the Operational Land Imager as the operator numbers them *)
Definition LANDSAT : list (string * string) :=
  [("B1", "CoastalAerosol"); ("B2", "Blue"); ("B3", "Green"); ("B4", "Red"); ("B5", "NIR");
   ("B6", "SWIR1"); ("B7", "SWIR2"); ("B8", "Pan"); ("B9", "Cirrus")].

(** ** MSU-GS/A: band, sheet of an instrument, columns *)
Inductive msugsa_sheet : string -> string -> list string -> Prop :=
| ms_visible b : In b ["ch1"; "ch2"; "ch3"] -> msugsa_sheet b " vis" ["wvl"; "ch1"; "ch2"; "ch3"]
| ms_infrared b : In b ["ch4"; "ch5"; "ch6"; "ch7"; "ch8"; "ch9"; "ch10"] ->
    msugsa_sheet b " IR" ["wvl"; "ch4"; "ch5"; "ch6"; "ch7"; "ch8"; "ch9"; "ch10"].
Definition frame_curve {N : Num} (df : dict (list N)) (b : string) (r : raw N) : Prop :=
  dget "wvl" df = Some (rw_wavelength r) /\ dget b df = Some (rw_response r).

(** ** AATSR: wavelength and response in the fields of a line *)
Definition aatsr_line {N : Num} (py_float : string -> res N) (f32 : N -> N) (c : cell N) (q : N * N) : Prop :=
  exists line a b rest x y, c = CText line /\ fields line (a :: b :: rest) /\ py_float a = Ok x /\ py_float b = Ok y /\ q = (f32 x, f32 y).
(** rows 4 to 258 of the first column *)
Definition aatsr_rows {N : Num} (s : book_sheet N) (l : list (cell N)) : Prop :=
  exists col, nth_error (bs_columns s) 0 = Some col /\ l = firstn 255 (skipn 3 col).
(** the rows of a variable with two columns *)
Definition two_columns (l : list (R * R)) : list (list XRN) := map (fun q => [Fin (fst q); Fin (snd q)] : list XRN) l.
(** what a reader's object says about the file to write: the name of the
    instrument, and the configured directory or else the current one *)
Definition goes_to {N : Num} (options : dict cfg) (i : string) (o : instrument_rsr N) : Prop :=
  ir_instrument o = i /\ (forall d, dget "rsr_dir" options = Some d -> ir_output_dir o = d) /\ (dget "rsr_dir" options = None -> ir_output_dir o = Leaf (LStr "./")).
(** the bands of SLSTR *)
Definition SLSTR_BANDS : list string := ["ch1"; "ch2"; "ch3"; "ch4"; "ch5"; "ch6"; "ch7"; "ch8"; "ch9"].
