(** Specification vocabulary: AVHRR/1, AHI, and the scripts that rewrite files. *)
From Coq Require Import String Ascii List Bool ZArith Reals.
From Verif Require Import Base NumSig XR M_Tables M_Utils M_World M_Hdf5 M_Raw M_Books S_Raw S_Books.
Import ListNotations.
Local Open Scope string_scope.

(** ** Text *)
(** made of these characters only *)
Inductive made_of (chars : string) : string -> Prop :=
| mo_empty : made_of chars EmptyString
| mo_char c s : has_char c chars = true -> made_of chars s -> made_of chars (String c s).
Definition last_char (s : string) (c : ascii) : Prop := exists t, s = t ++ String c EmptyString.
(** [t] is [s] without these characters at both ends *)
Definition trimmed_of (chars s t : string) : Prop :=
  (exists l r, s = l ++ t ++ r /\ made_of chars l /\ made_of chars r) /\
  (forall c u, t = String c u -> has_char c chars = false) /\ (forall c, last_char t c -> has_char c chars = false).
(** the parts before and after the first [sep] *)
Definition first_split (sep s a b : string) : Prop :=
  s = a ++ sep ++ b /\ forall a' b', s = a' ++ sep ++ b' -> (String.length a <= String.length a')%nat.
(** the part between the first [sep] and the next *)
Definition between (sep s t : string) : Prop :=
  exists a b, first_split sep s a b /\ ((exists c, first_split sep b t c) \/ (t = b /\ forall x y, b <> x ++ sep ++ y)).

(** ** AVHRR/1 *)
Definition AVHRR1 : list string := ["TIROS-N"; "NOAA-6"; "NOAA-8"; "NOAA-10"].
Definition AVHRR1_CHANNELS : list string := ["ch1"; "ch2"; "ch3"; "ch4"].
(** names of sheets: A10<satellite>C00<channel> *)
Definition AVHRR1_SHEETS : list (string * string) :=
  [("A101C001", "ch1"); ("A101C002", "ch2"); ("A101C003", "ch3"); ("A101C004", "ch4");
   ("A102C001", "ch1"); ("A102C002", "ch2"); ("A102C003", "ch3"); ("A102C004", "ch4");
   ("A103C001", "ch1"); ("A103C002", "ch2"); ("A103C003", "ch3"); ("A103C004", "ch4");
   ("A104C001", "ch1"); ("A104C002", "ch2"); ("A104C003", "ch3"); ("A104C004", "ch4")].
(** the sheets that are read: those before the first with an unknown name *)
Inductive sheets_read {N : Num} : list (book_sheet N) -> list (book_sheet N) -> Prop :=
| sr_end : sheets_read [] []
| sr_skip s l k : bs_name s = "Kleespies Data" -> sheets_read l k -> sheets_read (s :: l) k
| sr_take s l k : bs_name s <> "Kleespies Data" -> In (strip (bs_name s)) (map fst AVHRR1_SHEETS) -> sheets_read l k -> sheets_read (s :: l) (s :: k)
| sr_stop s l : bs_name s <> "Kleespies Data" -> ~ In (strip (bs_name s)) (map fst AVHRR1_SHEETS) -> sheets_read (s :: l) [].
(** the misprint: the entry after a greater one is 840 if it is 640 *)
Definition reprinted (w w' : list R) : Prop :=
  List.length w' = List.length w /\ nth_error w' 0 = nth_error w 0 /\
  forall i x p, nth_error w (S i) = Some x -> nth_error w' i = Some p ->
    ((x < p /\ Rabs (x - 640) < 1 / 100)%R /\ nth_error w' (S i) = Some 840%R) \/ (~ (x < p /\ Rabs (x - 640) < 1 / 100)%R /\ nth_error w' (S i) = Some x).
(** lengths in micrometres *)
Definition avhrr1_unit {N : Num} (unit : string) (scale : N) : Prop := (unit = "Å" /\ scale = nlit N 1 10000) \/ (unit = "nm" /\ scale = nlit N 1 1000).
(** a sheet for a satellite: numbers as printed, then as stored *)
Definition avhrr1_sheet_of {N : Num} (fix_ : list N -> list N -> Prop) (s : book_sheet N) (p : string) (r : raw N) : Prop :=
  exists t0 t1 u unit scale printed comments wvl col1,
    nth_error (bs_columns s) 0 = Some (CText t0 :: CText t1 :: map CNum printed ++ map CText comments)%list /\ printed <> [] /\
    trimmed_of "# " t0 p /\ between "Wavelength (" t1 u /\ trimmed_of ")" u unit /\ avhrr1_unit unit scale /\
    (if String.eqb p "TIROS-N" then fix_ printed wvl else wvl = printed) /\
    rw_wavelength r = map (fun x => nmul N x scale) wvl /\
    nth_error (bs_columns s) 1 = Some col1 /\ map CNum (rw_response r) = firstn (List.length printed) (skipn 2 col1).
(** the sheet of a satellite and channel that counts: the last one *)
Definition last_sheet {N : Num} (fix_ : list N -> list N -> Prop) (sheets : list (book_sheet N)) (p ch : string) (s : book_sheet N) (r : raw N) : Prop :=
  exists pre post, sheets = (pre ++ s :: post)%list /\ In (strip (bs_name s), ch) AVHRR1_SHEETS /\ avhrr1_sheet_of fix_ s p r /\
    forall s' r', In s' post -> In (strip (bs_name s'), ch) AVHRR1_SHEETS -> ~ avhrr1_sheet_of fix_ s' p r'.

Definition adjusted (w w' : list XRN) : Prop := forall l, w = reals l -> exists l', w' = reals l' /\ reprinted l l'.
Definition no_sheet {N : Num} (fix_ : list N -> list N -> Prop) (sheets : list (book_sheet N)) (p ch : string) : Prop :=
  forall s r, In s sheets -> In (strip (bs_name s), ch) AVHRR1_SHEETS -> ~ avhrr1_sheet_of fix_ s p r.
(** what the reader holds for a work book *)
Definition avhrr1_holds (sheets : list (book_sheet XRN)) (rsr : dict (dict (option (raw XRN)))) : Prop :=
  exists k, sheets_read sheets k /\ dkeys rsr = AVHRR1 /\
    (forall s, In s k -> exists p ch r, In p AVHRR1 /\ In (strip (bs_name s), ch) AVHRR1_SHEETS /\ avhrr1_sheet_of adjusted s p r) /\
    forall p, In p AVHRR1 -> exists sat, dget p rsr = Some sat /\ dkeys sat = AVHRR1_CHANNELS /\
      forall ch, In ch AVHRR1_CHANNELS -> (dget ch sat = Some None /\ no_sheet adjusted k p ch) \/ exists s r, dget ch sat = Some (Some r) /\ last_sheet adjusted k p ch s r.

(** ** AHI *)
Definition AHI_CHANNELS : list (string * string) :=
  [("Band 1", "ch1"); ("Band 2", "ch2"); ("Band 3", "ch3"); ("Band 4", "ch4"); ("Band 5", "ch5"); ("Band 6", "ch6"); ("Band 7", "ch7"); ("Band 8", "ch8");
   ("Band 9", "ch9"); ("Band 10", "ch10"); ("Band 11", "ch11"); ("Band 12", "ch12"); ("Band 13", "ch13"); ("Band 14", "ch14"); ("Band 15", "ch15"); ("Band 16", "ch16")].
Definition ahi_channel {N : Num} (s : book_sheet N) (ch : string) : Prop :=
  bs_name s <> "Title" /\ (In (strip (bs_name s), ch) AHI_CHANNELS \/ (~ In (strip (bs_name s)) (map fst AHI_CHANNELS) /\ ch = strip (bs_name s))).
(** rows 6 to 5453 of a column *)
Definition ahi_rows {N : Num} (s : book_sheet N) (c : nat) (l : list (cell N)) : Prop :=
  exists col, nth_error (bs_columns s) c = Some col /\ l = firstn (Z.to_nat 5448) (skipn 5 col).

(** ** One channel in the file of Metop: header, another line, rows, other text *)
Definition metop_row {N : Num} (py_float : string -> res N) (line : string) (q : N * N) : Prop :=
  exists a b, fields line [a; b] /\ py_float a = Ok (fst q) /\ py_float b = Ok (snd q).
Definition headed (line : string) : Prop := exists t, line = "AVHRR" ++ t.
Definition metop_block {N : Num} (py_float : string -> res N) (lines : list string) (rows : list (N * N)) (after : list string) : Prop :=
  exists header second numbers, lines = (header :: second :: numbers ++ after)%list /\ headed header /\ rows <> [] /\ Forall2 (metop_row py_float) numbers rows /\
    ~ headed second /\ Forall (fun l => ~ headed l) numbers /\ Forall (fun l => ~ headed l) after.
(** text that does not go on with two fields *)
Definition ends_rows (after : list string) : Prop := exists l rest, after = l :: rest /\ forall a b, ~ fields l [a; b].
Definition METOP_FILES : list string :=
  ["Metop_C_A309C001.txt"; "Metop_C_A309C002.txt"; "Metop_C_A309C03A.txt"; "Metop_C_A309C03B.txt"; "Metop_C_A309C004.txt"; "Metop_C_A309C005.txt"].
(** by wavelength: 10000/wavenumber, in the other order *)
Definition by_wavelength {N : Num} (rows : list (N * N)) : list (N * N) :=
  rev (map (fun q => (nmul N (ndiv N (nlit N 1 1) (fst q)) (nlit N 10000 1), snd q)) rows).

(** rows of real numbers *)
Definition real_rows (l : list (R * R)) : list (XRN * XRN) := map (fun q => (Fin (fst q) : XRN, Fin (snd q) : XRN)) l.
(** a block followed by text that is not a row *)
Definition whole_block {N : Num} (py_float : string -> res N) (b : list string) (rows : list (N * N)) : Prop := exists after, metop_block py_float b rows after /\ ends_rows after.

(** ** Old AVHRR files: a cell that is a number or not given *)
Inductive star_cell {N : Num} (py_float : string -> res N) : cell N -> option N -> Prop :=
| sc_none : star_cell py_float (CText "-") None
| sc_number x : star_cell py_float (CNum x) (Some x)
| sc_text s x : s <> "-" -> py_float s = Ok x -> star_cell py_float (CText s) (Some x).
(** two columns with the same rows *)
Definition star_columns {N : Num} (py_float : string -> res N) (w r : list (cell N)) (rows : list (option (N * N))) : Prop :=
  Forall2 (star_cell py_float) w (map (option_map fst) rows) /\ Forall2 (star_cell py_float) r (map (option_map snd) rows).
(** the columns of the two tables, and the file for each pair of them *)
Definition STAR : list (list (string * string * string)) :=
  [[("wvl1", "resp1", "NOAA_15_A302xx01.txt"); ("wvl2", "resp2", "NOAA_15_A302xx02.txt"); ("wvl3a", "resp3a", "NOAA_15_A302xx3A.txt")];
   [("wvl3b", "resp3b", "NOAA_15_A302xx3B.txt"); ("wvl4", "resp4", "NOAA_15_A302xx04.txt"); ("wvl5", "resp5", "NOAA_15_A302xx05.txt")]].
Definition star_fields (t : list (string * string * string)) : list string := flat_map (fun q => [fst (fst q); snd (fst q)]) t.
(** per cent to fractions; 32-bit numbers *)
Definition star_points {N : Num} (f32 : N -> N) (rows : list (option (N * N))) : list (N * N) :=
  map (fun q => (f32 (fst q), f32 (ndiv N (f32 (snd q)) (nlit N 100 1)))) (somes rows).

(** ** MODIS *)
Definition old_name (basedir sat : string) : string := basedir ++ "/rsr_modis_EOS-" ++ sat ++ ".h5".
