(** Model of the other scripts in rsr_convert_scripts: readers of NetCDF files
    and work books, and the scripts that rewrite older files.  Simplified: paths
    are joined as in [M_World]; a curve of one point stays an array; values that
    a NetCDF file marks as missing are ordinary numbers. *)
From Coq Require Import String Ascii List Bool ZArith DecimalString.
From Verif Require Import Base NumSig M_Tables M_Utils M_World M_Hdf5 M_Raw.
Import ListNotations.
Local Open Scope string_scope.

(** [s.strip(chars)] *)
(** avhrr1_rsr.py:90-91 *)
Fixpoint lstrip_chars (chars s : string) : string :=
  match s with
  | EmptyString => EmptyString
  | String c t => if has_char c chars then lstrip_chars chars t else s
  end.
Fixpoint rstrip_chars (chars s : string) : string :=
  match s with
  | EmptyString => EmptyString
  | String c t => match rstrip_chars chars t with
                  | EmptyString => if has_char c chars then EmptyString else String c EmptyString
                  | t' => String c t'
                  end
  end.
Definition strip_chars (chars s : string) : string := rstrip_chars chars (lstrip_chars chars s).
(** the text before the first [sep], and the text after it *)
(** str.split, avhrr1_rsr.py:91 *)
Fixpoint cut_at (sep s : string) : option (string * string) :=
  if prefix sep s then Some ("", substring (String.length sep) (String.length s) s)
  else match s with
       | EmptyString => None
       | String c t => match cut_at sep t with Some (a, b) => Some (String c a, b) | None => None end
       end.
(** [s.split(sep)[1]] *)
(** avhrr1_rsr.py:91 *)
Definition second_part (sep s : string) : res string :=
  match cut_at sep s with
  | None => Err IndexError
  | Some (_, rest) => Ok (match cut_at sep rest with Some (a, _) => a | None => rest end)
  end.
(** [s.split("_")[-1]] *)
(** metimage_rsr.py:33 *)
Fixpoint after_last (c : ascii) (s : string) : string :=
  match s with
  | EmptyString => EmptyString
  | String d t => if has_char c s then (if Ascii.eqb c d && negb (has_char c t) then t else after_last c t) else s
  end.

Section Books.
  Context {N : Num}.
  Local Open Scope num_scope.

  (** ** Outside world *)
  (** get_config(), os.path.exists *)
  Variable options : dict cfg.
  Variable exists_ : string -> bool.
  (** int(s), float(s) and storage as 32-bit floats *)
  Variable py_int : string -> res Z.
  Variable py_float : string -> res N.
  Variable f32 : N -> N.

  (** a NetCDF variable: one dimension, two (by rows), or text *)
  (** the files of fci_rsr.py:37-45, olci_rsr.py:51-63, metimage_rsr.py:73-75 *)
  Inductive nc_var := NV1 (l : list N) | NV2 (rows : list (list N)) | NVText (l : list string).
  Record nc_file := { nc_variables : dict nc_var; nc_groups : dict (dict nc_var) }.
  (** netCDF4.Dataset(path, 'r') *)
  Variable dataset : string -> res nc_file.
  (** [v[:]] of a vector, [v[:, i]], [v[i, :]] *)
  (** fci_rsr.py:39-45, olci_rsr.py:60-63, slstr_rsr.py:50-51 *)
  Definition nc_vector (v : nc_var) : res (list N) := match v with NV1 l => Ok l | _ => Err IndexError end.
  Definition nc_column (v : nc_var) (i : nat) : res (list N) :=
    match v with NV2 rows => mapM (fun r => idx r i) rows | _ => Err IndexError end.
  Definition nc_row (v : nc_var) (i : nat) : res (list N) := match v with NV2 rows => idx rows i | _ => Err IndexError end.
  Definition nc_text (v : nc_var) : res (list string) := match v with NVText l => Ok l | _ => Err TypeError end.

  (** pandas frames: named columns.  read_excel(path, sheet_name, skiprows),
      the same with given column names, read_csv(path), and read_csv with blanks
      as separators and given names *)
  Variable read_excel : string -> string -> nat -> res (dict (list N)).
  Variable read_excel_names : string -> string -> nat -> list string -> res (dict (list N)).
  Variable read_csv : string -> res (dict (list N)).

  (** the object of a reader whose [path] is a file; [strict] as in [text_rsr] *)
  (** olci_rsr.py:35-47, msi_reader.py:46-59, epic_reader.py:41-61, goci2_rsr.py:44-63 *)
  Definition path_rsr (strict : bool) (instrument platform_name : string) (load : string -> res (raw N)) : res (instrument_rsr N) :=
    ' (out, section, path) <- get_options_from_config options platform_name instrument ;;
    if exists_ path
    then r <- load path ;; Ok {| ir_instrument := instrument; ir_output_dir := out; ir_rsr := Some r |}
    else if strict then Err OSError
    else Ok {| ir_instrument := instrument; ir_output_dir := out; ir_rsr := None |}.

  (** ** NetCDF *)
  (** fci_rsr.py:43-45: the loop; the last one of several equal names counts *)
  Fixpoint fci_select (band : string) (names : list string) (i : nat) (wvl resp : nc_var) (scale : N) (acc : option (raw N)) : res (option (raw N)) :=
    match names with
    | [] => Ok acc
    | b :: rest =>
        if String.eqb b band then
          w <- nc_column wvl i ;;
          r <- nc_column resp i ;;
          fci_select band rest (S i) wvl resp scale (Some {| rw_wavelength := map (fun x => x * scale) w; rw_response := r |})
        else fci_select band rest (S i) wvl resp scale acc
    end.
  (** fci_rsr.py:20-45; [path / None] is a TypeError *)
  Definition FciRSR (bandname platform_name : string) : res (instrument_rsr N) :=
    ' (out, section, path) <- get_options_from_config options platform_name "fci" ;;
    filename <- (match dget "filename" section with Some (Leaf (LStr f)) => Ok f | _ => Err TypeError end) ;;
    ncf <- dataset (join path filename) ;;
    wvl <- of_option KeyError (dget "wavelength" (nc_variables ncf)) ;;
    resp <- of_option KeyError (dget "srf" (nc_variables ncf)) ;;
    ids <- of_option KeyError (dget "channel_id" (nc_variables ncf)) ;;
    names <- nc_text ids ;;
    r <- fci_select bandname names 0 wvl resp (nlit N 1000000 1) None ;;
    Ok {| ir_instrument := "fci"; ir_output_dir := out; ir_rsr := r |}.

  (** olci_rsr.py:24-29 *)
  Definition OLCI_BAND_NAMES : list string := map (fun i => "Oa" ++ two_digits i) (seq 1 21).
  (** olci_rsr.py:49-65 *)
  Definition load_olci (bandname path : string) : res (raw N) :=
    ncf <- dataset path ;;
    bandnum <- of_option ValueError (index_of bandname OLCI_BAND_NAMES) ;;
    rv <- of_option KeyError (dget "mean_spectral_response_function" (nc_variables ncf)) ;;
    resp <- nc_row rv bandnum ;;
    wv <- of_option KeyError (dget "mean_spectral_response_function_wavelength" (nc_variables ncf)) ;;
    wvl <- nc_row wv bandnum ;;
    Ok {| rw_wavelength := map (fun x => x * nlit N 1 1000) wvl; rw_response := resp |}.
  (** olci_rsr.py:32-47 *)
  Definition OlciRSR (bandname platform_name : string) : res (instrument_rsr N) :=
    path_rsr true "olci" platform_name (load_olci bandname).

  (** slstr_rsr.py:45-53 *)
  Definition load_slstr (f : string) : res (raw N) :=
    ncf <- dataset f ;;
    wv <- of_option KeyError (dget "wavelength" (nc_variables ncf)) ;;
    wvl <- nc_vector wv ;;
    rv <- of_option KeyError (dget "response" (nc_variables ncf)) ;;
    resp <- nc_vector rv ;;
    Ok {| rw_wavelength := map (fun x => x * nlit N 1 1) wvl; rw_response := resp |}.
  (** slstr_rsr.py:18-43 *)
  Definition SlstrRSR (bandname platform_name : string) : res (instrument_rsr N) :=
    text_rsr options exists_ true (channels 1 9) "slstr" bandname platform_name load_slstr.

  (** Python's max of an array *)
  (** metimage_rsr.py:76; numpy.nanmax after dropna, epic_reader.py:85 *)
  Definition maximum (l : list N) : res N :=
    match l with [] => Err ValueError | x :: t => Ok (fold_left (fun m y => if m <? y then y else m) t x) end.
  (** response / maximum *)
  (** metimage_rsr.py:76, epic_reader.py:85, goci2_rsr.py:84 *)
  Definition normalised (l : list N) : res (list N) := m <- maximum l ;; Ok (map (fun x => x / m) l).

  (** metimage_rsr.py:26-27: names as in the file by pyspectral's names *)
  Definition METIMAGE_BAND_NAMES_DICT : dict string :=
    fold_left (fun acc kv => dset (snd kv) (fst kv) acc) BN_VII [].
  Definition METIMAGE_BAND_NAMES : list string := dkeys METIMAGE_BAND_NAMES_DICT.
  (** metimage_rsr.py:30-40 *)
  Definition get_groupname_from_bandname (band : string) : res string :=
    wv <- py_int (after_last "_" band) ;;
    Ok (if (6000 <? wv)%Z then "LVWIR" else if (1000 <? wv)%Z then "SMWIR" else "VISNIR").
  (** [name.replace("vii", "ISRF_cw")] for the names of the table, which start
      with the only "vii" they contain *)
  (** metimage_rsr.py:57 *)
  Definition isrf_name (name : string) : string :=
    if prefix "vii" name then "ISRF_cw" ++ substring 3 (String.length name) name else name.
  (** metimage_rsr.py:70-83 *)
  Definition load_metimage (group_name nc_band_name path : string) : res (raw N) :=
    ncf <- dataset path ;;
    grp <- of_option IndexError (dget group_name (nc_groups ncf)) ;;
    v <- of_option KeyError (dget nc_band_name grp) ;;
    wvl <- nc_column v 0 ;;
    r <- nc_column v 1 ;;
    resp <- normalised r ;;
    Ok {| rw_wavelength := map (fun x => x * nlit N 1 1) wvl; rw_response := resp |}.
  (** metimage_rsr.py:43-68 *)
  Definition MetImageRSR (bandname platform_name : string) : res (instrument_rsr N) :=
    path_rsr false "metimage" platform_name (fun path =>
      name <- of_option KeyError (dget bandname METIMAGE_BAND_NAMES_DICT) ;;
      group_name <- get_groupname_from_bandname name ;;
      load_metimage group_name (isrf_name name) path).
  (** [metimage.rsr] is a dictionary of one detector; None has no keys *)
  (** metimage_rsr.py:80-82, 106-109 *)
  Definition metimage_dets (o : instrument_rsr N) : res (dict (raw N)) :=
    match ir_rsr o with Some r => Ok [("det-1", r)] | None => Err AttributeError end.
  (** metimage_rsr.py:86-148; the group of a band is made as for VIIRS *)
  Definition generate_metimage_file (platform_name : string) : res (h5file N) :=
    b0 <- of_option IndexError (hd_error METIMAGE_BAND_NAMES) ;;
    instr <- MetImageRSR b0 platform_name ;;
    bands <- on_bands (fun b => o <- MetImageRSR b platform_name ;; d <- metimage_dets o ;; viirs_band f32 d) METIMAGE_BAND_NAMES ;;
    Ok {| h_band_names := Some (map TStr METIMAGE_BAND_NAMES);
          h_description := Some (TStr "Relative Spectral Responses for METIMAGE");
          h_platform_name := Some (TStr platform_name); h_platform := None; h_sat_number := None; h_sensor := None;
          h_bands := bands |}.

  (** ** Work books read with pandas *)
  (** position of a column *)
  (** df1.columns.get_loc, epic_reader.py:74 *)
  Fixpoint get_loc (name : string) (df : dict (list N)) : res nat :=
    match df with
    | [] => Err KeyError
    | (k, _) :: t => if String.eqb name k then Ok 0%nat else (i <- get_loc name t ;; Ok (S i))
    end.
  (** [df.iloc[:, pos - 1]]: the last column if [pos] is 0 *)
  (** epic_reader.py:75 *)
  Definition left_column (df : dict (list N)) (pos : nat) : res (list N) :=
    match pos with
    | O => of_option IndexError (option_map snd (hd_error (rev df)))
    | S p => c <- idx df p ;; Ok (snd c)
    end.
  (** Series.dropna *)
  (** epic_reader.py:80-81 *)
  Definition dropna (l : list N) : list N := filter (fun x => negb (nisnan N x)) l.
  (** epic_reader.py:74-85, goci2_rsr.py:72-84 *)
  Definition left_and_named (df : dict (list N)) (name : string) : res (raw N) :=
    pos <- get_loc name df ;;
    w <- left_column df pos ;;
    c <- idx df pos ;;
    resp <- normalised (dropna (snd c)) ;;
    Ok {| rw_wavelength := map (fun x => x / nlit N 1000 1) (dropna w); rw_response := resp |}.
  (** epic_reader.py:20-29 *)
  Definition EPIC_BAND_NAMES : dict string :=
    [("B317", "T(317.5) %"); ("B325", "T(325) %"); ("B340", "T(340) %"); ("B388", "T(388) %"); ("B443", "T(443) %");
     ("B551", "T(551) %"); ("B680", "T(680) %"); ("B688", "T(687.75) %"); ("B764", "T(764) %"); ("B780", "T(779.5) %")].
  (** [df1.drop(df1.index[0])]: without the first row *)
  (** epic_reader.py:70 *)
  Definition drop_first (df : dict (list N)) : res (dict (list N)) :=
    match df with
    | (_, _ :: _) :: _ => Ok (dmap (@tl N) df)
    | _ => Err IndexError
    end.
  (** epic_reader.py:63-85 *)
  Definition load_epic (bandname path : string) : res (raw N) :=
    df0 <- read_excel path "Data" 4 ;;
    df1 <- drop_first df0 ;;
    name <- of_option KeyError (dget bandname EPIC_BAND_NAMES) ;;
    left_and_named df1 name.
  (** epic_reader.py:38-61 *)
  Definition EpicRSR (bandname platform_name : string) : res (instrument_rsr N) :=
    path_rsr false "epic" platform_name (load_epic bandname).
  (** goci2_rsr.py:21-32 *)
  Definition GOCI2_BAND_NAMES : dict string :=
    [("L380", "B1 (380 nm)"); ("L412", "B2 (412 nm)"); ("L443", "B3 (443 nm)"); ("L490", "B4 (490 nm)"); ("L510", "B5 (510 nm)");
     ("L555", "B6 (555 nm)"); ("L620", "B7 (620 nm)"); ("L660", "B8 (660 nm)"); ("L680", "B9 (680 nm)"); ("L709", "B10 (709 nm)");
     ("L745", "B11 (745 nm)"); ("L865", "B12 (865 nm)")].
  (** goci2_rsr.py:65-84 *)
  Definition load_goci2 (bandname path : string) : res (raw N) :=
    df1 <- read_csv path ;;
    name <- of_option KeyError (dget bandname GOCI2_BAND_NAMES) ;;
    left_and_named df1 name.
  (** goci2_rsr.py:41-63 *)
  Definition GOCI2RSR (bandname platform_name : string) : res (instrument_rsr N) :=
    path_rsr false "goci2" platform_name (load_goci2 bandname).

  (** msi_reader.py:20-40 *)
  Definition MSI_BAND_NAMES : dict string :=
    [("B01", "B1"); ("B02", "B2"); ("B03", "B3"); ("B04", "B4"); ("B05", "B5"); ("B06", "B6"); ("B07", "B7"); ("B08", "B8");
     ("B8A", "B8A"); ("B09", "B9"); ("B10", "B10"); ("B11", "B11"); ("B12", "B12")].
  Definition SHEET_HEADERS : dict string :=
    [("S2A", "Spectral Responses (S2A)"); ("S2B", "Spectral Responses (S2B)"); ("S2C", "Spectral Responses (S2C)")].
  Definition PLATFORM_SHORT_NAME : dict string := [("Sentinel-2A", "S2A"); ("Sentinel-2B", "S2B"); ("Sentinel-2C", "S2C")].
  (** points within 2 nm of those with a response above 1e-5; if there are none,
      min() and max() are masked and so is every point; no point at all is a
      ValueError *)
  (** msi_reader.py:68-73 *)
  Definition near_significant (wvl resp : list N) : res (list (N * N)) :=
    match wvl with
    | [] => Err ValueError
    | _ =>
        let pts := combine wvl resp in
        match map fst (filter (fun p => negb (snd p <=? nlit N 1 100000)) pts) with
        | [] => Ok []
        | w :: ws =>
            let lo := fold_left (@nmin N) ws w - nlit N 2 1 in
            let hi := fold_left (@nmax N) ws w + nlit N 2 1 in
            Ok (filter (fun p => negb ((fst p <? lo) || (hi <? fst p))) pts)
        end
    end.
  (** msi_reader.py:61-74; an unknown band is the column "..._None" *)
  Definition load_msi (short_plat bandname path : string) : res (raw N) :=
    let bname := match dget bandname MSI_BAND_NAMES with Some b => b | None => "None" end in
    sheet_name <- of_option KeyError (dget short_plat SHEET_HEADERS) ;;
    df <- read_excel path sheet_name 0 ;;
    wvl <- of_option KeyError (dget "SR_WL" df) ;;
    resp <- of_option KeyError (dget (short_plat ++ "_SR_AV_" ++ bname) df) ;;
    pts <- near_significant wvl resp ;;
    Ok {| rw_wavelength := map (fun p => fst p / nlit N 1000 1) pts; rw_response := map snd pts |}.
  (** msi_reader.py:43-59 *)
  Definition MsiRSR (bandname platform_name : string) : res (instrument_rsr N) :=
    short_plat <- of_option KeyError (dget platform_name PLATFORM_SHORT_NAME) ;;
    path_rsr true "msi" platform_name (load_msi short_plat bandname).

  (** oli_tirs_reader.py:28-46 *)
  Definition OLI_BAND_NAMES : dict string :=
    [("B1", "CoastalAerosol"); ("B2", "Blue"); ("B3", "Green"); ("B4", "Red"); ("B5", "NIR"); ("B6", "Cirrus"); ("B7", "SWIR1");
     ("B8", "SWIR2"); ("B9", "Pan")].
  Definition TIRS_SHEETNAMES_L8 : dict string := [("B10", "TIRS BA RSR"); ("B11", "TIRS BA RSR")].
  Definition TIRS_BAND_NAMES_L8 : dict string := [("B10", "TIRS1 10.8um band average"); ("B11", "TIRS2 12.0um band average")].
  Definition TIRS_SHEETNAMES_L9 : dict string := [("B10", "TIRS Band 10 BA RSR"); ("B11", "TIRS Band 11 BA RSR")].
  Definition TIRS_BAND_NAMES_L9 : dict string := [("B10", "Band 10 Band=Average RSR"); ("B11", "Band 11 Band-Average RSR")].
  (** a column of a sheet and the column of the wavelengths, divided by 1000 *)
  (** oli_tirs_reader.py:76-78, 88-91 *)
  Definition oli_columns (path sheet_name wname rname : string) : res (raw N) :=
    df <- read_excel path sheet_name 0 ;;
    w <- of_option KeyError (dget wname df) ;;
    r <- of_option KeyError (dget rname df) ;;
    Ok {| rw_wavelength := map (fun x => x / nlit N 1000 1) w; rw_response := r |}.
  (** oli_tirs_reader.py:73-99 *)
  Definition load_oli (bandname platform_name path : string) : res (raw N) :=
    r <- (match dget bandname OLI_BAND_NAMES with
          | Some sheet_name => oli_columns path sheet_name "Wavelength" "BA RSR [watts]"
          | None =>
              ' (sheets, names) <- (if String.eqb platform_name "Landsat-8" then Ok (TIRS_SHEETNAMES_L8, TIRS_BAND_NAMES_L8)
                                    else if String.eqb platform_name "Landsat-9" then Ok (TIRS_SHEETNAMES_L9, TIRS_BAND_NAMES_L9)
                                    else Err ValueError) ;;
              sheet_name <- of_option KeyError (dget bandname sheets) ;;
              band_name <- of_option KeyError (dget bandname names) ;;
              oli_columns path sheet_name "wavelength [um]" band_name
          end) ;;
    Ok (cut (nlit N 2 1000) r).
  (** an entry of the section that is a file name *)
  (** oli_tirs_reader.py:60-62 *)
  Definition file_entry (key : string) (section : dict cfg) : res string :=
    v <- of_option KeyError (dget key section) ;; match v with Leaf (LStr f) => Ok f | _ => Err TypeError end.
  (** oli_tirs_reader.py:49-71 *)
  Definition OliRSR (bandname platform_name : string) : res (instrument_rsr N) :=
    ' (out, section, path) <- get_options_from_config options platform_name "oli_tirs" ;;
    key <- (if dhas bandname OLI_BAND_NAMES then Ok "oli" else if dhas bandname TIRS_BAND_NAMES_L8 then Ok "tirs" else Err ValueError) ;;
    f <- file_entry key section ;;
    if exists_ (join path f)
    then r <- load_oli bandname platform_name (join path f) ;; Ok {| ir_instrument := "oli_tirs"; ir_output_dir := out; ir_rsr := Some r |}
    else Err OSError.

  (** msu_gsa_reader.py:17-22 *)
  Definition MSUGSA_BAND_NAMES : list string := channels 1 10.
  (** the directory of output, options.get('rsr_dir', './') *)
  (** msu_gsa_reader.py:47, aatsr_reader.py:34, avhrr1_rsr.py:54, ahi_reader.py:54 *)
  Definition rsr_dir : cfg := match dget "rsr_dir" options with Some c => c | None => Leaf (LStr "./") end.
  (** [options[section].get(key)] as a path *)
  (** msu_gsa_reader.py:44-45, aatsr_reader.py:31-32, avhrr1_rsr.py:49 *)
  Definition get_path (section key : string) : res string :=
    s <- of_option KeyError (dget section options) ;;
    match s with
    | Leaf _ => Err AttributeError
    | CMap m => match dget key m with Some (Leaf (LStr p)) => Ok p | _ => Err TypeError end
    end.
  (** msu_gsa_reader.py:57-68: one of the two instruments *)
  Definition load_msugsa (path bandname : string) (detnum : nat) : res (string * raw N) :=
    let sheet := "MSU-" ++ band_number detnum in
    data <- (if existsb_str bandname (channels 1 3) then read_excel_names path (sheet ++ " vis") 2 ("wvl" :: channels 1 3)
             else if existsb_str bandname (channels 4 7) then read_excel_names path (sheet ++ " IR") 2 ("wvl" :: channels 4 7)
             else Err KeyError) ;;
    w <- of_option KeyError (dget "wvl" data) ;;
    r <- of_option KeyError (dget bandname data) ;;
    Ok (det_name detnum, {| rw_wavelength := w; rw_response := r |}).
  (** msu_gsa_reader.py:31-70 *)
  Definition MsugsaRSR (bandname platform_name : string) : res (sensor N) :=
    path <- get_path (platform_name ++ "-msu-gsa") "path" ;;
    detectors <- mapM (load_msugsa path bandname) [1%nat; 2%nat] ;;
    Ok {| sn_instrument := "msu-gsa"; sn_rsr := RMulti detectors |}.

  (** ** Work books read with xlrd *)
  (** a cell: a number or text; an empty cell is the text "" *)
  (** the work books of aatsr_reader.py:43-56, ahi_reader.py:69-85, avhrr1_rsr.py:73-117 *)
  Inductive cell := CNum (x : N) | CText (s : string).
  Record book_sheet := { bs_name : string; bs_columns : list (list cell) }.
  (** xlrd.open_workbook(path).sheets() *)
  Variable open_workbook : string -> res (list book_sheet).
  (** sheet.col_values(c, start_rowx=a, end_rowx=b) *)
  (** aatsr_reader.py:50-51, ahi_reader.py:80-83, avhrr1_rsr.py:89, 95, 111 *)
  Definition cells (s : book_sheet) (c a : nat) (b : option nat) : res (list cell) :=
    col <- idx (bs_columns s) c ;;
    Ok (match b with Some b => firstn (b - a) (skipn a col) | None => skipn a col end).
  (** the numbers of an array; arithmetic with an array of text is a TypeError *)
  (** ahi_reader.py:105-109, avhrr1_rsr.py:113 *)
  Definition number (c : cell) : res N := match c with CNum x => Ok x | CText _ => Err TypeError end.
  Definition text (c : cell) : res string := match c with CText s => Ok s | CNum _ => Err AttributeError end.

  (** aatsr_reader.py:49-54: fields of every line, all lines of the same width *)
  Definition aatsr_table (lines : list cell) : res (raw N) :=
    rows <- mapM (fun c => s <- text c ;; Ok (words s)) lines ;;
    if negb (forallb (fun r => Nat.eqb (List.length r) (List.length (hd [] rows))) rows) then Err ValueError
    else
      nums <- mapM (mapM (fun s => x <- py_float s ;; Ok (f32 x))) rows ;;
      match nums with
      | [] => Err IndexError
      | _ => w <- mapM (fun r => idx r 0) nums ;; r <- mapM (fun r => idx r 1) nums ;; Ok {| rw_wavelength := w; rw_response := r |}
      end.
  (** aatsr_reader.py:45-56 *)
  Fixpoint aatsr_sheets (bandname : string) (l : list book_sheet) (acc : option (raw N)) : res (option (raw N)) :=
    match l with
    | [] => Ok acc
    | s :: t =>
        if String.eqb (strip (bs_name s)) ("aatsr_" ++ bandname)
        then lines <- cells s 0 3 (Some 258%nat) ;; r <- aatsr_table lines ;; aatsr_sheets bandname t (Some r)
        else aatsr_sheets bandname t acc
    end.
  (** aatsr_reader.py:16-56 *)
  Definition AATSR_BAND_NAMES : list string := ["ir12"; "ir11"; "ir37"; "v16"; "v870"; "v659"; "v555"].
  Definition AatsrRSR (bandname platform_name : string) : res (instrument_rsr N) :=
    path <- get_path (platform_name ++ "-aatsr") "path" ;;
    wb <- open_workbook path ;;
    r <- aatsr_sheets bandname wb None ;;
    Ok {| ir_instrument := "aatsr"; ir_output_dir := rsr_dir; ir_rsr := r |}.

  (** *** AHI *)
  (** ahi_reader.py:18-34 *)
  Definition AHI_BAND_NAMES : dict string :=
    map (fun i => ("Band " ++ band_number i, "ch" ++ band_number i)) (seq 1 16).
  (** ahi_reader.py:72-85 *)
  Fixpoint ahi_sheets (l : list book_sheet) (acc : dict (list cell * list cell)) : res (dict (list cell * list cell)) :=
    match l with
    | [] => Ok acc
    | s :: t =>
        if String.eqb (bs_name s) "Title" then ahi_sheets t acc
        else
          let name := strip (bs_name s) in
          let ch_name := match dget name AHI_BAND_NAMES with Some c => c | None => name end in
          wvl <- cells s 0 5 (Some (Z.to_nat 5453)) ;;
          resp <- cells s 2 5 (Some (Z.to_nat 5453)) ;;
          ahi_sheets t (dset ch_name (wvl, resp) acc)
    end.
  (** ahi_reader.py:46-85; [options[...]['path']]; the message of line 62 needs an
      attribute that the object does not have *)
  Definition AhiRSR (platform_name : string) : res (dict (list cell * list cell)) :=
    s <- of_option KeyError (dget (platform_name ++ "-ahi") options) ;;
    m <- (match s with CMap m => Ok m | Leaf _ => Err TypeError end) ;;
    path <- file_entry "path" m ;;
    if exists_ path then wb <- open_workbook path ;; ahi_sheets wb [] else Err AttributeError.
  (** what can be stored as an attribute of an HDF5 file: text and lists of text;
      the view dict.values() has no HDF5 type (h5py raises TypeError) *)
  (** ahi_reader.py:97-100 *)
  Inductive attr_value := AText (s : string) | ATexts (l : list string) | AView (l : list string).
  Definition texts_attr (v : attr_value) : res (list textval) :=
    match v with ATexts l => Ok (map TStr l) | _ => Err TypeError end.
  (** ahi_reader.py:102-117 *)
  Definition ahi_band (rsr : dict (list cell * list cell)) (chname : string) : res (h5band N) :=
    c <- of_option KeyError (dget chname rsr) ;;
    w <- mapM number (fst c) ;;
    r <- mapM number (snd c) ;;
    wvl <- where_wave w w ;;
    rsp <- where_wave w r ;;
    x <- get_central_wave wvl rsp (WScalar n1) ;;
    Ok {| hb_count := None; hb_dets := [];
          hb_shared := {| hd_response := Some (map f32 r); hd_wavelength := Some (micro_wave f32 w); hd_central := Some x |} |}.
  (** ahi_reader.py:88-117 *)
  Definition ahi_convert2hdf5 (platform_name : string) : res (h5file N) :=
    rsr <- AhiRSR platform_name ;;
    names <- texts_attr (AView (map snd AHI_BAND_NAMES)) ;;
    bands <- on_bands (ahi_band rsr) (map snd AHI_BAND_NAMES) ;;
    Ok {| h_band_names := Some names; h_description := Some (TStr "Relative Spectral Responses for AHI");
          h_platform_name := Some (TStr platform_name); h_platform := None; h_sat_number := None; h_sensor := Some (TStr "ahi");
          h_bands := bands |}.

  (** *** AVHRR/1 *)
  (** avhrr1_rsr.py:20, 24-39 *)
  Definition AVHRR1_SATELLITES : list string := ["TIROS-N"; "NOAA-6"; "NOAA-8"; "NOAA-10"].
  Definition CHANNEL_NAMES : dict string :=
    flat_map (fun i => map (fun c => ("A10" ++ band_number i ++ "C00" ++ band_number c, "ch" ++ band_number c)) (seq 1 4)) (seq 1 4).
  (** avhrr1_rsr.py:120-126: [prev] is the entry before, as adjusted *)
  Fixpoint adjust_from (prev : N) (l : list N) : list N :=
    match l with
    | [] => []
    | w :: t =>
        let w' := if (w <? prev) && (nabs (w - nlit N 640 1) <? nlit N 1 100) then nlit N 840 1 else w in
        w' :: adjust_from w' t
    end.
  Definition adjust_typo (wvl : list N) : list N := match wvl with [] => [] | w :: t => w :: adjust_from w t end.
  (** avhrr1_rsr.py:129-132 *)
  Definition get_scale_from_unit (unit : string) : option N :=
    dget unit [("Å", nlit N 1 10000); ("nm", nlit N 1 1000)].
  (** avhrr1_rsr.py:95-106: without the text cells at the end; nothing but text
      is an IndexError *)
  Fixpoint drop_text (l : list cell) : list cell :=
    match l with CText _ :: t => drop_text t | _ => l end.
  Definition without_comments (l : list cell) : res (list cell) :=
    match drop_text (rev l) with [] => Err IndexError | t => Ok (rev t) end.
  (** avhrr1_rsr.py:89-117: platform and curve of a sheet.  Simplified: a text
      cell among the numbers is noticed here at the latest *)
  Definition avhrr1_sheet (s : book_sheet) : res (string * raw N) :=
    header <- cells s 0 0 (Some 2%nat) ;;
    h0 <- idx header 0 ;;
    t0 <- text h0 ;;
    let platform_name := strip_chars "# " t0 in
    h1 <- idx header 1 ;;
    t1 <- text h1 ;;
    u <- second_part "Wavelength (" t1 ;;
    let unit := strip_chars ")" u in
    col <- cells s 0 2 None ;;
    kept <- without_comments col ;;
    wvl <- mapM number kept ;;
    let wvl := if String.eqb platform_name "TIROS-N" then adjust_typo wvl else wvl in
    rcells <- cells s 1 2 (Some (2 + List.length kept)%nat) ;;
    resp <- mapM number rcells ;;
    scale <- of_option TypeError (get_scale_from_unit unit) ;;
    Ok (platform_name, {| rw_wavelength := map (fun x => x * scale) wvl; rw_response := resp |}).
  (** avhrr1_rsr.py:73-117: a sheet with an unknown name ends the loop *)
  Fixpoint avhrr1_sheets (l : list book_sheet) (acc : dict (dict (option (raw N)))) : res (dict (dict (option (raw N)))) :=
    match l with
    | [] => Ok acc
    | s :: t =>
        if String.eqb (bs_name s) "Kleespies Data" then avhrr1_sheets t acc
        else match dget (strip (bs_name s)) CHANNEL_NAMES with
             | None => Ok acc
             | Some ch_name =>
                 ' (platform_name, r) <- avhrr1_sheet s ;;
                 sat <- of_option KeyError (dget platform_name acc) ;;
                 avhrr1_sheets t (dset platform_name (dset ch_name (Some r) sat) acc)
             end
    end.
  (** avhrr1_rsr.py:42-71: [avhrr_path] is used whether or not it exists (line 51
      sets another attribute); convert2wavenumber is not defined *)
  Definition Avhrr1RSR (wavespace : string) : res (dict (dict (option (raw N)))) :=
    path <- get_path "avhrr/1" "path" ;;
    _ <- (if exists_ path then Ok "" else get_path "avhrr/1" "filename") ;;
    wb <- open_workbook path ;;
    rsr <- avhrr1_sheets wb (map (fun sat => (sat, map (fun ch => (ch, None)) (channels 1 4))) AVHRR1_SATELLITES) ;;
    if String.eqb wavespace "wavelength" then Ok rsr else Err AttributeError.
  (** avhrr1_rsr.py:149-162; None * None is a TypeError *)
  Definition avhrr1_band (o : option (raw N)) : res (h5band N) :=
    r <- of_option TypeError o ;;
    x <- get_central_wave (rw_wavelength r) (rw_response r) (WScalar n1) ;;
    Ok {| hb_count := None; hb_dets := [];
          hb_shared := {| hd_response := Some (map f32 (rw_response r)); hd_wavelength := Some (micro_wave f32 (rw_wavelength r)); hd_central := Some x |} |}.
  (** avhrr1_rsr.py:135-162 *)
  Definition generate_avhrr1_file (rsr : dict (dict (option (raw N)))) (platform_name : string) : res (h5file N) :=
    sat <- of_option KeyError (dget platform_name rsr) ;;
    bands <- on_items avhrr1_band sat ;;
    Ok {| h_band_names := Some (map TStr (dkeys sat)); h_description := Some (TStr "Relative Spectral Responses for AVHRR/1");
          h_platform_name := Some (TStr platform_name); h_platform := None; h_sat_number := None; h_sensor := None;
          h_bands := bands |}.

  (** ** Rewriting files *)
  (** split_metop_avhrr_rsrfile.py:38-41: lines up to the first that starts with AVHRR *)
  Fixpoint to_header (lines : list string) : nat :=
    match lines with
    | [] => 0%nat
    | l :: t => if startswith l "AVHRR" then 0%nat else S (to_header t)
    end.
  (** split_metop_avhrr_rsrfile.py:46-54 *)
  Fixpoint metop_rows (lines : list string) : res (list (N * N)) :=
    match lines with
    | [] => Ok []
    | l :: t =>
        match words l with
        | [a; b] => w <- py_float a ;; r <- py_float b ;; rest <- metop_rows t ;; Ok ((w, r) :: rest)
        | _ => Ok []
        end
    end.
  (** split_metop_avhrr_rsrfile.py:16-29 *)
  Definition CH_FILES : list string :=
    ["Metop_C_A309C001.txt"; "Metop_C_A309C002.txt"; "Metop_C_A309C03A.txt"; "Metop_C_A309C03B.txt"; "Metop_C_A309C004.txt"; "Metop_C_A309C005.txt"].
  (** split_metop_avhrr_rsrfile.py:36-62: the rows of every file written *)
  Fixpoint split_channels (files : list string) (lines : list string) (idx : nat) : res (list (string * list (N * N))) :=
    match files with
    | [] => Ok []
    | f :: fs =>
        let idx := (idx + to_header (skipn idx lines))%nat in
        rows <- metop_rows (skipn (idx + 2) (removelast lines)) ;;
        rest <- split_channels fs lines (idx + List.length rows) ;;
        Ok ((f, rev (map (fun p => (nlit N 1 1 / fst p * nlit N 10000 1, snd p)) rows)) :: rest)
    end.
  Definition split_metop (lines : list string) : res (list (string * list (N * N))) := split_channels CH_FILES lines 0.

  (** convert_avhrr_old2star.py:9-18 *)
  Definition VIS_FIELDS : list string := ["wvl1"; "resp1"; "wvl2"; "resp2"; "wvl3a"; "resp3a"].
  Definition IR_FIELDS : list string := ["wvl3b"; "resp3b"; "wvl4"; "resp4"; "wvl5"; "resp5"].
  Definition OUTPUT_FILES : dict string :=
    [("wvl1", "NOAA_15_A302xx01.txt"); ("wvl2", "NOAA_15_A302xx02.txt"); ("wvl3a", "NOAA_15_A302xx3A.txt");
     ("wvl3b", "NOAA_15_A302xx3B.txt"); ("wvl4", "NOAA_15_A302xx04.txt"); ("wvl5", "NOAA_15_A302xx05.txt")].
  (** the table that pandas reads: columns by name, cells as in the file *)
  Variable read_table : string -> list string -> res (dict (list cell)).
  (** the cells that are not '-', as 32-bit floats *)
  (** convert_avhrr_old2star.py:32-35 *)
  Definition star_values (l : list cell) : res (list N) :=
    mapM (fun c => x <- (match c with CNum x => Ok x | CText s => py_float s end) ;; Ok (f32 x))
         (filter (fun c => match c with CText s => negb (String.eqb s "-") | CNum _ => true end) l).
  (** convert_avhrr_old2star.py:28-42; columns of different lengths make no array *)
  Fixpoint unpack_fields (data : dict (list cell)) (fields : list string) : res (list (string * list (N * N))) :=
    match fields with
    | [] => Ok []
    | [_] => Err IndexError
    | fw :: fr :: rest =>
        wc <- of_option KeyError (dget fw data) ;;
        rc <- of_option KeyError (dget fr data) ;;
        w <- star_values wc ;;
        r0 <- star_values rc ;;
        let r := map (fun x => f32 (x / nlit N 100 1)) r0 in
        out <- of_option KeyError (dget fw OUTPUT_FILES) ;;
        if Nat.eqb (List.length w) (List.length r)
        then more <- unpack_fields data rest ;; Ok ((out, combine w r) :: more)
        else Err ValueError
    end.
  (** convert_avhrr_old2star.py:21-42 *)
  Definition unpack_data (filename : string) (fields : list string) : res (list (string * list (N * N))) :=
    data <- read_table filename fields ;; unpack_fields data fields.

  (** modis_old2new_rsr.py:55-69: the attributes of the new file *)
  Definition renamed (satname : string) (h : h5file N) : h5file N :=
    {| h_band_names := h_band_names h; h_description := h_description h; h_platform_name := Some (TStr satname);
       h_platform := None; h_sat_number := None; h_sensor := Some (TStr "modis"); h_bands := h_bands h |}.
  (** modis_old2new_rsr.py:50-69 over the files of a disk; an old file that is
      not there ends the script *)
  Fixpoint modis_old2new (basedir : string) (sats : list string) (disk : dict (h5file N)) : dict (h5file N) * option exn :=
    match sats with
    | [] => (disk, None)
    | satname :: rest =>
        match dget (join basedir ("rsr_modis_EOS-" ++ satname ++ ".h5")) disk with
        | None => (disk, Some FileNotFoundError)
        | Some h => modis_old2new basedir rest (dset (join basedir ("rsr_modis_" ++ satname ++ ".h5")) (renamed satname h) disk)
        end
    end.
End Books.
Arguments nc_var : clear implicits. Arguments nc_file : clear implicits. Arguments cell : clear implicits. Arguments book_sheet : clear implicits.
