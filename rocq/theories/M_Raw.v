(** Model of the raw readers: pyspectral/raw_reader.py and the scripts in
    rsr_convert_scripts that read text files, MODIS, VIIRS and SEVIRI.
    A converter turns the files of a space agency into the HDF5 files that
    [M_Hdf5] reads.  Simplified: paths are joined as in [M_World]; columns of a
    text file are accessed by position, whether the script uses a position or a
    name; a curve of one point stays an array (numpy.squeeze would make it a
    scalar). *)
From Coq Require Import String Ascii List Bool ZArith DecimalString.
From Verif Require Import Base NumSig M_Tables M_Utils M_World M_Hdf5.
Import ListNotations.
Local Open Scope string_scope.

(** ['ch1', ..., 'chN'] *)
(** lists of band names as in abi_rsr.py:20-23 *)
Definition channels (first count : nat) : list string :=
  map (fun i => "ch" ++ NilZero.string_of_uint (Nat.to_uint i)) (seq first count).

Section Convert.
  Context {N : Num}.
  Local Open Scope num_scope.

  (** ** Outside world *)
  (** get_config() *)
  Variable options : dict cfg.
  (** os.path.exists *)
  Variable exists_ : string -> bool.
  (** numpy.genfromtxt(file, skip_header=k): the columns, or an exception *)
  Variable columns : string -> nat -> res (list (list N)).

  (** ** raw_reader.py *)
  (** The object after construction, raw_reader.py:15-32 *)
  Record instrument_rsr := { ir_instrument : string; ir_output_dir : cfg; ir_rsr : option (raw N) }.

  (** raw_reader.py:34-40: the output directory, the section of the
      configuration and its path *)
  Definition get_options_from_config (platform_name instrument : string) : res (cfg * dict cfg * string) :=
    let output_dir := match dget "rsr_dir" options with Some c => c | None => Leaf (LStr "./") end in
    section <- of_option KeyError (dget (platform_name ++ "-" ++ instrument) options) ;;
    match section with
    | Leaf _ => Err TypeError
    | CMap m =>
        p <- of_option KeyError (dget "path" m) ;;
        match p with Leaf (LStr s) => Ok (output_dir, m, s) | _ => Err TypeError end
    end.
  (** raw_reader.py:42-52; files that are not there are only logged *)
  Fixpoint get_bandfilenames (section : dict cfg) (path : string) (bandnames : list string) (acc : dict string) : res (dict string) :=
    match bandnames with
    | [] => Ok acc
    | band :: rest =>
        v <- of_option KeyError (dget band section) ;;
        match v with
        | Leaf (LStr f) => get_bandfilenames section path rest (dset band (join path f) acc)
        | _ => Err TypeError
        end
    end.

  (** The constructor that the text readers share, e.g. abi_rsr.py:29-47 and
      avhrr_rsr.py:26-50.  [strict]: a missing file of the requested band is an
      IOError, otherwise it is logged and [rsr] stays None. *)
  Definition text_rsr (strict : bool) (bandnames : list string) (instrument bandname platform_name : string)
      (load : string -> res (raw N)) : res instrument_rsr :=
    ' (out, section, path) <- get_options_from_config platform_name instrument ;;
    filenames <- get_bandfilenames section path bandnames [] ;;
    f <- of_option KeyError (dget bandname filenames) ;;
    if exists_ f
    then r <- load f ;; Ok {| ir_instrument := instrument; ir_output_dir := out; ir_rsr := Some r |}
    else if strict then Err OSError
    else Ok {| ir_instrument := instrument; ir_output_dir := out; ir_rsr := None |}.

  (** INSTRUMENTS.get(platform, default) *)
  (** mersi1_rsr.py:37 *)
  Definition instrument_of (platform_name default : string) : instr_entry :=
    match dget platform_name INSTRUMENTS with Some i => i | None => IOne default end.
  (** [platform_name + '-' + instrument]: a list cannot be concatenated *)
  (** raw_reader.py:34-40 *)
  Definition as_name (i : instr_entry) : res string := match i with IOne s => Ok s | IList _ => Err TypeError end.
  (** [if type(self.instrument) is list: self.instrument = default] *)
  (** mersi1_rsr.py:38-39 *)
  Definition or_name (i : instr_entry) (default : string) : string := match i with IOne s => s | IList _ => default end.

  (** two columns of a text file, the first one scaled *)
  (** the _load methods, e.g. abi_rsr.py:49-59 *)
  Definition load_columns (skip wcol rcol : nat) (scale : N) (f : string) : res (raw N) :=
    data <- columns f skip ;;
    w <- idx data wcol ;;
    r <- idx data rcol ;;
    Ok {| rw_wavelength := map (fun x => x * scale) w; rw_response := r |}.
  Definition milli : N := nlit N 1 1000.

  (** abi_rsr.py:20-59 *)
  Definition AbiRSR (bandname platform_name : string) : res instrument_rsr :=
    text_rsr true (channels 1 16) "abi" bandname platform_name (load_columns 2 0 2 n1).
  (** avhrr_rsr.py:18-20 *)
  Definition AVHRR_BAND_NAMES : dict (list string) :=
    [("avhrr/3", ["ch1"; "ch2"; "ch3a"; "ch3b"; "ch4"; "ch5"]); ("avhrr/2", channels 1 5); ("avhrr/1", channels 1 4)].
  (** avhrr_rsr.py:23-63; a list is not a dictionary key *)
  Definition AvhrrRSR (bandname platform_name : string) : res instrument_rsr :=
    i <- of_option KeyError (dget platform_name INSTRUMENTS) ;;
    instrument <- as_name i ;;
    bandnames <- of_option KeyError (dget instrument AVHRR_BAND_NAMES) ;;
    text_rsr false bandnames instrument bandname platform_name
             (load_columns 1 0 1 (if String.eqb instrument "avhrr/1" then milli else n1)).
  (** [channel.index(bandname)] *)
  (** list.index, mersi1_rsr.py:74-78 *)
  Fixpoint index_of (b : string) (l : list string) : option nat :=
    match l with [] => None | x :: t => if String.eqb b x then Some 0%nat else option_map S (index_of b t) end.
  (** cocts_rsr.py:20-60: the column named after the band *)
  Definition CoctsRSR (bandname platform_name : string) : res instrument_rsr :=
    instrument <- as_name (instrument_of platform_name "cocts") ;;
    text_rsr false (channels 1 8) instrument bandname platform_name
             (fun f => i <- of_option ValueError (index_of bandname (channels 1 8)) ;; load_columns 0 0 (S i) milli f).
  (** mersi2_rsr.py:18-62 *)
  Definition Mersi2RSR (bandname platform_name : string) : res instrument_rsr :=
    instrument <- as_name (instrument_of platform_name "mersi-2") ;;
    text_rsr false (channels 1 25) instrument bandname platform_name (load_columns 0 0 1 milli).
  (** mersi3_rsr.py:16-61 *)
  Definition Mersi3RSR (bandname platform_name : string) : res instrument_rsr :=
    text_rsr false (channels 1 25) "mersi3" bandname platform_name (load_columns 0 0 1 milli).
  (** mersirm_rsr.py:14-54 *)
  Definition MersiRMRSR (bandname platform_name : string) : res instrument_rsr :=
    instrument <- as_name (instrument_of platform_name "mersi-rm") ;;
    text_rsr false (channels 1 8) instrument bandname platform_name (load_columns 1 0 1 milli).
  (** virr_rsr.py:18-21 *)
  Definition VIRR_BAND_NAMES : dict (list string) :=
    [("FY-3B", channels 1 10); ("FY-3C", ["ch1"; "ch2"] ++ channels 6 5)]%list.
  (** virr_rsr.py:24-60 *)
  Definition VirrRSR (bandname platform_name : string) : res instrument_rsr :=
    bandnames <- of_option KeyError (dget platform_name VIRR_BAND_NAMES) ;;
    instrument <- as_name (instrument_of platform_name "virr") ;;
    text_rsr false bandnames instrument bandname platform_name (load_columns 0 0 1 milli).

  (** wavenumbers in cm-1, reversed and turned into micrometres *)
  (** ami_reader.py:58-72 *)
  Definition reversed (f : N -> N) (r : raw N) : raw N :=
    {| rw_wavelength := map f (rev (rw_wavelength r)); rw_response := rev (rw_response r) |}.
  (** two columns as they are *)
  (** ami_reader.py:58-72 *)
  Definition two_columns (skip : nat) (f : string) : res (raw N) :=
    data <- columns f skip ;; w <- idx data 0 ;; r <- idx data 1 ;; Ok {| rw_wavelength := w; rw_response := r |}.
  (** ami_reader.py:19-72; [1. / data[::-1] * scale] *)
  Definition AmiRSR (bandname platform_name : string) : res instrument_rsr :=
    text_rsr false (channels 1 16) "ami" bandname platform_name
             (fun f => r <- two_columns 4 f ;; Ok (reversed (fun x => nlit N 1 1 / x * nlit N 10000 1) r)).
  (** msu_gs_reader.py:18-68 *)
  Definition MsugsRSR (bandname platform_name : string) : res instrument_rsr :=
    text_rsr false (channels 1 10) "msu-gs" bandname platform_name
             (fun f => r <- two_columns 4 f ;; Ok (reversed (fun x => nlit N 1 1 / x * nlit N 10000 1) r)).
  (** slstr_rsr_txt.py:22-61; [10000. / wvn] *)
  Definition SlstrTxtRSR (bandname platform_name : string) : res instrument_rsr :=
    text_rsr true (channels 1 9) "slstr" bandname platform_name
             (fun f => r <- two_columns 4 f ;; Ok (reversed (fun x => nlit N 10000 1 / x) r)).

  (** [pts = np.argwhere(response > limit)] and both arrays at [pts],
      agri_rsr.py:99-103 *)
  Definition cut (limit : N) (r : raw N) : raw N :=
    let kept := filter (fun p => limit <? snd p) (combine (rw_wavelength r) (rw_response r)) in
    {| rw_wavelength := map fst kept; rw_response := map snd kept |}.
  (** agri_rsr.py:95-97; the maximum of an empty array is a ValueError *)
  Definition percent_to_fraction (resp : list N) : res (list N) :=
    match resp with
    | [] => Err ValueError
    | _ => Ok (if existsb (fun x => n1 <? x) resp then map (fun x => x / nlit N 100 1) resp else resp)
    end.
  (** agri_rsr.py:81-105, ghi_rsr.py:56-80 *)
  Definition load_agri (scale : N) (f : string) : res (raw N) :=
    r <- load_columns 1 0 1 scale f ;;
    resp <- percent_to_fraction (rw_response r) ;;
    Ok (cut (nlit N 1 1000) {| rw_wavelength := rw_wavelength r; rw_response := resp |}).
  (** agri_rsr.py:16-44, ghi_rsr.py:15-22: which bands are in nanometres (1/1000)
      and which in micrometres (1) *)
  Definition in_nanometres (nano micro : list string) : dict N :=
    (map (fun b => (b, milli)) nano ++ map (fun b => (b, n1)) micro)%list.
  Definition AGRI_SCALES : dict (dict N) :=
    [("FY-4A", in_nanometres (channels 1 3) (channels 4 11)); ("FY-4B", in_nanometres (channels 1 6) (channels 7 9))].
  Definition GHI_SCALES : dict (dict N) := [("FY-4B", in_nanometres (channels 1 6) (channels 7 1))].
  (** agri_rsr.py:64-73 *)
  Definition scaled_load (scales : dict (dict N)) (platform_name bandname f : string) : res (raw N) :=
    d <- of_option KeyError (dget platform_name scales) ;;
    match dget bandname d with Some s => load_agri s f | None => Err AttributeError end.
  (** agri_rsr.py:47-79 *)
  Definition AgriRSR (bandname platform_name : string) : res instrument_rsr :=
    text_rsr false (if String.eqb platform_name "FY-4A" then channels 1 14 else channels 1 15)
             (or_name (instrument_of platform_name "agri") "agri") bandname platform_name (scaled_load AGRI_SCALES platform_name bandname).
  (** ghi_rsr.py:25-54 *)
  Definition GhiRSR (bandname platform_name : string) : res instrument_rsr :=
    text_rsr false (channels 1 7) (or_name (instrument_of platform_name "ghi") "ghi") bandname platform_name
             (scaled_load GHI_SCALES platform_name bandname).

  (** mersi1_rsr.py:20-25 *)
  Definition MERSI1_FY3AC_BAND_NAMES : list string := channels 1 20.
  Definition MERSI1_FY3B_BAND_NAMES : list string := (channels 1 4 ++ channels 6 15)%list.
  (** mersi1_rsr.py:66-78: which column holds the response *)
  Definition mersi1_column (platform_name bandname : string) : res nat :=
    if negb (String.eqb platform_name "FY-3B") then Ok 1%nat
    else match index_of bandname (channels 1 4) with
         | Some i => Ok (i + 1)%nat
         | None => match index_of bandname (channels 8 13) with
                   | Some i => Ok (i + 4)%nat
                   | None => i <- of_option ValueError (index_of bandname ["ch6"; "ch7"]) ;; Ok (i + 1)%nat
                   end
         end.
  (** mersi1_rsr.py:55-94; for a band named "1", "2" or "3" line 90 takes a field
      of an array that has none *)
  Definition load_mersi1 (platform_name bandname f : string) : res (raw N) :=
    data <- columns f 0 ;;
    w <- idx data 0 ;;
    c <- mersi1_column platform_name bandname ;;
    r <- idx data c ;;
    if existsb_str bandname ["1"; "2"; "3"] then Err IndexError
    else Ok (cut (nlit N 1 1000) {| rw_wavelength := map (fun x => x * milli) w; rw_response := r |}).
  (** mersi1_rsr.py:28-53 *)
  Definition Mersi1RSR (bandname platform_name : string) : res instrument_rsr :=
    text_rsr false (if String.eqb platform_name "FY-3B" then MERSI1_FY3B_BAND_NAMES else MERSI1_FY3AC_BAND_NAMES)
             (or_name (instrument_of platform_name "mersi-1") "mersi-1") bandname platform_name (load_mersi1 platform_name bandname).

  (** What convert2hdf5 sees of such an object *)
  (** utils.py:280-297 *)
  Definition sensor_of (o : instrument_rsr) : sensor N :=
    {| sn_instrument := ir_instrument o; sn_rsr := match ir_rsr o with Some r => RSingle r | None => RNone end |}.

  (** ** MODIS *)
  (** open(file).readlines(); int(s); float(s); numpy.argsort *)
  Variable readlines : string -> res (list string).
  Variable py_int : string -> res Z.
  Variable py_float : string -> res N.
  Variable argsort : list N -> list nat.
  (** 32-bit storage *)
  Variable f32 : N -> N.

  (** str.split() *)
  (** modis_rsr.py:111 *)
  Fixpoint words_from (cur : string) (s : string) : list string :=
    match s with
    | EmptyString => if String.eqb cur "" then [] else [cur]
    | String c t =>
        if is_space c then (if String.eqb cur "" then words_from "" t else cur :: words_from "" t)
        else words_from (cur ++ String c EmptyString) t
    end.
  Definition words (s : string) : list string := words_from "" s.
  (** 'det-{0:d}'.format(z) *)
  (** modis_rsr.py:112 *)
  Definition det_label (z : Z) : string :=
    if (z <? 0)%Z then "det-" ++ NilZero.string_of_int (Z.to_int z) else det_name (Z.to_nat z).
  (** modis_rsr.py:108-117: one line *)
  Definition modis_line (scale : N) (line : string) (detectors : dict (raw N)) : res (dict (raw N)) :=
    if String.eqb (substring 0 1 line) "#" then Ok detectors
    else match words line with
         | [_; det_num; s_1; s_2] =>
             z <- py_int det_num ;;
             let name := det_label z in
             let d := match dget name detectors with Some d => d | None => {| rw_wavelength := []; rw_response := [] |} end in
             w <- py_float s_1 ;;
             r <- py_float s_2 ;;
             Ok (dset name {| rw_wavelength := rw_wavelength d ++ [w * scale]; rw_response := rw_response d ++ [r] |} detectors)%list
         | _ => Err ValueError
         end.
  Fixpoint modis_lines (scale : N) (lines : list string) (detectors : dict (raw N)) : res (dict (raw N)) :=
    match lines with
    | [] => Ok detectors
    | l :: ls => d <- modis_line scale l detectors ;; modis_lines scale ls d
    end.
  (** modis_rsr.py:119-124: without the rows whose response is -99 *)
  Definition compressed (r : raw N) : raw N :=
    let kept := filter (fun p => negb (snd p =? nlit N (-99) 1)) (combine (rw_wavelength r) (rw_response r)) in
    {| rw_wavelength := map fst kept; rw_response := map snd kept |}.
  (** modis_rsr.py:94-126 *)
  Definition read_modis_response (f : string) (scale : N) : res (dict (raw N)) :=
    lines <- readlines f ;; d <- modis_lines scale lines [] ;; Ok (dmap compressed d).

  (** modis_rsr.py:13 *)
  Definition MODIS_BANDS : list nat := seq 1 36.
  Definition band_number (i : nat) : string := NilZero.string_of_uint (Nat.to_uint i).
  Definition is_shortwave (b : string) : bool := existsb_str b (map band_number (seq 1 19 ++ [26]))%list.
  (** '{0:>02d}' *)
  (** modis_rsr.py:49-67 *)
  Definition two_digits (i : nat) : string := if Nat.ltb i 10 then "0" ++ band_number i else band_number i.
  (** modis_rsr.py:49-67 *)
  Definition modis_filename (platform_name path : string) (bnum : nat) : string :=
    if String.eqb platform_name "EOS-Terra" then join path ("rsr." ++ band_number bnum ++ ".inb.final")
    else if existsb (Nat.eqb bnum) ([5; 6; 7] ++ seq 20 17)%list then join path (two_digits bnum ++ ".tv.1pct.det")
    else join path (two_digits bnum ++ ".amb.1pct.det").
  (** modis_rsr.py:80-91 *)
  Fixpoint sort_dets (d : dict (raw N)) : res (dict (raw N)) :=
    match d with
    | [] => Ok []
    | (k, r) :: t =>
        ' (w, resp) <- sort_data (argsort (rw_wavelength r)) (rw_wavelength r) (rw_response r) ;;
        rest <- sort_dets t ;;
        Ok ((k, {| rw_wavelength := w; rw_response := resp |}) :: rest)
    end.
  (** modis_rsr.py:20-47, 69-78: the detectors of a band *)
  Definition ModisRSR (bandname platform_name : string) : res (dict (raw N)) :=
    section <- of_option KeyError (dget (platform_name ++ "-modis") options) ;;
    path <- (match section with
             | Leaf _ => Err AttributeError
             | CMap m => match dget "path" m with Some (Leaf (LStr s)) => Ok s | _ => Err TypeError end
             end) ;;
    f <- of_option KeyError (dget bandname (map (fun i => (band_number i, modis_filename platform_name path i)) MODIS_BANDS)) ;;
    if exists_ f
    then d <- read_modis_response f (if is_shortwave bandname || String.eqb platform_name "EOS-Aqua" then milli else n1) ;; sort_dets d
    else Err OSError.

  (** numpy.isclose with the default tolerances *)
  (** modis_rsr.py:152-157 *)
  Definition isclose (a b : N) : bool :=
    if a =? b then true
    else if nisinf N b || nisnan N b || nisinf N a then false
    else nabs (a - b) <=? nlit N 1 100000000 + nlit N 1 100000 * nabs b.
  (** same shape and numpy.allclose, modis_rsr.py:152-157 *)
  Definition same_wavelengths (w w' : list N) : bool :=
    Nat.eqb (List.length w) (List.length w') && forallb (fun p => isclose (fst p) (snd p)) (combine w w').
  Definition micro_wave (w : list N) : h5wave N := {| wv_data := map f32 w; wv_scale := Some (nlit N 1 1000000) |}.
  (** modis_rsr.py:167-185: the group of one detector *)
  Definition modis_detector (constant : bool) (r : raw N) : res (h5data N) :=
    wvl <- where_wave (rw_wavelength r) (rw_wavelength r) ;;
    rsp <- where_wave (rw_wavelength r) (rw_response r) ;;
    c <- get_central_wave wvl rsp (WScalar n1) ;;
    Ok {| hd_response := Some (map f32 (rw_response r));
          hd_wavelength := if constant then None else Some (micro_wave (rw_wavelength r)); hd_central := Some c |}.
  Fixpoint on_dets (f : raw N -> res (h5data N)) (d : dict (raw N)) : res (dict (h5data N)) :=
    match d with
    | [] => Ok []
    | (k, r) :: t => g <- f r ;; rest <- on_dets f t ;; Ok ((k, g) :: rest)
    end.
  (** modis_rsr.py:144-185: the group of one band *)
  Definition modis_band (rsr : dict (raw N)) : res (h5band N) :=
    first <- of_option IndexError (hd_error rsr) ;;
    let wvl := rw_wavelength (snd first) in
    let constant := forallb (fun d => same_wavelengths wvl (rw_wavelength (snd d))) (tl rsr) in
    dets <- on_dets (modis_detector constant) rsr ;;
    Ok {| hb_count := Some (Z.of_nat (List.length rsr)); hb_dets := dets;
          hb_shared := {| hd_response := None; hd_wavelength := if constant then Some (micro_wave wvl) else None; hd_central := None |} |}.
  Fixpoint on_bands (f : string -> res (h5band N)) (names : list string) : res (dict (h5band N)) :=
    match names with
    | [] => Ok []
    | b :: bs => g <- f b ;; rest <- on_bands f bs ;; Ok ((b, g) :: rest)
    end.
  (** modis_rsr.py:129-185 *)
  Definition modis_convert2hdf5 (platform_name : string) : res (h5file N) :=
    _ <- ModisRSR "20" platform_name ;;
    bands <- on_bands (fun b => rsr <- ModisRSR b platform_name ;; modis_band rsr) (map band_number MODIS_BANDS) ;;
    Ok {| h_band_names := Some (map (fun i => TStr (band_number i)) MODIS_BANDS);
          h_description := Some (TStr "Relative Spectral Responses for MODIS");
          h_platform_name := Some (TStr platform_name); h_platform := None; h_sat_number := None; h_sensor := None;
          h_bands := bands |}.

  (** ** VIIRS *)
  (** viirs_rsr.py:16-20 *)
  Definition VIIRS_BAND_NAMES : list string :=
    (map (fun i => append "M" (band_number i)) (seq 1 16) ++ map (fun i => append "I" (band_number i)) (seq 1 5) ++ ["DNB"])%list.
  (** viirs_rsr.py:153-162: [line] is the last line read *)
  Fixpoint header_lines (lines : list string) : nat :=
    match lines with
    | [] => 0%nat
    | l :: ls => if String.eqb (substring 0 1 l) "%" then S (header_lines ls) else 0%nat
    end.
  (** numpy.genfromtxt with the format of the platform: wavelength, response and
      detector of every row; the second function is the other format *)
  Variable viirs_rows : string -> nat -> string -> res (list (N * N * Z)).
  Variable viirs_rows2 : string -> nat -> res (list (N * N * Z)).
  (** viirs_rsr.py:25-51 and 54-66: platforms with a format, and with another one
      (an empty format for NOAA-20 has no columns: ValueError) *)
  Definition viirs_data (f : string) (skip : nat) (platform_name : string) : res (list (N * N * Z)) :=
    if negb (existsb_str platform_name ["Suomi-NPP"; "NOAA-20"; "NOAA-21"]) then Err KeyError
    else match viirs_rows f skip platform_name with
         | Err ValueError =>
             if String.eqb platform_name "Suomi-NPP" then viirs_rows2 f skip
             else if String.eqb platform_name "NOAA-20" then Err ValueError else Err KeyError
         | r => r
         end.
  (** viirs_rsr.py:138-150; [max] of nothing is a ValueError.  (A file of one row
      would be a scalar; not modelled.) *)
  Definition viirs_detectors (rows : list (N * N * Z)) : res (dict (raw N)) :=
    match map snd rows with
    | [] => Err ValueError
    | d :: ds =>
        let top := fold_left Z.max ds d in
        Ok (map (fun i =>
                   let mine := filter (fun row => (snd row =? Z.of_nat i)%Z) rows in
                   (det_name i, {| rw_wavelength := map (fun row => fst (fst row) * milli) mine; rw_response := map (fun row => snd (fst row)) mine |}))
                (seq 1 (Z.to_nat top)))
    end.
  (** viirs_rsr.py:96-122: the file of a band; the composed names of a
      configuration section ([trollsift.compose]) are the argument *)
  Variable viirs_file : string -> string -> res string.
  (** viirs_rsr.py:79-94, 110-150 *)
  Definition ViirsRSR (bandname platform_name : string) : res (dict (raw N)) :=
    f <- viirs_file platform_name bandname ;;
    if exists_ f then
      lines <- readlines f ;;
      rows <- viirs_data f (header_lines lines) platform_name ;;
      viirs_detectors rows
    else Err OSError.

  (** [np.unique(w, return_index=True)] and the payload at the indices: sorted
      by wavelength, the first one of equal wavelengths, NaN last and once *)
  (** viirs_rsr.py:195, 198, 218 *)
  Fixpoint insert_unique {A} (p : N * A) (l : list (N * A)) : list (N * A) :=
    match l with
    | [] => [p]
    | q :: t =>
        if nisnan N (fst q) then (if nisnan N (fst p) then l else p :: l)
        else if fst p <? fst q then p :: l
        else if fst p =? fst q then l
        else q :: insert_unique p t
    end.
  Definition np_unique {A} (l : list (N * A)) : list (N * A) := fold_left (fun acc p => insert_unique p acc) l [].
  Definition unique_waves (w : list N) : list N := map fst (np_unique (map (fun x => (x, tt)) w)).
  (** [np.alltrue(w == w')]: one value is compared with all; arrays of different
      lengths are unequal (an error since NumPy 1.25) *)
  (** viirs_rsr.py:199 *)
  Definition all_equal (w w' : list N) : bool :=
    match w, w' with
    | [a], _ => forallb (fun b => a =? b) w'
    | _, [b] => forallb (fun a => a =? b) w
    | _, _ => Nat.eqb (List.length w) (List.length w') && forallb (fun p => fst p =? snd p) (combine w w')
    end.
  (** viirs_rsr.py:212-232: the group of one detector *)
  Definition viirs_detector (constant : bool) (r : raw N) : res (h5data N) :=
    wvl <- where_wave (rw_wavelength r) (rw_wavelength r) ;;
    rsp <- where_wave (rw_wavelength r) (rw_response r) ;;
    let u := np_unique (combine wvl rsp) in
    c <- get_central_wave (map fst u) (map snd u) (WScalar n1) ;;
    Ok {| hd_response := Some (map f32 (map snd u));
          hd_wavelength := if constant then None else Some (micro_wave (map fst u)); hd_central := Some c |}.
  (** viirs_rsr.py:186-232 *)
  Definition viirs_band (rsr : dict (raw N)) : res (h5band N) :=
    first <- of_option IndexError (hd_error rsr) ;;
    let wvl := unique_waves (rw_wavelength (snd first)) in
    let constant := forallb (fun d => all_equal wvl (unique_waves (rw_wavelength (snd d)))) (tl rsr) in
    dets <- on_dets (viirs_detector constant) rsr ;;
    Ok {| hb_count := Some (Z.of_nat (List.length rsr)); hb_dets := dets;
          hb_shared := {| hd_response := None; hd_wavelength := if constant then Some (micro_wave wvl) else None; hd_central := None |} |}.
  (** viirs_rsr.py:165-232 *)
  Definition create_viirs_rsr (platform_name : string) : res (h5file N) :=
    _ <- ViirsRSR "M1" platform_name ;;
    bands <- on_bands (fun b => rsr <- ViirsRSR b platform_name ;; viirs_band rsr) VIIRS_BAND_NAMES ;;
    Ok {| h_band_names := Some (map TStr VIIRS_BAND_NAMES);
          h_description := Some (TStr "Relative Spectral Responses for VIIRS");
          h_platform_name := Some (TStr platform_name); h_platform := None; h_sat_number := None; h_sensor := Some (TStr "viirs");
          h_bands := bands |}.

  (** ** SEVIRI *)
  (** A work sheet: its name and its columns of numbers *)
  (** the work book of seviri_rsr.py:55-135 *)
  Record sheet := { sh_name : string; sh_columns : list (list N) }.
  (** sheet.col_values(c, start_rowx=a, end_rowx=b) *)
  (** the work book of seviri_rsr.py:55-135 *)
  Definition col_values (s : sheet) (c a b : nat) : res (list N) :=
    col <- idx (sh_columns s) c ;; Ok (firstn (b - a) (skipn a col)).
  (** the responses of a satellite: an array, or one for each of '95' and '85' *)
  (** the work book of seviri_rsr.py:55-135 *)
  Inductive sat_rsr := SArr (l : list N) | STemps (t95 t85 : list N).
  Record sev_channel := { sv_wavelength : list N; sv_sats : dict sat_rsr }.
  Definition plain_sats (s : sheet) (a b : nat) (cols : list nat) : res (dict sat_rsr) :=
    rs <- mapM (fun c => l <- col_values s c a b ;; Ok (SArr l)) cols ;;
    Ok (combine ["Meteosat-8"; "Meteosat-9"; "Meteosat-10"; "Meteosat-11"] rs).
  (** seviri_rsr.py:76-133 *)
  Definition load_sheet (s : sheet) : res sev_channel :=
    let ch_name := strip (sh_name s) in
    if prefix "HRV" ch_name then
      w <- col_values s 0 37 137 ;; sats <- plain_sats s 37 137 [1; 3; 5; 6]%nat ;; Ok {| sv_wavelength := w; sv_sats := sats |}
    else if prefix "IR" ch_name then
      w <- col_values s 0 13 113 ;;
      t95 <- mapM (fun c => col_values s c 13 113) [1; 3; 5; 7]%nat ;;
      t85 <- mapM (fun c => col_values s c 13 113) [2; 4; 6; 8]%nat ;;
      Ok {| sv_wavelength := w;
            sv_sats := combine ["Meteosat-8"; "Meteosat-9"; "Meteosat-10"; "Meteosat-11"] (map (fun p => STemps (fst p) (snd p)) (combine t95 t85)) |}
    else
      w <- col_values s 0 12 112 ;; sats <- plain_sats s 12 112 [1; 2; 3; 4]%nat ;; Ok {| sv_wavelength := w; sv_sats := sats |}.
  (** seviri_rsr.py:55-135 *)
  Fixpoint load_sheets (l : list sheet) (acc : dict sev_channel) : res (dict sev_channel) :=
    match l with
    | [] => Ok acc
    | s :: t =>
        if existsb_str (sh_name s) ["Info"; "Requirements"] then load_sheets t acc
        else c <- load_sheet s ;; load_sheets t (dset (strip (sh_name s)) c acc)
    end.
  (** seviri_rsr.py:192-194 *)
  Definition sev_central_wave (wavl resp : list N) : res N := get_central_wave wavl resp (WScalar n1).
  (** the coordinate: wavelengths, or wavenumbers after convert2wavenumber *)
  (** the attributes of seviri_rsr.py:20-53 *)
  Record seviri := { se_wavespace : string; se_rsr : dict sev_channel; se_centrals : dict (dict (N * N)) }.
  (** seviri_rsr.py:137-158: [sv_wavelength] then holds the wavenumbers *)
  Definition sev_wavenumber (c : sev_channel) : sev_channel :=
    {| sv_wavelength := rev (map wl2wn (sv_wavelength c));
       sv_sats := dmap (fun r => match r with SArr l => SArr (rev l) | STemps a b => STemps (rev a) (rev b) end) (sv_sats c) |}.
  Fixpoint on_items {A B} (f : A -> res B) (d : dict A) : res (dict B) :=
    match d with
    | [] => Ok []
    | (k, a) :: t => b <- f a ;; rest <- on_items f t ;; Ok ((k, b) :: rest)
    end.
  (** seviri_rsr.py:160-189: the central wave of an array; of both arrays for
      the infrared channels *)
  Definition sev_central (c : sev_channel) (r : sat_rsr) : res (N * N) :=
    match r with
    | SArr l => x <- sev_central_wave (sv_wavelength c) l ;; Ok (x, x)
    | STemps a b => x <- sev_central_wave (sv_wavelength c) a ;; y <- sev_central_wave (sv_wavelength c) b ;; Ok (x, y)
    end.
  Definition get_centrals (d : dict sev_channel) : res (dict (dict (N * N))) :=
    on_items (fun c => on_items (sev_central c) (sv_sats c)) d.
  (** seviri_rsr.py:20-53, the work book being read *)
  Definition Seviri (sheets : list sheet) (wavespace : string) : res seviri :=
    d <- load_sheets sheets [] ;;
    if negb (existsb_str wavespace ["wavelength"; "wavenumber"]) then Err AttributeError
    else
      let d := if String.eqb wavespace "wavenumber" then dmap sev_wavenumber d else d in
      c <- get_centrals d ;;
      Ok {| se_wavespace := wavespace; se_rsr := d; se_centrals := c |}.
  (** seviri_rsr.py:228-231: [array['95']] is an IndexError, which
      [except ValueError] does not catch *)
  Definition sev_response (r : sat_rsr) : res (list N) := match r with STemps a _ => Ok a | SArr _ => Err IndexError end.
  (** seviri_rsr.py:215-233; [central_wavelength] is None in wavenumber space *)
  Definition sev_band (s : seviri) (platform_name key : string) (c : sev_channel) : res (h5band N) :=
    if String.eqb (se_wavespace s) "wavenumber" then Err TypeError
    else
      cs <- of_option KeyError (dget key (se_centrals s)) ;;
      central <- of_option KeyError (dget platform_name cs) ;;
      r <- of_option KeyError (dget platform_name (sv_sats c)) ;;
      resp <- sev_response r ;;
      Ok {| hb_count := None; hb_dets := [];
            hb_shared := {| hd_response := Some (map f32 resp); hd_wavelength := Some (micro_wave (sv_wavelength c)); hd_central := Some (fst central) |} |}.
  Fixpoint sev_bands (s : seviri) (platform_name : string) (d : dict sev_channel) : res (dict (h5band N)) :=
    match d with
    | [] => Ok []
    | (k, c) :: t => g <- sev_band s platform_name k c ;; rest <- sev_bands s platform_name t ;; Ok ((k, g) :: rest)
    end.
  (** seviri_rsr.py:197-233 *)
  Definition generate_seviri_file (s : seviri) (platform_name : string) : res (h5file N) :=
    bands <- sev_bands s platform_name (se_rsr s) ;;
    Ok {| h_band_names := Some (map TStr (dkeys (se_rsr s)));
          h_description := Some (TStr "Relative Spectral Responses for SEVIRI");
          h_platform_name := Some (TStr platform_name); h_platform := None; h_sat_number := None; h_sensor := None;
          h_bands := bands |}.
End Convert.
Arguments instrument_rsr : clear implicits. Arguments sheet : clear implicits. Arguments sat_rsr : clear implicits. Arguments sev_channel : clear implicits. Arguments seviri : clear implicits.
