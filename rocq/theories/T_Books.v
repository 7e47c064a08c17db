(** Property theorems C101, C102 (readers of NetCDF files and work books). *)
From Coq Require Import String Ascii List Bool ZArith Lia Reals Lra.
From Verif Require Import Base NumSig XR M_Tables M_Utils M_World M_Hdf5 M_Raw M_Books S_Raw S_Raw2 S_Hdf5 S_Names S_Utils S_Books P_Books P_Books2 P_Books3 P_Books4 P_Books9 Samples7 Samples12.
Import ListNotations.
Local Open Scope string_scope.

(** ** C101: NetCDF *)
Theorem C101_fci : forall (N : Num) options (dataset : string -> res (nc_file N)) b p o, FciRSR options dataset b p = Ok o ->
  exists path f nc names, entry options p "fci" "path" path /\ entry options p "fci" "filename" f /\ dataset (path ++ "/" ++ f) = Ok nc /\
    dget "channel_id" (nc_variables nc) = Some (NVText names) /\ (ir_rsr o = None <-> ~ In b names) /\
    forall r, ir_rsr o = Some r -> exists i wr yr w, last_at names b i /\ dget "wavelength" (nc_variables nc) = Some (NV2 wr) /\
      dget "srf" (nc_variables nc) = Some (NV2 yr) /\ column_of wr i w /\ column_of yr i (rw_response r) /\
      rw_wavelength r = map (fun x => nmul N x (nlit N 1000000 1)) w.
Proof. exact @fci_ok. Qed.
Print Assumptions C101_fci.
Theorem C101_fci_succeeds : forall (N : Num) options (dataset : string -> res (nc_file N)) b p path f nc names wr yr,
  entry options p "fci" "path" path -> entry options p "fci" "filename" f -> dataset (path ++ "/" ++ f) = Ok nc -> dget "channel_id" (nc_variables nc) = Some (NVText names) ->
  dget "wavelength" (nc_variables nc) = Some (NV2 wr) -> dget "srf" (nc_variables nc) = Some (NV2 yr) ->
  Forall (fun row => List.length row = List.length names) wr -> Forall (fun row => List.length row = List.length names) yr -> exists o, FciRSR options dataset b p = Ok o.
Proof. exact @fci_total. Qed.
Print Assumptions C101_fci_succeeds.
Example C101_case_fci : forall N : Num, (exists o r, FciRSR nc_options nc_sample "vis_04" "Meteosat-12" = Ok o /\ ir_rsr o = Some r /\ rw_response r = [nlit N 9 1; nlit N 2 1]) /\
  exists o, @FciRSR N nc_options nc_sample "vis_05" "Meteosat-12" = Ok o /\ ir_rsr o = None.
Proof. exact @fci_case. Qed.
Theorem C101_olci : forall (N : Num) options ex (dataset : string -> res (nc_file N)) b p o, OlciRSR options ex dataset b p = Ok o ->
  exists path nc i yr wr w r, entry options p "olci" "path" path /\ ex path = true /\ dataset path = Ok nc /\
    nth_error OLCI_NAMES i = Some b /\ dget "mean_spectral_response_function" (nc_variables nc) = Some (NV2 yr) /\
    dget "mean_spectral_response_function_wavelength" (nc_variables nc) = Some (NV2 wr) /\
    nth_error yr i = Some (rw_response r) /\ nth_error wr i = Some w /\ ir_rsr o = Some r /\ rw_wavelength r = map (fun x => nmul N x (nlit N 1 1000)) w.
Proof. exact @olci_ok. Qed.
Print Assumptions C101_olci.
Theorem C101_olci_succeeds : forall (N : Num) options ex (dataset : string -> res (nc_file N)) b p path nc i yr wr y w,
  entry options p "olci" "path" path -> ex path = true -> dataset path = Ok nc -> nth_error OLCI_NAMES i = Some b ->
  dget "mean_spectral_response_function" (nc_variables nc) = Some (NV2 yr) -> dget "mean_spectral_response_function_wavelength" (nc_variables nc) = Some (NV2 wr) ->
  nth_error yr i = Some y -> nth_error wr i = Some w -> exists o, OlciRSR options ex dataset b p = Ok o.
Proof. exact @olci_total. Qed.
Print Assumptions C101_olci_succeeds.
Theorem C101_olci_missing : forall (N : Num) options ex (dataset : string -> res (nc_file N)) b p path, entry options p "olci" "path" path -> ex path = false ->
  OlciRSR options ex dataset b p = Err OSError.
Proof. exact (fun N options ex dataset b p path => path_missing options ex "olci" p path (load_olci dataset b)). Qed.
Print Assumptions C101_olci_missing.
Example C101_case_olci : forall N : Num, (exists o r, @OlciRSR N nc_options all_there nc_sample "Oa02" "Sentinel-3A" = Ok o /\ ir_rsr o = Some r /\ rw_response r = [nlit N 3 1; nlit N 4 1]) /\
  entry nc_options "Sentinel-3A" "olci" "path" "/raw/olci.nc".
Proof. intros N. split; [exact olci_case|]. eexists. split; reflexivity. Qed.
Theorem C101_slstr : forall (N : Num) options ex (dataset : string -> res (nc_file N)) b p o, SlstrRSR options ex dataset b p = Ok o ->
  exists file nc w r, configured options p "slstr" b file /\ ex file = true /\ dataset file = Ok nc /\
    dget "wavelength" (nc_variables nc) = Some (NV1 w) /\ dget "response" (nc_variables nc) = Some (NV1 (rw_response r)) /\
    ir_rsr o = Some r /\ rw_wavelength r = map (fun x => nmul N x (nlit N 1 1)) w.
Proof. exact @slstr_ok. Qed.
Print Assumptions C101_slstr.
(** exactly the nine bands, for all of which there must be an entry *)
Theorem C101_slstr_bands : forall (N : Num) options ex (dataset : string -> res (nc_file N)) b p o, SlstrRSR options ex dataset b p = Ok o ->
  In b SLSTR_BANDS /\ forall b', In b' SLSTR_BANDS -> exists f, configured options p "slstr" b' f.
Proof. exact @slstr_known. Qed.
Print Assumptions C101_slstr_bands.
Theorem C101_slstr_succeeds : forall (N : Num) options ex (dataset : string -> res (nc_file N)) b p file, In b SLSTR_BANDS ->
  (forall b', In b' SLSTR_BANDS -> exists f, configured options p "slstr" b' f) -> configured options p "slstr" b file ->
  (ex file = false -> SlstrRSR options ex dataset b p = Err OSError) /\
  (forall nc w y, ex file = true -> dataset file = Ok nc -> dget "wavelength" (nc_variables nc) = Some (NV1 w) -> dget "response" (nc_variables nc) = Some (NV1 y) ->
     exists o, SlstrRSR options ex dataset b p = Ok o /\ ir_rsr o = Some {| rw_wavelength := map (fun x => nmul N x (nlit N 1 1)) w; rw_response := y |}).
Proof. exact @slstr_complete. Qed.
Print Assumptions C101_slstr_succeeds.
Example C101_case_slstr : forall N : Num, exists o r, @SlstrRSR N nc_options all_there nc_sample "ch3" "Sentinel-3A" = Ok o /\ ir_rsr o = Some r /\ rw_response r = [nlit N 3 1; nlit N 4 1].
Proof. exact @slstr_case. Qed.
Example C101_slstr_succeeds_case : forall N : Num, (forall b', In b' SLSTR_BANDS -> exists f, configured nc_options "Sentinel-3A" "slstr" b' f) /\
  @SlstrRSR N nc_options (fun _ => false) nc_sample "ch9" "Sentinel-3A" = Err OSError /\ @SlstrRSR N nc_options all_there nc_sample "ch10" "Sentinel-3A" = Err KeyError.
Proof. intros N. destruct (@slstr_case N) as (o & r & H & _). split; [exact (proj2 (slstr_known _ _ _ _ _ _ H))|]. split; reflexivity. Qed.
Theorem C101_metimage : forall options ex py_int dataset b p o, reads_digits py_int -> @MetImageRSR XRN options ex py_int dataset b p = Ok o ->
  exists path, entry options p "metimage" "path" path /\ (ir_rsr o = None <-> ex path = false) /\
    forall r, ir_rsr o = Some r -> exists d z g nc vars rows w y m, In (b, d, z) METIMAGE /\ metimage_group z g /\ dataset path = Ok nc /\
      dget g (nc_groups nc) = Some vars /\ dget ("ISRF_cw_" ++ d) vars = Some (NV2 rows) /\ column_of rows 0 w /\ column_of rows 1 y /\
      peak y m /\ rw_wavelength r = map (fun x => nmul XRN x (nlit XRN 1 1)) w /\ rw_response r = map (fun x => ndiv XRN x m) y.
Proof. exact metimage_ok. Qed.
Print Assumptions C101_metimage.
Example C101_case_metimage : reads_digits met_int /\ exists o, @MetImageRSR XRN met_options all_there met_int met_dataset "vii-24" "Metop-SG-A1" = Ok o /\ ir_rsr o <> None.
Proof. exact (conj met_digits met_load). Qed.
(** The file written by the script. *)
Theorem C101_metimage_file : forall options ex py_int f32 dataset p path nc (curve : string -> list (R * R)),
  entry options p "metimage" "path" path -> ex path = true -> dataset path = Ok nc -> reads_digits py_int ->
  (forall b d z, In (b, d, z) METIMAGE -> (exists g vars, metimage_group z g /\ dget g (nc_groups nc) = Some vars /\
     dget ("ISRF_cw_" ++ d) vars = Some (NV2 (two_columns (curve b)))) /\ exists q, In q (curve b) /\ (0 < snd q)%R) ->
  exists h i, @generate_metimage_file XRN options ex py_int f32 dataset p = Ok h /\ read_rsr h = Ok i /\
    ri_bands i = map (fun q => fst (fst q)) METIMAGE /\ oscar_opt (Some p) (ri_platform i) /\ dkeys (ri_rsr i) = ri_bands i /\
    forall b d z, In (b, d, z) METIMAGE -> exists m pts c, (exists q, In q (curve b) /\ snd q = m) /\ (forall x, In x (curve b) -> (snd x <= m)%R) /\
      distinct_points (map (fun x => (fst x, snd x / m)%R) (curve b)) pts /\ central_of (firsts pts) (seconds pts) c /\
      dget b (ri_rsr i) = Some [("det-1", [("response", VArr (map f32 (seconds pts))); ("wavelength", VArr (stored f32 (firsts pts))); ("central_wavelength", VNum c)])].
Proof. exact metimage_back. Qed.
Print Assumptions C101_metimage_file.
Example C101_case_metimage_file : entry met_options "Metop-SG-A1" "metimage" "path" "/raw/met.nc" /\ met_dataset "/raw/met.nc" = Ok met_file /\ reads_digits met_int /\
  forall b d z, In (b, d, z) METIMAGE -> (exists g vars, metimage_group z g /\ dget g (nc_groups met_file) = Some vars /\
     dget ("ISRF_cw_" ++ d) vars = Some (NV2 (two_columns (met_curve b)))) /\ exists q, In q (met_curve b) /\ (0 < snd q)%R.
Proof. exact met_case. Qed.

(** ** C102: work books *)
Theorem C102_epic : forall options ex read_excel b p o, @EpicRSR XRN options ex read_excel b p = Ok o ->
  exists path, entry options p "epic" "path" path /\ (ir_rsr o = None <-> ex path = false) /\
    forall r, ir_rsr o = Some r -> exists name df w y, In (b, name) EPIC_COLUMNS /\ read_excel path "Data" 4%nat = Ok df /\ left_of df name w y /\ curve_from (tl w) (tl y) r.
Proof. exact epic_ok. Qed.
Print Assumptions C102_epic.
Theorem C102_epic_succeeds : forall options ex read_excel b p path df k v c df' name,
  entry options p "epic" "path" path -> ex path = true -> read_excel path "Data" 4%nat = Ok df -> df = (k, v :: c) :: df' ->
  In (b, name) EPIC_COLUMNS -> In name (dkeys df) -> (forall y, In (name, y) df -> present (tl y) <> []) -> exists o r, @EpicRSR XRN options ex read_excel b p = Ok o /\ ir_rsr o = Some r.
Proof. exact epic_total. Qed.
Print Assumptions C102_epic_succeeds.
Example C102_case_epic : exists o r, @EpicRSR XRN epic_options all_there epic_book "B325" "DSCOVR" = Ok o /\ ir_rsr o = Some r /\ List.length (points r) = 3%nat.
Proof. exact epic_case. Qed.
Theorem C102_goci2 : forall options ex read_csv b p o, @GOCI2RSR XRN options ex read_csv b p = Ok o ->
  exists path, entry options p "goci2" "path" path /\ (ir_rsr o = None <-> ex path = false) /\
    forall r, ir_rsr o = Some r -> exists name df w y, In (b, name) GOCI2_COLUMNS /\ read_csv path = Ok df /\ left_of df name w y /\ curve_from w y r.
Proof. exact goci2_ok. Qed.
Print Assumptions C102_goci2.
Theorem C102_goci2_succeeds : forall options ex read_csv b p path df name,
  entry options p "goci2" "path" path -> ex path = true -> read_csv path = Ok df -> In (b, name) GOCI2_COLUMNS ->
  In name (dkeys df) -> (forall y, In (name, y) df -> present y <> []) -> exists o r, @GOCI2RSR XRN options ex read_csv b p = Ok o /\ ir_rsr o = Some r.
Proof. exact goci2_total. Qed.
Print Assumptions C102_goci2_succeeds.
Example C102_case_goci2 : (exists o r, @GOCI2RSR XRN (at_path "GEO-KOMPSAT-2B-goci2" "/raw/goci2.csv") all_there goci2_csv "L380" "GEO-KOMPSAT-2B" = Ok o /\ ir_rsr o = Some r) /\
  @left_of (list XRN) [("B1 (380 nm)", [Fin 1; Fin 4]); ("B2 (412 nm)", [Fin 2; Fin 3]); ("Wavelength", [Fin 379; Fin 380])] "B1 (380 nm)" [Fin 379; Fin 380] [Fin 1; Fin 4].
Proof. exact goci2_case. Qed.
(** Finding: blanks in different rows pair a wavelength with the response of
    another row. *)
Theorem C102_gaps_refuted : exists options read_csv o r x y w v, @GOCI2RSR XRN options (fun _ => true) read_csv "L380" "GEO-KOMPSAT-2B" = Ok o /\ ir_rsr o = Some r /\
  read_csv "/raw/goci2.csv" = Ok [("Wavelength", w); ("B1 (380 nm)", v)] /\ In (Fin (x / 1000), Fin y) (points r) /\ ~ In (Fin x, Fin y) (combine w v) /\
  exists m, peak (present v) m /\ ~ (exists u, In (Fin x, u) (combine w v) /\ ndiv XRN u m = Fin y).
Proof. exact gaps_mispair. Qed.
Print Assumptions C102_gaps_refuted.
Theorem C102_msi : forall options ex read_excel b c p o, In (b, c) MSI_COLUMNS -> @MsiRSR XRN options ex read_excel b p = Ok o ->
  exists path s df w y r, In (p, s) SENTINELS /\ entry options p "msi" "path" path /\ ex path = true /\ read_excel path ("Spectral Responses (" ++ s ++ ")") 0%nat = Ok df /\
    dget "SR_WL" df = Some w /\ dget (s ++ "_SR_AV_" ++ c) df = Some y /\ ir_rsr o = Some r /\
    forall rows, w = firsts rows -> y = seconds rows -> exists kept, picked (near rows) rows kept /\
      rw_wavelength r = reals (map (fun q => fst q / 1000)%R kept) /\ rw_response r = seconds kept.
Proof. exact msi_ok. Qed.
Print Assumptions C102_msi.
Theorem C102_msi_succeeds : forall options ex read_excel b c p s path df (rows : list (R * R)),
  In (b, c) MSI_COLUMNS -> In (p, s) SENTINELS -> entry options p "msi" "path" path -> ex path = true ->
  read_excel path ("Spectral Responses (" ++ s ++ ")") 0%nat = Ok df -> dget "SR_WL" df = Some (firsts rows) -> dget (s ++ "_SR_AV_" ++ c) df = Some (seconds rows) -> rows <> [] ->
  exists o, @MsiRSR XRN options ex read_excel b p = Ok o.
Proof. exact msi_total. Qed.
Print Assumptions C102_msi_succeeds.
Theorem C102_msi_missing : forall options ex read_excel b p s path, In (p, s) SENTINELS -> entry options p "msi" "path" path -> ex path = false ->
  @MsiRSR XRN options ex read_excel b p = Err OSError.
Proof. exact msi_missing. Qed.
Print Assumptions C102_msi_missing.
Example C102_case_msi : (exists o, @MsiRSR XRN (at_path "Sentinel-2A-msi" "/raw/msi.xlsx") all_there msi_book "B01" "Sentinel-2A" = Ok o) /\
  entry (at_path "Sentinel-2A-msi" "/raw/msi.xlsx") "Sentinel-2A" "msi" "path" "/raw/msi.xlsx" /\
  near msi_rows (443, 0)%R /\ ~ near msi_rows (500, 0)%R /\ ~ near msi_rows (430, 0)%R.
Proof. split; [exact msi_case|]. split; [eexists; split; reflexivity|exact msi_near]. Qed.
Theorem C102_oli : forall options ex read_excel b p o, @OliRSR XRN options ex read_excel b p = Ok o ->
  exists path f key sheet wn rn df w y r, oli_layout p b key sheet wn rn /\ entry options p "oli_tirs" "path" path /\ entry options p "oli_tirs" key f /\
    ex (path ++ "/" ++ f) = true /\ read_excel (path ++ "/" ++ f) sheet 0%nat = Ok df /\ dget wn df = Some w /\ dget rn df = Some y /\ ir_rsr o = Some r /\
    forall rows, w = firsts rows -> y = seconds rows -> exists kept, picked (fun q => 1 / 500 < snd q)%R rows kept /\
      rw_wavelength r = reals (map (fun q => fst q / 1000)%R kept) /\ rw_response r = seconds kept.
Proof. exact oli_ok. Qed.
Print Assumptions C102_oli.
Theorem C102_oli_succeeds : forall options ex read_excel b p path key sheet wn rn f df w y,
  oli_layout p b key sheet wn rn -> entry options p "oli_tirs" "path" path -> entry options p "oli_tirs" key f ->
  ex (path ++ "/" ++ f) = true -> read_excel (path ++ "/" ++ f) sheet 0%nat = Ok df -> dget wn df = Some w -> dget rn df = Some y -> exists o, @OliRSR XRN options ex read_excel b p = Ok o.
Proof. exact oli_total. Qed.
Print Assumptions C102_oli_succeeds.
Theorem C102_oli_missing : forall options ex read_excel b p path key sheet wn rn f, oli_layout p b key sheet wn rn -> entry options p "oli_tirs" "path" path ->
  entry options p "oli_tirs" key f -> ex (path ++ "/" ++ f) = false -> @OliRSR XRN options ex read_excel b p = Err OSError.
Proof. exact oli_missing. Qed.
Print Assumptions C102_oli_missing.
Example C102_case_oli : ((exists o, @OliRSR XRN oli_options all_there oli_book "B1" "Landsat-8" = Ok o) /\ exists o, @OliRSR XRN oli_options all_there oli_book "B10" "Landsat-8" = Ok o) /\
  oli_layout "Landsat-8" "B2" "oli" "Blue" "Wavelength" "BA RSR [watts]" /\ entry oli_options "Landsat-8" "oli_tirs" "path" "/raw" /\
  entry oli_options "Landsat-8" "oli_tirs" "oli" "oli.xlsx" /\ none_there "/raw/oli.xlsx" = false.
Proof. exact (conj oli_case oli_absent). Qed.
(** Finding: B6 to B9 do not depend on the sheet of their own band. *)
Theorem C102_oli_bands_refuted : forall options ex read_excel read_excel' p b own, In (b, own) LANDSAT -> In b ["B6"; "B7"; "B8"; "B9"] ->
  (forall path sheet n, sheet <> own -> read_excel path sheet n = read_excel' path sheet n) ->
  @OliRSR XRN options ex read_excel b p = OliRSR options ex read_excel' b p.
Proof. exact oli_independent. Qed.
Print Assumptions C102_oli_bands_refuted.
(** Finding: thermal wavelengths in micrometres become a thousandth. *)
Theorem C102_tirs_units_refuted : forall options ex read_excel b p o, In b ["B10"; "B11"] -> @OliRSR XRN options ex read_excel b p = Ok o ->
  exists path sheet rn df w y r, read_excel path sheet 0%nat = Ok df /\ dget "wavelength [um]" df = Some w /\ dget rn df = Some y /\ ir_rsr o = Some r /\
    forall rows, w = firsts rows -> y = seconds rows -> Forall (fun q => 8 <= fst q <= 14)%R rows -> forall v, In v (rw_wavelength r) -> exists x, v = Fin x /\ (x < 15 / 1000)%R.
Proof. exact tirs_units. Qed.
Print Assumptions C102_tirs_units_refuted.
Theorem C102_msugsa : forall options read_excel_names b p o, @MsugsaRSR XRN options read_excel_names b p = Ok o ->
  exists path kind names df1 df2 r1 r2, entry options p "msu-gsa" "path" path /\ msugsa_sheet b kind names /\
    read_excel_names path ("MSU-1" ++ kind) 2%nat names = Ok df1 /\ read_excel_names path ("MSU-2" ++ kind) 2%nat names = Ok df2 /\
    frame_curve df1 b r1 /\ frame_curve df2 b r2 /\ sn_rsr o = RMulti [("det-1", r1); ("det-2", r2)].
Proof. exact msugsa_ok. Qed.
Print Assumptions C102_msugsa.
Theorem C102_msugsa_succeeds : forall options read_excel_names b p path kind names df1 df2 w1 y1 w2 y2,
  entry options p "msu-gsa" "path" path -> msugsa_sheet b kind names ->
  read_excel_names path ("MSU-1" ++ kind) 2%nat names = Ok df1 -> read_excel_names path ("MSU-2" ++ kind) 2%nat names = Ok df2 ->
  dget "wvl" df1 = Some w1 -> dget b df1 = Some y1 -> dget "wvl" df2 = Some w2 -> dget b df2 = Some y2 -> exists o, @MsugsaRSR XRN options read_excel_names b p = Ok o.
Proof. exact msugsa_total. Qed.
Print Assumptions C102_msugsa_succeeds.
Example C102_case_msugsa : exists o r1 r2, @MsugsaRSR XRN (at_path "Electro-L-N2-msu-gsa" "/raw/msu.xlsx") msugsa_book "ch5" "Electro-L-N2" = Ok o /\
  sn_rsr o = RMulti [("det-1", r1); ("det-2", r2)] /\ rw_response r1 = [Fin 1; Fin 2] /\ rw_response r2 = [Fin 3; Fin 4].
Proof. exact msugsa_case. Qed.
Theorem C102_aatsr : forall (N : Num) options (py_float : string -> res N) f32 open_workbook b p o, AatsrRSR options py_float f32 open_workbook b p = Ok o ->
  exists path sheets, entry options p "aatsr" "path" path /\ open_workbook path = Ok sheets /\
    (ir_rsr o = None <-> forall s, In s sheets -> strip (bs_name s) <> "aatsr_" ++ b) /\
    forall r, ir_rsr o = Some r -> exists pre s post lines pts, sheets = (pre ++ s :: post)%list /\ strip (bs_name s) = "aatsr_" ++ b /\
      (forall s', In s' post -> strip (bs_name s') <> "aatsr_" ++ b) /\ aatsr_rows s lines /\ Forall2 (aatsr_line py_float f32) lines pts /\
      rw_wavelength r = map fst pts /\ rw_response r = map snd pts.
Proof. exact @aatsr_ok. Qed.
Print Assumptions C102_aatsr.
Example C102_case_aatsr : forall (N : Num) f32, (exists o r, AatsrRSR (at_path "Envisat-aatsr" "/raw/a.xls") aatsr_float f32 aatsr_book "v16" "Envisat" = Ok o /\ ir_rsr o = Some r /\
    rw_response r = [f32 (nlit N 1 2); f32 (nlit N 9 10)]) /\
  exists o, @AatsrRSR N (at_path "Envisat-aatsr" "/raw/a.xls") aatsr_float f32 aatsr_book "v870" "Envisat" = Ok o /\ ir_rsr o = None.
Proof. exact @aatsr_case. Qed.

(** Where the objects of C101 and C102 say the result goes. *)
Theorem C102_output : forall (N : Num) options ex py_int py_float f32 (dataset : string -> res (nc_file N)) excel csv book b p o,
  (FciRSR options dataset b p = Ok o -> goes_to options "fci" o) /\ (OlciRSR options ex dataset b p = Ok o -> goes_to options "olci" o) /\
  (SlstrRSR options ex dataset b p = Ok o -> goes_to options "slstr" o) /\ (MetImageRSR options ex py_int dataset b p = Ok o -> goes_to options "metimage" o) /\
  (EpicRSR options ex excel b p = Ok o -> goes_to options "epic" o) /\ (GOCI2RSR options ex csv b p = Ok o -> goes_to options "goci2" o) /\
  (MsiRSR options ex excel b p = Ok o -> goes_to options "msi" o) /\ (OliRSR options ex excel b p = Ok o -> goes_to options "oli_tirs" o) /\
  (AatsrRSR options py_float f32 book b p = Ok o -> goes_to options "aatsr" o).
Proof. exact @books_go_to. Qed.
Print Assumptions C102_output.
Example C102_output_case : forall N : Num, exists o, @SlstrRSR N nc_options all_there nc_sample "ch3" "Sentinel-3A" = Ok o /\ ir_instrument o = "slstr" /\ ir_output_dir o = Leaf (LStr "./").
Proof. intros N. destruct (@slstr_case N) as (o & r & H & _). exists o. split; [exact H|]. unfold SlstrRSR in H. destruct (goes_text _ _ _ _ _ _ _ _ _ H) as (A & B & C). split; [exact A|]. exact (C eq_refl). Qed.
