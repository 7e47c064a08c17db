(** C103-C106: AVHRR/1 and AHI work books, and the scripts that rewrite older files.
    What xlrd and pandas read is given by the functions [open_workbook], [read_table]. *)
From Coq Require Import String Ascii List Bool ZArith Reals.
From Verif Require Import Base NumSig XR M_Tables M_Utils M_World M_Hdf5 M_Raw M_Download M_Books S_Raw S_Raw2 S_Hdf5 S_Names S_Books S_Books2 P_Books5 P_Books6 P_Books7 P_Books8 Samples7 Samples12 Samples13.
Import ListNotations.
Local Open Scope string_scope.

(** ** C103: AVHRR/1 *)
Theorem C103_holds : forall options ex open_workbook ws rsr, @Avhrr1RSR XRN options ex open_workbook ws = Ok rsr ->
  ws = "wavelength" /\ exists path m sheets, dget "avhrr/1" options = Some (CMap m) /\ dget "path" m = Some (Leaf (LStr path)) /\ open_workbook path = Ok sheets /\
    (ex path = false -> exists f, dget "filename" m = Some (Leaf (LStr f))) /\ avhrr1_holds sheets rsr.
Proof. exact avhrr1_load. Qed.
Print Assumptions C103_holds.
Theorem C103_succeeds : forall (N : Num) options ex (open_workbook : string -> res (list (book_sheet N))) m path sheets k,
  dget "avhrr/1" options = Some (CMap m) -> dget "path" m = Some (Leaf (LStr path)) ->
  (ex path = true \/ exists f, dget "filename" m = Some (Leaf (LStr f))) -> open_workbook path = Ok sheets -> sheets_read sheets k ->
  (forall s, In s k -> exists p r, In p AVHRR1 /\ avhrr1_sheet_of (fun _ _ => True) s p r) ->
  (exists rsr, Avhrr1RSR options ex open_workbook "wavelength" = Ok rsr) /\ Avhrr1RSR options ex open_workbook "wavenumber" = Err AttributeError.
Proof. exact @avhrr1_succeeds. Qed.
Print Assumptions C103_succeeds.
Example C103_case : (exists sheets, a1_book "/raw/avhrr1.xls" = Ok sheets /\ sheets_read sheets a1_read) /\
  (forall s, In s a1_read -> exists p r, In p AVHRR1 /\ avhrr1_sheet_of (fun _ _ => True) s p r) /\ exists rsr, Avhrr1RSR a1_options none_there a1_book "wavelength" = Ok rsr.
Proof. split; [exact a1_sheets_read|]. split; [exact a1_sheets_fine|exact (a1_loads none_there)]. Qed.

Theorem C103_misprint : forall l l', reprinted l l' -> (forall i x y, nth_error l i = Some x -> nth_error l (S i) = Some y -> (x <= y)%R) -> l' = l.
Proof. exact sorted_unchanged. Qed.
Print Assumptions C103_misprint.
Example C103_case_misprint : reprinted [830; 640; 850]%R [830; 840; 850]%R.
Proof. exact a1_reprinted. Qed.

Theorem C103_file : forall f32 sheets rsr p h, avhrr1_holds sheets rsr -> generate_avhrr1_file f32 rsr p = Ok h ->
  In p AVHRR1 /\ exists i k, read_rsr h = Ok i /\ sheets_read sheets k /\ ri_bands i = AVHRR1_CHANNELS /\ dkeys (ri_rsr i) = AVHRR1_CHANNELS /\ oscar_opt (Some p) (ri_platform i) /\
    (forall t, oscar p t -> ri_instrument i = dget t INSTRUMENTS) /\
    forall ch, In ch AVHRR1_CHANNELS -> exists s r c, last_sheet adjusted k p ch s r /\ central_of (rw_wavelength r) (rw_response r) c /\
      dget ch (ri_rsr i) = Some [("det-1", [("response", VArr (map f32 (rw_response r))); ("wavelength", VArr (stored f32 (rw_wavelength r))); ("central_wavelength", VNum c)])].
Proof. exact avhrr1_file. Qed.
Print Assumptions C103_file.
Theorem C103_file_succeeds : forall f32 sheets rsr p sat, avhrr1_holds sheets rsr -> dget p rsr = Some sat ->
  (forall ch, In ch AVHRR1_CHANNELS -> exists r, dget ch sat = Some (Some r) /\ List.length (rw_response r) = List.length (rw_wavelength r)) -> exists h, generate_avhrr1_file f32 rsr p = Ok h.
Proof. exact avhrr1_writes. Qed.
Print Assumptions C103_file_succeeds.
Theorem C103_file_incomplete : forall f32 sheets rsr p sat ch, avhrr1_holds sheets rsr -> dget p rsr = Some sat -> dget ch sat = Some None -> exists e, generate_avhrr1_file f32 rsr p = Err e.
Proof. exact avhrr1_incomplete. Qed.
Print Assumptions C103_file_incomplete.
Example C103_case_file : exists rsr sat, Avhrr1RSR a1_options none_there a1_book "wavelength" = Ok rsr /\ dget "NOAA-6" rsr = Some sat /\
  (forall ch, In ch AVHRR1_CHANNELS -> exists r, dget ch sat = Some (Some r) /\ List.length (rw_response r) = List.length (rw_wavelength r)) /\
  dget "ch3" sat = Some (Some {| rw_wavelength := map (fun x => nmul XRN x (nlit XRN 1 10000)) (reals [35000; 37000; 39000]%R); rw_response := reals [0; 1; 0]%R |}) /\
  exists tn, dget "TIROS-N" rsr = Some tn /\ dget "ch1" tn = Some None.
Proof. exact a1_noaa6. Qed.

(** findings *)
Theorem C103_every_sheet_refuted : ~ (forall options ex open_workbook rsr path sheets s p ch r, @Avhrr1RSR XRN options ex open_workbook "wavelength" = Ok rsr -> get_path options "avhrr/1" "path" = Ok path ->
  open_workbook path = Ok sheets -> In s sheets -> In (strip (bs_name s), ch) AVHRR1_SHEETS -> avhrr1_sheet_of adjusted s p r -> exists sat r', dget p rsr = Some sat /\ dget ch sat = Some (Some r')).
Proof. exact a1_hidden. Qed.
Print Assumptions C103_every_sheet_refuted.
Theorem C103_fallback_never_opened : forall (N : Num) options ex (ow ow' : string -> res (list (book_sheet N))) m path ws, dget "avhrr/1" options = Some (CMap m) -> dget "path" m = Some (Leaf (LStr path)) ->
  ow path = ow' path -> Avhrr1RSR options ex ow ws = Avhrr1RSR options ex ow' ws.
Proof. exact @avhrr1_fallback. Qed.
Print Assumptions C103_fallback_never_opened.
Example C103_case_fallback : dget "avhrr/1" a1_options = Some (CMap [("path", Leaf (LStr "/raw/avhrr1.xls")); ("filename", Leaf (LStr "other.xls"))]) /\
  none_there "/raw/avhrr1.xls" = false /\ a1_book "/raw/avhrr1.xls" <> a1_book "other.xls".
Proof. split; [reflexivity|]. split; [reflexivity|discriminate]. Qed.

(** ** C104: AHI *)
Theorem C104_holds : forall (N : Num) options ex (open_workbook : string -> res (list (book_sheet N))) p rsr, AhiRSR options ex open_workbook p = Ok rsr ->
  exists path sheets, entry options p "ahi" "path" path /\ ex path = true /\ open_workbook path = Ok sheets /\
    forall ch, ((forall s, In s sheets -> ~ ahi_channel s ch) /\ dget ch rsr = None) \/
      exists pre s post w r, sheets = (pre ++ s :: post)%list /\ ahi_channel s ch /\ (forall s', In s' post -> ~ ahi_channel s' ch) /\ ahi_rows s 0 w /\ ahi_rows s 2 r /\ dget ch rsr = Some (w, r).
Proof. exact @ahi_ok. Qed.
Print Assumptions C104_holds.
Theorem C104_succeeds : forall (N : Num) options ex (open_workbook : string -> res (list (book_sheet N))) p path sheets, entry options p "ahi" "path" path -> ex path = true -> open_workbook path = Ok sheets ->
  (forall s, In s sheets -> bs_name s <> "Title" -> (3 <= List.length (bs_columns s))%nat) -> exists rsr, AhiRSR options ex open_workbook p = Ok rsr.
Proof. exact @ahi_succeeds. Qed.
Print Assumptions C104_succeeds.
(** findings *)
Theorem C104_missing_file : forall (N : Num) options ex (open_workbook : string -> res (list (book_sheet N))) p path, entry options p "ahi" "path" path -> ex path = false -> AhiRSR options ex open_workbook p = Err AttributeError.
Proof. exact @ahi_missing. Qed.
Print Assumptions C104_missing_file.
Theorem C104_no_file_written : forall (N : Num) options ex f32 (open_workbook : string -> res (list (book_sheet N))) p rsr, AhiRSR options ex open_workbook p = Ok rsr -> ahi_convert2hdf5 options ex f32 open_workbook p = Err TypeError.
Proof. exact @ahi_no_file. Qed.
Print Assumptions C104_no_file_written.
Example C104_case : entry (at_path "Himawari-8-ahi" "/raw/ahi.xls") "Himawari-8" "ahi" "path" "/raw/ahi.xls" /\ exists rsr, AhiRSR (at_path "Himawari-8-ahi" "/raw/ahi.xls") all_there ahi_book "Himawari-8" = Ok rsr.
Proof. split; [eexists; split; reflexivity|exact ahi_case]. Qed.

(** ** C105: text files *)
Theorem C105_split : forall (N : Num) (py_float : string -> res N) pre blocks rowss, List.length rowss = 6%nat -> Forall (fun l => ~ headed l) pre -> Forall2 (whole_block py_float) blocks rowss ->
  split_metop py_float (pre ++ concat blocks) = Ok (combine METOP_FILES (map by_wavelength rowss)).
Proof. exact @metop_ok. Qed.
Print Assumptions C105_split.
Theorem C105_wavelengths : forall l, (forall q, In q l -> (0 < fst q)%R) -> by_wavelength (real_rows l) = real_rows (rev (map (fun q => (10000 / fst q, snd q)%R) l)).
Proof. exact by_wavelength_real. Qed.
Print Assumptions C105_wavelengths.
Theorem C105_increasing : forall l, (forall q, In q l -> (0 < fst q)%R) -> ascending l -> ascending (rev (map (fun q => (10000 / fst q, snd q)%R) l)).
Proof. exact by_wavelength_sorted. Qed.
Print Assumptions C105_increasing.
Example C105_case_split : (forall n, whole_block mt_float (mt_block n) (real_rows mt_rows)) /\ ascending mt_rows /\ forall q, In q mt_rows -> (0 < fst q)%R.
Proof. split; [exact mt_whole|exact mt_sorted]. Qed.
(** finding *)
Theorem C105_last_row_refuted : ~ (forall pre blocks rowss, List.length rowss = 6%nat -> Forall (fun l => ~ headed l) pre ->
  Forall2 (fun b rows => exists after, metop_block mt_float b rows after /\ (after = [] \/ ends_rows after)) blocks rowss ->
  split_metop mt_float (pre ++ concat blocks) = Ok (combine METOP_FILES (map by_wavelength rowss))).
Proof. exact mt_refuted. Qed.
Print Assumptions C105_last_row_refuted.

Theorem C105_old : forall (N : Num) (py_float : string -> res N) f32 read_table file data (rows : string -> list (option (N * N))) t, In t STAR -> read_table file (star_fields t) = Ok data ->
  (forall w r f, In (w, r, f) t -> exists wc rc, dget w data = Some wc /\ dget r data = Some rc /\ star_columns py_float wc rc (rows w)) ->
  unpack_data py_float f32 read_table file (star_fields t) = Ok (map (fun q => (snd q, star_points f32 (rows (fst (fst q))))) t).
Proof. exact @star_ok. Qed.
Print Assumptions C105_old.
Theorem C105_old_lengths : forall (N : Num) (py_float : string -> res N) f32 read_table file data (vals : string -> list (option N)) t, In t STAR -> read_table file (star_fields t) = Ok data ->
  (forall w r f, In (w, r, f) t -> exists wc rc, dget w data = Some wc /\ dget r data = Some rc /\ Forall2 (star_cell py_float) wc (vals w) /\ Forall2 (star_cell py_float) rc (vals r)) ->
  (exists w r f, In (w, r, f) t /\ List.length (somes (vals w)) <> List.length (somes (vals r))) -> unpack_data py_float f32 read_table file (star_fields t) = Err ValueError.
Proof. exact @star_differ. Qed.
Print Assumptions C105_old_lengths.
Example C105_case_old : star_columns mt_float st_w st_r st_rows /\ (forall t w r f, In t STAR -> In (w, r, f) t ->
  exists data, st_table st_w st_r "old" (star_fields t) = Ok data /\ dget w data = Some st_w /\ dget r data = Some st_r) /\
  unpack_data mt_float (fun x => x) (st_table st_w (removelast st_r)) "old" (star_fields (hd [] STAR)) = Err ValueError.
Proof. split; [exact (proj1 st_case)|]. split; [exact (proj2 st_case)|exact st_short]. Qed.
(** finding *)
Theorem C105_own_rows_refuted : ~ (forall file data (wrows rrows : list (option XRN)) out, Forall2 (star_cell mt_float) data wrows -> forall data', Forall2 (star_cell mt_float) data' rrows ->
  unpack_data mt_float (fun x => x) (st_table data data') file (star_fields (hd [] STAR)) = Ok out -> forall f pts w r, In (f, pts) out -> In (w, r) pts ->
  exists i x, nth_error wrows i = Some (Some w) /\ nth_error rrows i = Some (Some x) /\ r = ndiv XRN x (nlit XRN 100 1)).
Proof. exact st_refuted. Qed.
Print Assumptions C105_own_rows_refuted.

(** ** C106: MODIS files under new names *)
Theorem C106_renamed : forall (N : Num) basedir (disk : dict (h5file N)) ha ht, dget (old_name basedir "Aqua") disk = Some ha -> dget (old_name basedir "Terra") disk = Some ht ->
  exists disk', modis_old2new basedir ["Aqua"; "Terra"] disk = (disk', None) /\
    (forall f, (forall s, In s ["Aqua"; "Terra"] -> f <> basedir ++ "/" ++ get_rsr_filename s "modis") -> dget f disk' = dget f disk) /\
    (forall s, In s ["Aqua"; "Terra"] -> dget (old_name basedir s) disk' = dget (old_name basedir s) disk) /\
    (forall s h i, In s ["Aqua"; "Terra"] -> dget (old_name basedir s) disk = Some h -> read_rsr h = Ok i ->
      exists h', dget (basedir ++ "/" ++ get_rsr_filename s "modis") disk' = Some h' /\
        read_rsr h' = Ok {| ri_platform := Some s; ri_instrument := Some (IOne "modis"); ri_bands := ri_bands i; ri_description := ri_description i; ri_rsr := ri_rsr i |}) /\
    exists disk2, modis_old2new basedir ["Aqua"; "Terra"] disk' = (disk2, None) /\ forall f, dget f disk2 = dget f disk'.
Proof. exact @modis_ok. Qed.
Print Assumptions C106_renamed.
Example C106_case : dget (old_name "d" "Aqua") md_disk = Some (md_file "2") /\ dget (old_name "d" "Terra") md_disk = Some (md_file "1") /\
  exists i, read_rsr (md_file "2") = Ok i /\ ri_platform i = Some "EOS-Aqua".
Proof. split; [reflexivity|]. split; [reflexivity|exact md_case]. Qed.
Theorem C106_missing : forall (N : Num) basedir (disk : dict (h5file N)) s, In s ["Aqua"; "Terra"] -> dget (old_name basedir s) disk = None ->
  exists disk', modis_old2new basedir ["Aqua"; "Terra"] disk = (disk', Some FileNotFoundError) /\
    forall f, f <> basedir ++ "/" ++ get_rsr_filename "Aqua" "modis" -> dget f disk' = dget f disk.
Proof. exact @modis_missing. Qed.
Print Assumptions C106_missing.
Example C106_case_missing : dget (old_name "e" "Aqua") md_disk = None.
Proof. reflexivity. Qed.
