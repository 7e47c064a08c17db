(** Property theorems C80, C81 (MODIS and VIIRS response files). *)
From Coq Require Import String List ZArith Reals Sorted.
From Verif Require Import Base NumSig XR B64 M_Tables M_Utils M_World M_Hdf5 M_Raw S_Raw S_Raw2 S_Hdf5 S_Utils P_Raw8 P_Raw10 P_Raw11 Samples7 Samples8.
Import ListNotations.
Local Open Scope string_scope.

(** ** C80: MODIS *)
Theorem C80_rows : forall (N : Num) py_int (py_float : string -> res N) scale readlines f lines, readlines f = Ok lines ->
  (forall d, read_modis_response readlines py_int py_float f scale = Ok d ->
     exists rows, Forall2 (modis_row py_int py_float) lines rows /\
       NoDup (dkeys d) /\ (forall k, In k (dkeys d) <-> exists z, mentions rows z /\ k = det_label z) /\
       (forall k, hd_error (dkeys d) = Some k -> exists z, first_mentioned rows z /\ k = det_label z) /\
       forall z, mentions rows z -> dget (det_label z) d = Some {| rw_wavelength := map (fun p => nmul N (fst p) scale) (rows_of rows z); rw_response := map snd (rows_of rows z) |}) /\
  (forall rows, Forall2 (modis_row py_int py_float) lines rows -> exists d, read_modis_response readlines py_int py_float f scale = Ok d).
Proof. exact @response_rows. Qed.
Print Assumptions C80_rows.
Theorem C80_names : (forall k, det_label (Z.of_nat k) = det_name k) /\ forall a b, det_label a = det_label b -> a = b.
Proof. exact (conj label_nat label_inj). Qed.
Print Assumptions C80_names.

Example C80_case_rows : forall N, sample_lines "20.tv.1pct.det" = Ok modis_lines_ /\ Forall2 (modis_row sample_int (sample_float N)) modis_lines_ (sample_rows N).
Proof. exact (fun N => conj eq_refl (sample_modis_rows N)). Qed.

(** a band: the curves of its detectors, from its own file *)
Theorem C80_load : forall options there readlines py_int (py_float : string -> res XRN) argsort b p path file m u lines rows,
  dget (p ++ "-modis") options = Some (CMap m) -> dget "path" m = Some (Leaf (LStr path)) -> modis_file path p b file -> there file = true ->
  modis_unit p b u -> readlines file = Ok lines -> Forall2 (modis_row py_int py_float) lines rows -> finite_rows rows ->
  (forall xs, is_argsort xs (argsort (map Fin xs))) ->
  (forall z, mentions rows z -> rows_of rows z <> []) ->
  exists d, ModisRSR options there readlines py_int py_float argsort b p = Ok d /\ NoDup (dkeys d) /\
    (forall k, In k (dkeys d) <-> exists z, mentions rows z /\ k = det_label z) /\
    forall z, mentions rows z -> exists r pts, dget (det_label z) d = Some r /\ curve r pts /\ ascending pts /\
      (forall w, In w (map fst pts) <-> exists v a, In (Fin v, Fin a) (rows_of rows z) /\ w = (v / u)%R) /\
      (forall w a, In (w, a) pts -> exists v, In (Fin v, Fin a) (rows_of rows z) /\ w = (v / u)%R).
Proof. exact load_ok. Qed.
Print Assumptions C80_load.

(** a detector without valid rows makes the band unusable *)
Theorem C80_all_missing : forall options there readlines py_int (py_float : string -> res XRN) argsort b p path file m u lines rows,
  dget (p ++ "-modis") options = Some (CMap m) -> dget "path" m = Some (Leaf (LStr path)) -> modis_file path p b file -> there file = true ->
  modis_unit p b u -> readlines file = Ok lines -> Forall2 (modis_row py_int py_float) lines rows -> finite_rows rows ->
  (forall xs, is_argsort xs (argsort (map Fin xs))) ->
  forall z, mentions rows z -> rows_of rows z = [] -> ModisRSR options there readlines py_int py_float argsort b p = Err IndexError.
Proof. exact load_missing. Qed.
Print Assumptions C80_all_missing.

Example C80_case_load : dget ("EOS-Aqua" ++ "-modis") modis_opts = Some (CMap [("path", Leaf (LStr "/raw"))]) /\
  modis_file "/raw" "EOS-Aqua" "20" "/raw/20.tv.1pct.det" /\ modis_unit "EOS-Aqua" "20" 1000 /\ finite_rows (sample_rows XRN) /\
  (forall xs, is_argsort xs (real_argsort (map Fin xs))) /\ (forall z, mentions (sample_rows XRN) z -> rows_of (sample_rows XRN) z <> []).
Proof.
  exact (conj eq_refl (conj (mf_aqua "/raw" "EOS-Aqua" 19 "20" "20.tv.1pct.det" ltac:(discriminate) eq_refl eq_refl)
        (conj (mu_aqua "20") (conj sample_finite (conj real_argsort_ok sample_nonempty))))).
Qed.
Example C80_case_missing : mentions missing_rows 3 /\ rows_of missing_rows 3 = [] /\ finite_rows missing_rows /\
  Forall2 (modis_row missing_int missing_float) ["20 1 3700.0 0.9"; "20 3 3700.0 -99"] missing_rows.
Proof. exact missing_case. Qed.

(** what was written can be read back; detectors with nearly the same
    wavelengths get those of the first *)
Theorem C80_back : forall (N : Num) options there readlines py_int (py_float : string -> res N) argsort f32 p h,
  modis_convert2hdf5 options there readlines py_int py_float argsort f32 p = Ok h ->
  (forall b d, In b MODIS_NAMES -> ModisRSR options there readlines py_int py_float argsort b p = Ok d -> standard_names (dkeys d)) ->
  exists i, read_rsr h = Ok i /\ ri_bands i = MODIS_NAMES /\ oscar_opt (Some p) (ri_platform i) /\ (forall t, oscar p t -> ri_instrument i = dget t INSTRUMENTS) /\
    dkeys (ri_rsr i) = MODIS_NAMES /\
    forall b, In b MODIS_NAMES -> exists d k0 r0 y, ModisRSR options there readlines py_int py_float argsort b p = Ok d /\ hd_error d = Some (k0, r0) /\
      dget b (ri_rsr i) = Some y /\ dkeys y = map det_name (seq 1 (List.length d)) /\
      forall k r, dget k d = Some r -> exists c w, central_of (numbered (rw_wavelength r) (rw_wavelength r)) (numbered (rw_wavelength r) (rw_response r)) c /\
        dget k y = Some [("response", VArr (map f32 (rw_response r))); ("wavelength", VArr (stored f32 w)); ("central_wavelength", VNum c)] /\
        ((forall k' r', dget k' d = Some r' -> k' <> k0 -> alike (rw_wavelength r0) (rw_wavelength r')) -> w = rw_wavelength r0) /\
        (forall k' r', dget k' d = Some r' -> k' <> k0 -> ~ alike (rw_wavelength r0) (rw_wavelength r') -> w = rw_wavelength r).
Proof. exact @modis_back. Qed.
Print Assumptions C80_back.
Theorem C80_alike : forall ws ws', @alike XRN (map Fin ws) (map Fin ws') <-> Forall2 close_to ws ws'.
Proof. exact alike_iff_close. Qed.
Print Assumptions C80_alike.
Theorem C80_odd_names : forall (N : Num) options there readlines py_int (py_float : string -> res N) argsort f32 p h b d,
  modis_convert2hdf5 options there readlines py_int py_float argsort f32 p = Ok h -> In b MODIS_NAMES ->
  ModisRSR options there readlines py_int py_float argsort b p = Ok d -> ~ standard_names (dkeys d) -> read_rsr h = Err KeyError.
Proof. exact @modis_odd. Qed.
Print Assumptions C80_odd_names.
Theorem C80_writes : forall (N : Num) options there readlines py_int (py_float : string -> res N) argsort f32 p,
  (forall b, In b MODIS_NAMES -> exists d, ModisRSR options there readlines py_int py_float argsort b p = Ok d /\ d <> [] /\
     forall k r, dget k d = Some r -> same_lengths r) ->
  exists h, modis_convert2hdf5 options there readlines py_int py_float argsort f32 p = Ok h.
Proof. exact @modis_writes. Qed.
Print Assumptions C80_writes.
Theorem C80_own_wavelengths_refuted : forall lib, exists h i d r y det w,
  @modis_convert2hdf5 (B64N lib) modis_opts all_there sample_lines sample_int (sample_float _) (double_argsort lib) (same lib) "EOS-Aqua" = Ok h /\ read_rsr h = Ok i /\
  @ModisRSR (B64N lib) modis_opts all_there sample_lines sample_int (sample_float _) (double_argsort lib) "20" "EOS-Aqua" = Ok d /\ dget "det-2" d = Some r /\
  dget "20" (ri_rsr i) = Some y /\ dget "det-2" y = Some det /\ dget "wavelength" det = Some (VArr w) /\ w <> stored (same lib) (rw_wavelength r).
Proof. exact double_shared. Qed.
Print Assumptions C80_own_wavelengths_refuted.

Example C80_case_back : forall lib, (exists h, double_convert lib "EOS-Aqua" = Ok h) /\
  forall b d, In b MODIS_NAMES -> double_load lib b "EOS-Aqua" = Ok d -> standard_names (dkeys d).
Proof. exact (fun lib => conj (double_writes lib) (double_standard lib)). Qed.
Example C80_case_odd : forall lib, (exists h, odd_convert lib "EOS-Aqua" = Ok h) /\
  exists d, odd_load lib "20" "EOS-Aqua" = Ok d /\ ~ standard_names (dkeys d).
Proof. exact odd_case. Qed.

(** ** C81: VIIRS *)
Theorem C81_back : forall there readlines f32 viirs_rows viirs_rows2 viirs_file p (rows : string -> list (R * R * Z)), In p ["Suomi-NPP"; "NOAA-20"; "NOAA-21"] ->
  (forall b, In b VIIRS_NAMES -> in_file there readlines viirs_rows viirs_file p b (rows b) /\ every_detector (rows b)) ->
  exists h i, create_viirs_rsr there readlines f32 viirs_rows viirs_rows2 viirs_file p = Ok h /\ read_rsr h = Ok i /\ ri_bands i = VIIRS_NAMES /\
    oscar_opt (Some p) (ri_platform i) /\ ri_instrument i = Some (IOne "viirs") /\ dkeys (ri_rsr i) = VIIRS_NAMES /\
    forall b, In b VIIRS_NAMES -> exists y n, dget b (ri_rsr i) = Some y /\ highest_detector (rows b) n /\ dkeys y = map det_name (seq 1 n) /\
      forall k, (1 <= k <= n)%nat -> exists pts c, distinct_points (detector_points (rows b) (Z.of_nat k)) pts /\
        central_of (map (fun q => Fin (fst q)) pts : list XRN) (map (fun q => Fin (snd q)) pts : list XRN) c /\
        dget (det_name k) y = Some [("response", VArr (map f32 (map (fun q => Fin (snd q)) pts))); ("wavelength", VArr (stored f32 (map (fun q => Fin (fst q)) pts)));
                                    ("central_wavelength", VNum c)].
Proof. exact viirs_back. Qed.
Print Assumptions C81_back.
Example C81_case : forall b, in_file all_there viirs_lines viirs_reads viirs_path "NOAA-20" b viirs_sample /\ every_detector viirs_sample.
Proof. exact (fun b => conj (viirs_in_file b) viirs_all_detectors). Qed.

(** a file in the format of five columns *)
Theorem C81_other_format : forall (N : Num) there readlines viirs_rows (viirs_rows2 : string -> nat -> res (list (N * N * Z))) viirs_file p b f lines n,
  viirs_file p b = Ok f -> there f = true -> readlines f = Ok lines -> leading lines n -> viirs_rows f n p = Err ValueError ->
  (p = "Suomi-NPP" -> forall rows, viirs_rows2 f n = Ok rows -> ViirsRSR there readlines viirs_rows viirs_rows2 viirs_file b p = viirs_detectors rows) /\
  (p = "NOAA-20" -> ViirsRSR there readlines viirs_rows viirs_rows2 viirs_file b p = Err ValueError) /\
  (p = "NOAA-21" -> ViirsRSR there readlines viirs_rows viirs_rows2 viirs_file b p = Err KeyError).
Proof. exact @other_format. Qed.
Print Assumptions C81_other_format.
Example C81_case_format : viirs_path "NOAA-21" "M1" = Ok "/raw/M1" /\ leading ["% VIIRS"; "%"; "M1 1 1 400.0 0.1"] 2.
Proof. split; [reflexivity|]. constructor. constructor. constructor. discriminate. Qed.

(** a wavelength that is not a number *)
Theorem C81_same_lengths_refuted : forall lib, exists h i y det r w,
  @create_viirs_rsr (B64N lib) all_there viirs_lines (same lib) (nan_rows lib) (fun _ _ => Err ValueError) viirs_path "NOAA-20" = Ok h /\
  read_rsr h = Ok i /\ dget "M1" (ri_rsr i) = Some y /\ dget "det-1" y = Some det /\
  dget "response" det = Some (VArr r) /\ dget "wavelength" det = Some (VArr w) /\ List.length w <> List.length r.
Proof. exact nan_case. Qed.
Print Assumptions C81_same_lengths_refuted.
