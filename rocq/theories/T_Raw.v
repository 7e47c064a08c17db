(** Converters of raw response files: properties C76-C79, C82 and C83. *)
From Coq Require Import String Ascii List Bool ZArith Lia Reals Lra Sorted.
From Verif Require Import Base NumSig XR M_Tables M_Utils M_World M_Hdf5 M_Raw M_Download S_Raw S_Hdf5 S_Names
  P_Raw P_Raw2 P_Raw3 P_Raw4 P_Raw5 P_Raw6 P_Raw7 P_RawBands P_Tight Samples7.
Import ListNotations.
Local Open Scope string_scope.

(** ** C76: a reader reads the file configured for the band, and no other *)
Theorem C76_own_file : forall (N : Num) k options there (columns : string -> nat -> res (list (list N))) b p o,
  make k options there columns b p = Ok o ->
  exists file, configured options p (ir_instrument o) b file /\ (ir_rsr o = None <-> there file = false) /\
    (forall there' columns', there' file = there file -> (forall n, columns' file n = columns file n) ->
       make k options there' columns' b p = Ok o) /\
    (insists k -> forall there' columns', there' file = false -> @make N k options there' columns' b p = Err OSError) /\
    (~ insists k -> forall there' columns', there' file = false -> @make N k options there' columns' b p =
       Ok {| ir_instrument := ir_instrument o; ir_output_dir := ir_output_dir o; ir_rsr := None |}).
Proof. exact @own_file_cases. Qed.
Print Assumptions C76_own_file.

(** A configuration without an entry for one of the bands is of no use for any
    band: [b'] is a band for which the reader works with some configuration. *)
Theorem C76_all_bands_needed : forall (N : Num) k options there (columns : string -> nat -> res (list (list N))) b p o,
  make k options there columns b p = Ok o ->
  forall options' there' columns' b' o', @make N k options' there' columns' b' p = Ok o' ->
  exists file, configured options p (ir_instrument o) b' file.
Proof. exact @all_bands. Qed.
Print Assumptions C76_all_bands_needed.

(** The columns: wavelengths in micrometres from the first one, responses as
    they are. *)
Theorem C76_columns : forall (N : Num) k options there (columns : string -> nat -> res (list (list N))) b p o r skip col u,
  make k options there columns b p = Ok o -> ir_rsr o = Some r -> layout k p b skip col u ->
  exists file data w, configured options p (ir_instrument o) b file /\ columns file skip = Ok data /\ nth_error data 0 = Some w /\
    nth_error data col = Some (rw_response r) /\
    rw_wavelength r = map (fun v => nmul N v (if Z.eqb u 1 then nlit N 1 1 else nlit N 1 1000)) w.
Proof. exact @curve_of. Qed.
Print Assumptions C76_columns.

(** After a missing file nothing is written, for whatever other bands. *)
Theorem C76_no_data_no_file : forall (N : Num) f32 upper (load : string -> res (sensor N)) p bns scale dets b o,
  In b bns -> load b = Ok (sensor_of o) -> ir_rsr o = None -> exists e, convert2hdf5 f32 upper load p bns scale dets = Err e.
Proof. exact @no_data_no_file_o. Qed.
Print Assumptions C76_no_data_no_file.

(** What is written goes into the configured directory, by default the current one. *)
Theorem C76_output_directory : forall (N : Num) k options there (columns : string -> nat -> res (list (list N))) b p o,
  make k options there columns b p = Ok o ->
  (forall d, dget "rsr_dir" options = Some d -> ir_output_dir o = d) /\
  (dget "rsr_dir" options = None -> ir_output_dir o = Leaf (LStr "./")).
Proof. exact @output_directory. Qed.
Print Assumptions C76_output_directory.

(** The name of the instrument, which is part of the section's name and of the
    name of the file written. *)
Theorem C76_instrument : forall (N : Num) k options there (columns : string -> nat -> res (list (list N))) b p o,
  make k options there columns b p = Ok o -> named k p (ir_instrument o).
Proof. exact @instrument_named. Qed.
Print Assumptions C76_instrument.

Example C76_instrument_case :
  (exists o, make Cocts (own_files "HY-1Z" "cocts" (channels 1 8)) all_there table3 "ch2" "HY-1Z" = Ok o /\ ir_instrument o = "cocts") /\
  (exists o, make Avhrr (own_files "NOAA-19" "avhrr/3" ["ch1"; "ch2"; "ch3a"; "ch3b"; "ch4"; "ch5"]) none_there table3 "ch2" "NOAA-19" = Ok o /\ ir_instrument o = "avhrr/3") /\
  (exists o, make Mersi1 (own_files "FY-3B" "mersi-1" MERSI1_FY3B_BAND_NAMES) none_there table3 "ch2" "FY-3B" = Ok o /\ ir_instrument o = "mersi-1") /\
  exists l, dget "FY-3B" INSTRUMENTS = Some (IList l).
Proof. repeat split; eexists; try split; reflexivity. Qed.

(** The bands a reader knows, and what it does with a complete configuration. *)
Theorem C76_known_bands : forall (N : Num) k options there (columns : string -> nat -> res (list (list N))) b p o,
  make k options there columns b p = Ok o -> In b (listed k p).
Proof. exact @known_bands. Qed.
Print Assumptions C76_known_bands.

Theorem C76_complete : forall (N : Num) k p i options there (columns : string -> nat -> res (list (list N))) b file, named k p i -> In b (listed k p) ->
  (forall b', In b' (listed k p) -> exists f, configured options p i b' f) -> configured options p i b file ->
  (there file = false -> ~ insists k -> exists o, make k options there columns b p = Ok o /\ ir_instrument o = i /\ ir_rsr o = None) /\
  (there file = false -> insists k -> make k options there columns b p = Err OSError) /\
  (forall skip col u data w y, there file = true -> layout k p b skip col u -> columns file skip = Ok data -> nth_error data 0 = Some w -> nth_error data col = Some y ->
     exists o, make k options there columns b p = Ok o /\ ir_instrument o = i /\
       ir_rsr o = Some {| rw_wavelength := map (fun v => nmul N v (if Z.eqb u 1 then nlit N 1 1 else nlit N 1 1000)) w; rw_response := y |}).
Proof. exact @text_success. Qed.
Print Assumptions C76_complete.

(** MERSI-1 on FY-3B: channel 5 is not needed, and not known *)
Example C76_complete_case : named Mersi1 "FY-3B" "mersi-1" /\ In "ch6" (listed Mersi1 "FY-3B") /\ ~ In "ch5" (listed Mersi1 "FY-3B") /\
  (forall b', In b' (listed Mersi1 "FY-3B") -> exists f, configured (own_files "FY-3B" "mersi-1" (["ch1"; "ch2"; "ch3"; "ch4"] ++ channels 6 15)%list) "FY-3B" "mersi-1" b' f) /\
  layout Cocts "HY-1C" "ch2" 0 2 1000 /\ named Cocts "HY-1C" "cocts".
Proof.
  split; [eapply named_several; [now left|reflexivity]|]. split; [cbn; tauto|]. split; [cbn; intuition discriminate|]. split.
  - intros b' Hb'. cbn in Hb'. repeat (destruct Hb' as [<-|Hb']; [eexists _, _, _, _; repeat split|]). destruct Hb'.
  - split; [now apply l_cocts|apply named_table; [unfold fixed; intuition discriminate|reflexivity]].
Qed.

Example C76_case : exists o r, make Abi abi_opts all_there table3 "ch2" "GOES-16" = Ok o /\ ir_rsr o = Some r /\
  rw_response r = [Fin 1; Fin 2; Fin 3] /\ layout Abi "GOES-16" "ch2" 2 2 1.
Proof. exact abi_case. Qed.
Example C76_case_column : exists o r, make Cocts (own_files "HY-1C" "cocts" (channels 1 8)) all_there table3 "ch2" "HY-1C" = Ok o /\ ir_rsr o = Some r /\
  rw_response r = [Fin 1; Fin 2; Fin 3] /\ layout Cocts "HY-1C" "ch2" 0 2 1000.
Proof. exact cocts_case. Qed.
Example C76_case_missing : exists o, make Avhrr (own_files "NOAA-19" "avhrr/3" ["ch1"; "ch2"; "ch3a"; "ch3b"; "ch4"; "ch5"]) none_there table3 "ch2" "NOAA-19" = Ok o /\ ir_rsr o = None.
Proof. exact avhrr_missing. Qed.
Example C76_case_strict : make Abi abi_opts none_there table3 "ch2" "GOES-16" = Err OSError.
Proof. reflexivity. Qed.
Example C76_case_unconfigured : make Abi (own_files "GOES-16" "abi" (channels 1 15)) all_there table3 "ch2" "GOES-16" = Err KeyError.
Proof. reflexivity. Qed.

(** ** C77: scripts whose result is wrong *)
(** VIRR: there is no configuration and no file with which it works. *)
Theorem C77_virr_refuted : forall (N : Num) options there (columns : string -> nat -> res (list (list N))) b p,
  make Virr options there columns b p = Err (if existsb_str p ["FY-3B"; "FY-3C"] then TypeError else KeyError).
Proof. exact @virr_fails. Qed.
Print Assumptions C77_virr_refuted.
(** MERSI-1 on FY-3B: channels 4 and 8 get the same curve ... *)
Theorem C77_own_column_refuted : forall (N : Num) options there (columns : string -> nat -> res (list (list N))) o o' file,
  configured options "FY-3B" "mersi-1" "ch4" file -> configured options "FY-3B" "mersi-1" "ch8" file ->
  make Mersi1 options there columns "ch4" "FY-3B" = Ok o -> make Mersi1 options there columns "ch8" "FY-3B" = Ok o' -> ir_rsr o = ir_rsr o'.
Proof. exact @mersi1_twins. Qed.
Print Assumptions C77_own_column_refuted.
(** ... and they are the only two of the bands in the first file. *)
Theorem C77_other_columns : forall b b' c, mersi1_column "FY-3B" b = Ok c -> mersi1_column "FY-3B" b' = Ok c ->
  b = b' \/ (one_of ["ch4"; "ch8"] b /\ one_of ["ch4"; "ch8"] b') \/ one_of ["ch6"; "ch7"] b \/ one_of ["ch6"; "ch7"] b'.
Proof. exact mersi1_columns. Qed.
Print Assumptions C77_other_columns.
(** a file with different columns for the two *)
Example C77_case : exists o o' file, configured one_mersi_file "FY-3B" "mersi-1" "ch4" file /\ configured one_mersi_file "FY-3B" "mersi-1" "ch8" file /\
  make Mersi1 one_mersi_file all_there mersi_table "ch4" "FY-3B" = Ok o /\ make Mersi1 one_mersi_file all_there mersi_table "ch8" "FY-3B" = Ok o'.
Proof. exact twins. Qed.
Example C77_case_columns : mersi1_column "FY-3B" "ch9" = Ok 5%nat /\ mersi1_column "FY-3B" "ch3" = Ok 3%nat.
Proof. split; reflexivity. Qed.

(** ** C78: files given in wavenumbers *)
Theorem C78_wavenumbers : forall k options there columns b p o r, k = Ami \/ k = MsuGs \/ k = SlstrTxt ->
  make k options there columns b p = Ok o -> ir_rsr o = Some r ->
  exists file, configured options p (ir_instrument o) b file /\ exists w y rest, columns file 4%nat = Ok (w :: y :: rest) /\
    forall l : list (R * R), w = map (fun p => Fin (fst p)) l -> y = map (fun p => Fin (snd p)) l ->
      Forall (fun p => 0 < fst p)%R l -> StronglySorted (fun a b => fst a < fst b)%R l ->
      exists l', curve r l' /\ StronglySorted (fun a b => fst a < fst b)%R l' /\ l' = rev (map (fun p => (10000 / fst p, snd p))%R l).
Proof. exact wavenumbers. Qed.
Print Assumptions C78_wavenumbers.
Example C78_case : exists o r, make Ami ami_opts all_there wavenumber_table "ch9" "GEO-KOMPSAT-2A" = Ok o /\ ir_rsr o = Some r.
Proof. exact ami_case. Qed.

(** ** C79: trimmed curves *)
(** AGRI and GHI: exactly the points above one thousandth; if some response is
    above 1 all count as percent. *)
Theorem C79_trimmed : forall k options there columns b p o r, k = Agri \/ k = Ghi -> make k options there columns b p = Ok o -> ir_rsr o = Some r ->
  exists file u w y rest, configured options p (ir_instrument o) b file /\ geo_unit k p b u /\ columns file 1%nat = Ok (w :: y :: rest) /\
    forall l : list (R * R), w = map (fun p => Fin (fst p)) l -> y = map (fun p => Fin (snd p)) l ->
      (Forall (fun p => snd p <= 1)%R l -> exists l', trimmed (map (fun p => (fst p / IZR u, snd p))%R l) l' /\ curve r l') /\
      (Exists (fun p => 1 < snd p)%R l -> exists l', trimmed (map (fun p => (fst p / IZR u, snd p / 100))%R l) l' /\ curve r l').
Proof. exact geo_curves. Qed.
Print Assumptions C79_trimmed.
(** MERSI-1, which has nanometres and fractions *)
Theorem C79_mersi1 : forall options there columns b p o r, make Mersi1 options there columns b p = Ok o -> ir_rsr o = Some r ->
  exists file data w y c, configured options p (ir_instrument o) b file /\ columns file 0%nat = Ok data /\ nth_error data 0 = Some w /\
    nth_error data c = Some y /\ (p <> "FY-3B" -> c = 1%nat) /\ (1 <= c)%nat /\
    forall l : list (R * R), w = map (fun p => Fin (fst p)) l -> y = map (fun p => Fin (snd p)) l ->
      exists l', trimmed (map (fun p => (fst p / 1000, snd p))%R l) l' /\ curve r l'.
Proof. exact mersi1_trimmed. Qed.
Print Assumptions C79_mersi1.
(** Finding: a curve of fractions with a peak of 1.01 is taken for percent. *)
Theorem C79_fractions_refuted : exists options there columns o r (l l' : list (R * R)), @make XRN Agri options there columns "ch2" "FY-4A" = Ok o /\ ir_rsr o = Some r /\
  (forall f n, columns f n = Ok [map (fun p => Fin (fst p)) l; map (fun p => Fin (snd p)) l]) /\
  Forall (fun p => 0 <= snd p <= 102 / 100)%R l /\ Exists (fun p => 1 <= snd p)%R l /\ curve r l' /\ Forall (fun p => snd p <= 2 / 100)%R l'.
Proof. exact fractions_divided. Qed.
Print Assumptions C79_fractions_refuted.
Example C79_case : exists o r, make Agri agri_opts all_there table3 "ch2" "FY-4A" = Ok o /\ ir_rsr o = Some r.
Proof. exact agri_case. Qed.
Example C79_case_trimmed : trimmed [(600 / 1000, 0); (610 / 1000, 50 / 100)]%R [(610 / 1000, 50 / 100)]%R.
Proof. apply tr_drop; [lra|]. apply tr_keep; [lra|]. constructor. Qed.

(** ** C82: SEVIRI *)
(** A work book with a visible channel yields no file ... *)
Theorem C82_visible_refuted : forall (N : Num) (f32 : N -> N) sheets s p, Seviri sheets "wavelength" = Ok s -> In p satellites ->
  (exists sh, In sh sheets /\ channel_sheet sh /\ ~ is_infrared (strip (sh_name sh))) -> generate_seviri_file f32 s p = Err IndexError.
Proof. exact @visible_blocks. Qed.
Print Assumptions C82_visible_refuted.
(** ... nor does any after conversion to wavenumbers. *)
Theorem C82_wavenumber_refuted : forall (N : Num) (f32 : N -> N) sheets s p, Seviri sheets "wavenumber" = Ok s ->
  (exists sh, In sh sheets /\ channel_sheet sh) -> generate_seviri_file f32 s p = Err TypeError.
Proof. exact @wavenumber_blocks. Qed.
Print Assumptions C82_wavenumber_refuted.
(** With infrared channels only, each satellite's file has the responses at 95 K
    of that satellite, from its own column. *)
Theorem C82_infrared : forall (N : Num) (f32 : N -> N) sheets s p, Seviri sheets "wavelength" = Ok s -> In p satellites ->
  (forall sh, In sh sheets -> channel_sheet sh -> is_infrared (strip (sh_name sh))) ->
  exists h i, generate_seviri_file f32 s p = Ok h /\ read_rsr h = Ok i /\
    (forall b, In b (ri_bands i) <-> exists sh, In sh sheets /\ channel_sheet sh /\ strip (sh_name sh) = b) /\
    forall b, In b (ri_bands i) -> exists sh n w r x, In sh sheets /\ channel_sheet sh /\ strip (sh_name sh) = b /\
      nth_error satellites n = Some p /\ infrared_rows sh 0 w /\ infrared_rows sh (2 * n + 1) r /\ central_of w r x /\
      dget b (ri_rsr i) = Some [("det-1", [("response", VArr (map f32 r));
        ("wavelength", VArr (map (fun v => nmul N (nmul N (f32 v) (nlit N 1 1000000)) (nlit N 1000000 1)) w)); ("central_wavelength", VNum x)])].
Proof. exact @infrared_only. Qed.
Print Assumptions C82_infrared.
(** Whatever the kind of channel, the object holds for each satellite the
    satellite's own column, and the central wavelength computed from it. *)
Theorem C82_columns : forall (N : Num) (sheets : list (sheet N)) s, Seviri sheets "wavelength" = Ok s ->
  (forall b, In b (dkeys (se_rsr s)) <-> exists sh, In sh sheets /\ channel_sheet sh /\ strip (sh_name sh) = b) /\
  forall b c p, dget b (se_rsr s) = Some c -> In p satellites -> exists sh n row col two cs x y,
    In sh sheets /\ channel_sheet sh /\ strip (sh_name sh) = b /\ nth_error satellites n = Some p /\ sheet_layout b row col two /\
    block sh row 0 (sv_wavelength c) /\ dget b (se_centrals s) = Some cs /\ dget p cs = Some (x, y) /\
    if two then exists r95 r85, dget p (sv_sats c) = Some (STemps r95 r85) /\ block sh row (col n) r95 /\ block sh row (S (col n)) r85 /\
      central_of (sv_wavelength c) r95 x /\ central_of (sv_wavelength c) r85 y
    else exists r, dget p (sv_sats c) = Some (SArr r) /\ block sh row (col n) r /\ central_of (sv_wavelength c) r x.
Proof. exact @seviri_columns. Qed.
Print Assumptions C82_columns.
Example C82_case_columns : (exists s, Seviri [info_sheet; hrv_sheet; vis_sheet] "wavelength" = Ok s) /\ exists row col, sheet_layout (strip (sh_name hrv_sheet)) row col false /\ block hrv_sheet row (col 2%nat) [Fin 5; Fin 1].
Proof. exact hrv_case. Qed.
(** Conversion to wavenumbers turns every curve of every channel around with
    its coordinate. *)
Theorem C82_pairs : forall sheets s s' ch c, @Seviri XRN sheets "wavelength" = Ok s -> Seviri sheets "wavenumber" = Ok s' -> dget ch (se_rsr s) = Some c ->
  exists c', dget ch (se_rsr s') = Some c' /\ (forall sat y', has_curve c' sat y' <-> exists y, has_curve c sat y /\ y' = rev y) /\
    forall l : list (R * R), sv_wavelength c = map (fun p => Fin (fst p)) l -> Forall (fun p => 0 < fst p)%R l -> StronglySorted (fun a b => fst a < fst b)%R l ->
      exists l', sv_wavelength c' = map (fun p => Fin (fst p)) l' /\ StronglySorted (fun a b => fst a < fst b)%R l' /\
        l' = rev (map (fun p => (10000 / fst p, snd p))%R l) /\
        forall sat, has_curve c sat (map (fun p => Fin (snd p)) l) -> has_curve c' sat (map (fun p => Fin (snd p)) l').
Proof. exact wavenumber_pairs. Qed.
Print Assumptions C82_pairs.
Example C82_case : (exists s, Seviri [info_sheet; ir_sheet; vis_sheet] "wavelength" = Ok s) /\ (exists s, Seviri [info_sheet; ir_sheet; vis_sheet] "wavenumber" = Ok s) /\
  channel_sheet vis_sheet /\ ~ is_infrared (strip (sh_name vis_sheet)).
Proof. split; [exact seviri_case|]. split; [exact seviri_wn_case|]. split; [split; discriminate|]. intros (r & H). discriminate. Qed.
Example C82_case_infrared : (exists s, Seviri [info_sheet; ir_sheet] "wavelength" = Ok s) /\ is_infrared (strip (sh_name ir_sheet)).
Proof. split; [exact seviri_ir_case|]. now exists "10.8". Qed.

(** ** C83: the name under which a file is written and the one that is opened *)
Theorem C83_same_name : forall p i i', (dget p INSTRUMENTS = None \/ carries p i) -> check_and_adjust_instrument_name p i = Ok i' ->
  (converted_filename p i = get_rsr_filename p i' <-> lower_case i /\ without "-"%char i).
Proof. exact names_agree. Qed.
Print Assumptions C83_same_name.
(** Finding: for these instruments the converted file is not the one opened. *)
Theorem C83_same_name_refuted : exists p i i', carries p i /\ check_and_adjust_instrument_name p i = Ok i' /\ converted_filename p i <> get_rsr_filename p i'.
Proof. exact names_differ. Qed.
Print Assumptions C83_same_name_refuted.
Example C83_case : converted_filename "Metop-B" "avhrr/3" = get_rsr_filename "Metop-B" "avhrr3" /\ carries "Metop-B" "avhrr/3".
Proof. split; [reflexivity|]. left. reflexivity. Qed.
