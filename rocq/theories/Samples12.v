(** Sample files for the readers of NetCDF files and work books (T_Books). *)
From Coq Require Import String Ascii List Bool ZArith Lia Reals Lra.
From Verif Require Import Base NumSig XR M_Tables M_Utils M_World M_Hdf5 M_Raw M_Books S_Raw S_Raw2 S_Books P_Raw8 P_Raw11 P_Books P_Books2 Samples7.
Import ListNotations.
Local Open Scope string_scope.

Definition at_path (section path : string) : dict cfg := [(section, CMap [("path", Leaf (LStr path))])].

(** ** NetCDF *)
Section Nc.
  Context {N : Num}.
  Definition x_ (i : Z) : N := nlit N i 1.
  Definition nc_options : dict cfg :=
    ("Meteosat-12-fci", CMap [("path", Leaf (LStr "/raw")); ("filename", Leaf (LStr "fci.nc"))]) :: at_path "Sentinel-3A-olci" "/raw/olci.nc" ++ own_files "Sentinel-3A" "slstr" (channels 1 9).
  Definition nc_sample (f : string) : res (nc_file N) :=
    if String.eqb f "/raw/fci.nc" then
      Ok {| nc_variables := [("channel_id", NVText ["vis_04"; "ir_105"; "vis_04"]); ("wavelength", NV2 [[x_ 1; x_ 2; x_ 3]; [x_ 4; x_ 5; x_ 6]]);
                             ("srf", NV2 [[x_ 7; x_ 8; x_ 9]; [x_ 0; x_ 1; x_ 2]])]; nc_groups := [] |}
    else if String.eqb f "/raw/olci.nc" then
      Ok {| nc_variables := [("mean_spectral_response_function", NV2 [[x_ 1; x_ 2]; [x_ 3; x_ 4]]);
                             ("mean_spectral_response_function_wavelength", NV2 [[x_ 400; x_ 401]; [x_ 412; x_ 413]])]; nc_groups := [] |}
    else if String.eqb f "/raw/ch3.txt" then
      Ok {| nc_variables := [("wavelength", NV1 [x_ 1; x_ 2]); ("response", NV1 [x_ 3; x_ 4])]; nc_groups := [] |}
    else Err FileNotFoundError.
  Lemma fci_case : (exists o r, FciRSR nc_options nc_sample "vis_04" "Meteosat-12" = Ok o /\ ir_rsr o = Some r /\ rw_response r = [x_ 9; x_ 2]) /\
    exists o, FciRSR nc_options nc_sample "vis_05" "Meteosat-12" = Ok o /\ ir_rsr o = None.
  Proof. split; [eexists _, _; repeat split|eexists; repeat split]. Qed.
  Lemma olci_case : exists o r, OlciRSR nc_options all_there nc_sample "Oa02" "Sentinel-3A" = Ok o /\ ir_rsr o = Some r /\ rw_response r = [x_ 3; x_ 4].
  Proof. eexists _, _; repeat split. Qed.
  Lemma slstr_case : exists o r, SlstrRSR nc_options all_there nc_sample "ch3" "Sentinel-3A" = Ok o /\ ir_rsr o = Some r /\ rw_response r = [x_ 3; x_ 4].
  Proof. eexists _, _; repeat split. Qed.
End Nc.

(** *** METimage: every band with two points, the second one stronger *)
Local Open Scope R_scope.
Definition met_options : dict cfg := at_path "Metop-SG-A1-metimage" "/raw/met.nc".
Definition met_int (s : string) : res Z :=
  of_option ValueError (option_map snd (find (fun q => String.eqb (snd (fst q)) s) METIMAGE)).
Definition met_curve (b : string) : list (R * R) :=
  match find (fun q => String.eqb (fst (fst q)) b) METIMAGE with Some (_, _, z) => [(IZR z / 1000, 2); (IZR z / 1000 + 1, 8); (IZR z / 1000, 3)] | None => [] end.
Definition met_vars (p : Z -> bool) : dict (nc_var XRN) :=
  map (fun q => ("ISRF_cw_" ++ snd (fst q), NV2 (two_columns (met_curve (fst (fst q)))))) (filter (fun q => p (snd q)) METIMAGE).
Definition met_file : nc_file XRN :=
  {| nc_variables := [];
     nc_groups := [("LVWIR", met_vars (Z.ltb 6000)); ("SMWIR", met_vars (fun z => (1000 <? z)%Z && (z <=? 6000)%Z)%bool); ("VISNIR", met_vars (fun z => z <=? 1000)%Z)] |}.
Definition met_dataset (f : string) : res (nc_file XRN) := if String.eqb f "/raw/met.nc" then Ok met_file else Err FileNotFoundError.
Lemma met_digits : reads_digits met_int.
Proof. intros b d z H. cbn [METIMAGE In] in H. repeat (destruct H as [H|H]; [injection H as <- <- <-; reflexivity|]). destruct H. Qed.
Lemma met_entry : entry met_options "Metop-SG-A1" "metimage" "path" "/raw/met.nc".
Proof. eexists. split; reflexivity. Qed.
Lemma met_case : entry met_options "Metop-SG-A1" "metimage" "path" "/raw/met.nc" /\ met_dataset "/raw/met.nc" = Ok met_file /\ reads_digits met_int /\
  forall b d z, In (b, d, z) METIMAGE -> (exists g vars, metimage_group z g /\ dget g (nc_groups met_file) = Some vars /\
     dget ("ISRF_cw_" ++ d) vars = Some (NV2 (two_columns (met_curve b)))) /\ exists q, In q (met_curve b) /\ 0 < snd q.
Proof.
  split; [exact met_entry|]. split; [reflexivity|]. split; [exact met_digits|].
  intros b d z H. cbn [METIMAGE In] in H.
  repeat (destruct H as [H|H]; [injection H as <- <- <-;
    (split; [eexists _, _; split; [first [apply mg_visible; lia|apply mg_middle; lia|apply mg_long; lia]|split; reflexivity]|
             eexists; split; [left; reflexivity|cbn [snd]; lra]])|]). destruct H.
Qed.
Lemma met_load : exists o, @MetImageRSR XRN met_options all_there met_int met_dataset "vii-24" "Metop-SG-A1" = Ok o /\ ir_rsr o <> None.
Proof.
  destruct met_case as (_ & _ & _ & H). destruct (H "vii-24" "1630" 1630%Z) as ((g & vars & G & V & W) & P); [cbn; tauto|].
  destruct (metimage_load met_dataset "/raw/met.nc" met_file "vii-24" "1630" 1630%Z g vars _ ltac:(cbn; tauto) G eq_refl V W P) as (q & _ & _ & E).
  apply metimage_group_fun in G. cbn in G. subst g. eexists. split.
  - unfold MetImageRSR, path_rsr. cbn [get_options_from_config]. change (get_options_from_config met_options "Metop-SG-A1" "metimage") with (Ok (A:=cfg * dict cfg * string) (Leaf (LStr "./"), [("path", Leaf (LStr "/raw/met.nc"))], "/raw/met.nc")).
    cbn [bind all_there]. change (dget "vii-24" METIMAGE_BAND_NAMES_DICT) with (Some "vii_1630"). cbn [of_option bind].
    change (get_groupname_from_bandname met_int "vii_1630") with (Ok "SMWIR"). cbn [bind].
    change (isrf_name "vii_1630") with ("ISRF_cw_" ++ "1630"). rewrite E. reflexivity.
  - discriminate.
Qed.

(** ** Work books *)
Definition epic_options : dict cfg := at_path "DSCOVR-epic" "/raw/epic.xlsx".
Definition epic_book (f sheet : string) (skip : nat) : res (dict (list XRN)) :=
  if String.eqb sheet "Data" then
    Ok [("Wavelength", [NaN; Fin 316; Fin 317; NaN]); ("T(317.5) %", [NaN; Fin 1; Fin 4; NaN]); ("Wavelength.1", [NaN; Fin 324; Fin 325; Fin 326]);
        ("T(325) %", [NaN; Fin 3; Fin 6; Fin 2])]
  else Err ValueError.
Lemma epic_case : exists o r, @EpicRSR XRN epic_options all_there epic_book "B325" "DSCOVR" = Ok o /\ ir_rsr o = Some r /\ List.length (points r) = 3%nat.
Proof. eexists _, _. split; [reflexivity|]. split; reflexivity. Qed.
Definition goci2_csv (f : string) : res (dict (list XRN)) :=
  Ok [("B1 (380 nm)", [Fin 1; Fin 4]); ("B2 (412 nm)", [Fin 2; Fin 3]); ("Wavelength", [Fin 379; Fin 380])].
Lemma goci2_case : (exists o r, @GOCI2RSR XRN (at_path "GEO-KOMPSAT-2B-goci2" "/raw/goci2.csv") all_there goci2_csv "L380" "GEO-KOMPSAT-2B" = Ok o /\ ir_rsr o = Some r) /\
  @left_of (list XRN) [("B1 (380 nm)", [Fin 1; Fin 4]); ("B2 (412 nm)", [Fin 2; Fin 3]); ("Wavelength", [Fin 379; Fin 380])] "B1 (380 nm)" [Fin 379; Fin 380] [Fin 1; Fin 4].
Proof. split; [eexists _, _; split; reflexivity|]. apply (lo_first _ _ [("B1 (380 nm)", [Fin 1; Fin 4] : list XRN); ("B2 (412 nm)", [Fin 2; Fin 3] : list XRN)] "Wavelength"); reflexivity. Qed.
Definition msi_rows : list (R * R) := [(430, 0); (440, 1/10); (441, 1); (442, 0); (443, 0); (500, 0)].
Definition msi_book (f sheet : string) (skip : nat) : res (dict (list XRN)) :=
  if String.eqb sheet "Spectral Responses (S2A)" then Ok [("SR_WL", firsts msi_rows); ("S2A_SR_AV_B1", seconds msi_rows)] else Err ValueError.
Lemma near_total (rows : list (R * R)) : rows <> [] -> exists pts, @near_significant XRN (firsts rows) (seconds rows) = Ok pts.
Proof.
  intros NE. destruct rows as [|q rows]; [congruence|]. unfold near_significant. cbn [firsts map]. match goal with |- context [match ?l with [] => Ok [] | _ => _ end] => destruct l end; eauto.
Qed.
Lemma msi_case : exists o, @MsiRSR XRN (at_path "Sentinel-2A-msi" "/raw/msi.xlsx") all_there msi_book "B01" "Sentinel-2A" = Ok o.
Proof.
  destruct (near_total msi_rows) as (pts & E); [discriminate|]. eexists. unfold MsiRSR. change (dget "Sentinel-2A" PLATFORM_SHORT_NAME) with (Some "S2A"). cbn [of_option bind].
  unfold path_rsr. change (get_options_from_config (at_path "Sentinel-2A-msi" "/raw/msi.xlsx") "Sentinel-2A" "msi") with (Ok (A:=cfg * dict cfg * string) (Leaf (LStr "./"), [("path", Leaf (LStr "/raw/msi.xlsx"))], "/raw/msi.xlsx")).
  cbn [bind all_there]. unfold load_msi. change (dget "B01" MSI_BAND_NAMES) with (Some "B1"). change (dget "S2A" SHEET_HEADERS) with (Some "Spectral Responses (S2A)"). cbn [of_option bind].
  change (msi_book "/raw/msi.xlsx" "Spectral Responses (S2A)" 0) with (Ok [("SR_WL", firsts msi_rows); ("S2A_SR_AV_B1", seconds msi_rows)]). cbn [bind].
  change (dget "SR_WL" [("SR_WL", firsts msi_rows); ("S2A_SR_AV_B1", seconds msi_rows)]) with (Some (firsts msi_rows)).
  change (dget ("S2A" ++ "_SR_AV_" ++ "B1") [("SR_WL", firsts msi_rows); ("S2A_SR_AV_B1", seconds msi_rows)]) with (Some (seconds msi_rows)). cbn [of_option bind].
  rewrite E. reflexivity.
Qed.
Lemma msi_near : near msi_rows (443, 0) /\ ~ near msi_rows (500, 0) /\ ~ near msi_rows (430, 0).
Proof.
  split; [|split].
  - exists (440, 1/10), (441, 1). cbn [msi_rows In fst snd]. repeat split; try lra; tauto.
  - intros (a & b & _ & Ib & _ & Hb & _ & Q). cbn [msi_rows In fst snd] in *. destruct Ib as [<-|[<-|[<-|[<-|[<-|[<-|[]]]]]]]; cbn [fst snd] in *; lra.
  - intros (a & b & Ia & _ & Ha & _ & Q & _). cbn [msi_rows In fst snd] in *. destruct Ia as [<-|[<-|[<-|[<-|[<-|[<-|[]]]]]]]; cbn [fst snd] in *; lra.
Qed.
Definition oli_options : dict cfg :=
  [("Landsat-8-oli_tirs", CMap [("path", Leaf (LStr "/raw")); ("oli", Leaf (LStr "oli.xlsx")); ("tirs", Leaf (LStr "tirs.xlsx"))])].
Definition oli_book (f sheet : string) (skip : nat) : res (dict (list XRN)) :=
  if String.eqb f "/raw/oli.xlsx" then Ok [("Wavelength", [Fin 430; Fin 440]); ("BA RSR [watts]", [Fin 0; Fin 1])]
  else if String.eqb sheet "TIRS BA RSR" then Ok [("wavelength [um]", [Fin 10; Fin 11]); ("TIRS1 10.8um band average", [Fin 0; Fin 1])]
  else Err ValueError.
Lemma oli_case : (exists o, @OliRSR XRN oli_options all_there oli_book "B1" "Landsat-8" = Ok o) /\ exists o, @OliRSR XRN oli_options all_there oli_book "B10" "Landsat-8" = Ok o.
Proof. split; eexists; reflexivity. Qed.
Lemma oli_absent : oli_layout "Landsat-8" "B2" "oli" "Blue" "Wavelength" "BA RSR [watts]" /\ entry oli_options "Landsat-8" "oli_tirs" "path" "/raw" /\
  entry oli_options "Landsat-8" "oli_tirs" "oli" "oli.xlsx" /\ none_there "/raw/oli.xlsx" = false.
Proof. split; [constructor; cbn; tauto|]. split; [eexists; split; reflexivity|]. split; [eexists; split; reflexivity|reflexivity]. Qed.
Definition msugsa_book (f sheet : string) (skip : nat) (names : list string) : res (dict (list XRN)) :=
  if String.eqb sheet "MSU-1 IR" then Ok (map (fun n => (n, [Fin 1; Fin 2])) names)
  else if String.eqb sheet "MSU-2 IR" then Ok (map (fun n => (n, [Fin 3; Fin 4])) names) else Err ValueError.
Lemma msugsa_case : exists o r1 r2, @MsugsaRSR XRN (at_path "Electro-L-N2-msu-gsa" "/raw/msu.xlsx") msugsa_book "ch5" "Electro-L-N2" = Ok o /\
  sn_rsr o = RMulti [("det-1", r1); ("det-2", r2)] /\ rw_response r1 = [Fin 1; Fin 2] /\ rw_response r2 = [Fin 3; Fin 4].
Proof. eexists _, _, _. repeat split. Qed.
Section Aatsr.
  Context {N : Num}.
  Definition aatsr_float (s : string) : res N := of_option ValueError (dget s [("1.6"%string, nlit N 16 10); ("1.7"%string, nlit N 17 10); ("0.5"%string, nlit N 1 2); ("0.9"%string, nlit N 9 10)]).
  Definition aatsr_book (f : string) : res (list (book_sheet N)) :=
    Ok [{| bs_name := "Info"; bs_columns := [] |};
        {| bs_name := " aatsr_v16 "; bs_columns := [[CText "AATSR"; CText ""; CText "Wavelength Response"; CText "1.6 0.5"; CText " 1.7  0.9"]] |}].
  Lemma aatsr_case f32 : (exists o r, AatsrRSR (at_path "Envisat-aatsr" "/raw/a.xls") aatsr_float f32 aatsr_book "v16" "Envisat" = Ok o /\ ir_rsr o = Some r /\
      rw_response r = [f32 (nlit N 1 2); f32 (nlit N 9 10)]) /\
    exists o, AatsrRSR (at_path "Envisat-aatsr" "/raw/a.xls") aatsr_float f32 aatsr_book "v870" "Envisat" = Ok o /\ ir_rsr o = None.
  Proof. split; [eexists _, _; repeat split|eexists; repeat split]. Qed.
End Aatsr.
