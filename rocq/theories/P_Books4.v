(** When the readers of NetCDF files and work books succeed. *)
From Coq Require Import String Ascii List Bool ZArith Lia Reals Lra.
From Verif Require Import Base NumSig XR M_Tables M_Utils M_World M_Hdf5 M_Raw M_Books S_Raw S_Books P_Raw P_Books P_Books2.
Import ListNotations.
Local Open Scope string_scope.

Lemma options_entry options p i path : entry options p i "path" path -> exists out m, get_options_from_config options p i = Ok (out, m, path) /\ dget (p ++ "-" ++ i) options = Some (CMap m).
Proof. intros (m & A & B). unfold get_options_from_config. rewrite A. cbn [of_option bind]. rewrite B. cbn [of_option bind]. eauto. Qed.
Lemma path_total {N : Num} options ex strict i p path (ld : string -> res (raw N)) r : entry options p i "path" path -> ex path = true -> ld path = Ok r ->
  exists o, path_rsr options ex strict i p ld = Ok o /\ ir_rsr o = Some r.
Proof. intros En X L. destruct (options_entry _ _ _ _ En) as (out & m & E & _). unfold path_rsr. rewrite E. cbn [bind]. rewrite X, L. cbn [bind]. eexists. split; reflexivity. Qed.
Lemma column_total {N : Num} (rows : list (list N)) i : Forall (fun row => (i < List.length row)%nat) rows -> exists l, nc_column (NV2 rows) i = Ok l.
Proof.
  cbn [nc_column]. induction 1 as [|row rows H _ (l & IH)]; cbn [mapM]; [eauto|]. unfold idx at 1. destruct (nth_error row i) as [v|] eqn:E; [|apply nth_error_None in E; lia].
  cbn [of_option bind]. rewrite IH. cbn [bind]. eauto.
Qed.
Lemma fci_total {N : Num} options (dataset : string -> res (nc_file N)) b p path f nc names wr yr :
  entry options p "fci" "path" path -> entry options p "fci" "filename" f -> dataset (path ++ "/" ++ f) = Ok nc -> dget "channel_id" (nc_variables nc) = Some (NVText names) ->
  dget "wavelength" (nc_variables nc) = Some (NV2 wr) -> dget "srf" (nc_variables nc) = Some (NV2 yr) ->
  Forall (fun row => List.length row = List.length names) wr -> Forall (fun row => List.length row = List.length names) yr -> exists o, FciRSR options dataset b p = Ok o.
Proof.
  intros En (m' & F1 & F2) D Na W Y Fw Fy. destruct (options_entry _ _ _ _ En) as (out & m & E & M). rewrite M in F1. injection F1 as <-.
  unfold FciRSR. rewrite E. cbn [bind]. rewrite F2. cbn [bind]. unfold join. rewrite D. cbn [bind]. rewrite W, Y, Na. cbn [of_option bind nc_text].
  assert (K : forall l i acc, (i + List.length l <= List.length names)%nat -> exists r, fci_select b l i (NV2 wr) (NV2 yr) (nlit N 1000000 1) acc = Ok r).
  { induction l as [|n l IH]; cbn [fci_select List.length]; intros i acc Hi; [eauto|]. destruct (String.eqb n b).
    - destruct (column_total wr i) as (w & ->); [revert Fw; apply Forall_impl; intros; lia|]. destruct (column_total yr i) as (y & ->); [revert Fy; apply Forall_impl; intros; lia|]. cbn [bind]. apply IH. lia.
    - apply IH. lia. }
  destruct (K names 0%nat None) as (r & ->); [lia|]. cbn [bind]. eauto.
Qed.
Lemma index_of_total b l i : NoDup l -> nth_error l i = Some b -> index_of b l = Some i.
Proof.
  intros ND. revert i. induction ND as [|x l NI ND IH]; intros [|i]; cbn [nth_error index_of]; try discriminate.
  - intros [= ->]. now rewrite String.eqb_refl.
  - intros H. destruct (String.eqb_spec b x) as [->|]; [exfalso; apply NI; eapply nth_error_In; eauto|]. now rewrite (IH _ H).
Qed.
Lemma olci_nodup : NoDup OLCI_NAMES.
Proof. unfold OLCI_NAMES. repeat (constructor; [cbn; intuition discriminate|]). constructor. Qed.
Lemma olci_total {N : Num} options ex (dataset : string -> res (nc_file N)) b p path nc i yr wr y w :
  entry options p "olci" "path" path -> ex path = true -> dataset path = Ok nc -> nth_error OLCI_NAMES i = Some b ->
  dget "mean_spectral_response_function" (nc_variables nc) = Some (NV2 yr) -> dget "mean_spectral_response_function_wavelength" (nc_variables nc) = Some (NV2 wr) ->
  nth_error yr i = Some y -> nth_error wr i = Some w -> exists o, OlciRSR options ex dataset b p = Ok o.
Proof.
  intros En X D I Y W Yi Wi. edestruct (path_total options ex true "olci" p path (load_olci dataset b)) as (o & E & _); [exact En|exact X| |exists o; exact E].
  unfold load_olci. rewrite D. cbn [bind]. change OLCI_BAND_NAMES with OLCI_NAMES. rewrite (index_of_total _ _ _ olci_nodup I). cbn [of_option bind]. rewrite Y. cbn [of_option bind nc_row].
  unfold idx. rewrite Yi. cbn [of_option bind]. rewrite W. cbn [of_option bind nc_row]. unfold idx. rewrite Wi. cbn [of_option bind]. reflexivity.
Qed.

(** ** Frames *)
Lemma get_loc_total {N : Num} name (df : dict (list N)) : In name (dkeys df) -> exists i, get_loc name df = Ok i.
Proof.
  induction df as [|(k, c) df IH]; cbn [get_loc dkeys map]; intros H; [destruct H|]. destruct (String.eqb_spec name k) as [->|]; [eauto|].
  destruct H as [H|H]; [cbn in H; congruence|]. destruct (IH H) as (i & ->). cbn [bind]. eauto.
Qed.
Lemma get_loc_lt {N : Num} name (df : dict (list N)) i : get_loc name df = Ok i -> exists y, nth_error df i = Some (name, y).
Proof. apply get_loc_ok. Qed.
Lemma named_total (df : dict (list XRN)) name : In name (dkeys df) -> (forall y, In (name, y) df -> present y <> []) -> exists r, @left_and_named XRN df name = Ok r.
Proof.
  intros I NE. destruct (get_loc_total name df I) as (i & E). destruct (get_loc_ok _ _ _ E) as (y & Y). unfold left_and_named. rewrite E. cbn [bind].
  assert (L : exists w, left_column df i = Ok w).
  { destruct i as [|i]; cbn [left_column].
    - destruct df as [|c df]; [discriminate|]. destruct (rev (c :: df)) as [|d l] eqn:R; [|cbn; eauto]. apply (f_equal (@List.length _)) in R. rewrite rev_length in R. discriminate.
    - unfold idx. destruct (nth_error df i) as [c|] eqn:C; [cbn; eauto|]. apply nth_error_None in C. assert (nth_error df (S i) <> None) by congruence. apply nth_error_Some in H. lia. }
  destruct L as (w & ->). cbn [bind]. unfold idx. rewrite Y. cbn [of_option bind snd]. rewrite dropna_present.
  specialize (NE y (nth_error_In _ _ Y)). unfold normalised, maximum. destruct (present y); [congruence|]. cbn [bind]. eauto.
Qed.
Lemma goci2_total options ex read_csv b p path df name : entry options p "goci2" "path" path -> ex path = true -> read_csv path = Ok df -> In (b, name) GOCI2_COLUMNS ->
  In name (dkeys df) -> (forall y, In (name, y) df -> present y <> []) -> exists o r, @GOCI2RSR XRN options ex read_csv b p = Ok o /\ ir_rsr o = Some r.
Proof.
  intros En X D I Hn NE. destruct (named_total df name Hn NE) as (r & E). destruct (path_total options ex false "goci2" p path (load_goci2 read_csv b) r En X) as (o & E1 & E2); [|eauto].
  unfold load_goci2. rewrite D. cbn [bind].
  assert (G : dget b GOCI2_BAND_NAMES = Some name). { cbn [GOCI2_COLUMNS In] in I. repeat (destruct I as [I|I]; [injection I as <- <-; reflexivity|]). destruct I. }
  rewrite G. cbn [of_option bind]. exact E.
Qed.
Lemma epic_total options ex read_excel b p path df k v c df' name : entry options p "epic" "path" path -> ex path = true -> read_excel path "Data" 4%nat = Ok df -> df = (k, v :: c) :: df' ->
  In (b, name) EPIC_COLUMNS -> In name (dkeys df) -> (forall y, In (name, y) df -> present (tl y) <> []) -> exists o r, @EpicRSR XRN options ex read_excel b p = Ok o /\ ir_rsr o = Some r.
Proof.
  intros En X D Hd I Hn NE. destruct (named_total (dmap (@tl XRN) df) name) as (r & E).
  { unfold dkeys, dmap in *. rewrite map_map. cbn [fst]. exact Hn. }
  { intros y Hy. unfold dmap in Hy. apply in_map_iff in Hy as ((k', v') & [= <- <-] & Hy). now apply NE. }
  destruct (path_total options ex false "epic" p path (load_epic read_excel b) r En X) as (o & E1 & E2); [|eauto].
  unfold load_epic. rewrite D. cbn [bind]. assert (Dr : drop_first df = Ok (dmap (@tl XRN) df)) by (rewrite Hd; reflexivity). rewrite Dr. cbn [bind].
  assert (G : dget b EPIC_BAND_NAMES = Some name). { cbn [EPIC_COLUMNS In] in I. repeat (destruct I as [I|I]; [injection I as <- <-; reflexivity|]). destruct I. }
  rewrite G. cbn [of_option bind]. exact E.
Qed.
Lemma msi_total options ex read_excel b c p s path df (rows : list (R * R)) : In (b, c) MSI_COLUMNS -> In (p, s) SENTINELS -> entry options p "msi" "path" path -> ex path = true ->
  read_excel path ("Spectral Responses (" ++ s ++ ")") 0%nat = Ok df -> dget "SR_WL" df = Some (firsts rows) -> dget (s ++ "_SR_AV_" ++ c) df = Some (seconds rows) -> rows <> [] ->
  exists o, @MsiRSR XRN options ex read_excel b p = Ok o.
Proof.
  intros I S En X D W Y NE. unfold MsiRSR.
  assert (P : dget p PLATFORM_SHORT_NAME = Some s). { cbn [SENTINELS In] in S. destruct S as [S|[S|[S|[]]]]; injection S as <- <-; reflexivity. }
  assert (H : dget s SHEET_HEADERS = Some ("Spectral Responses (" ++ s ++ ")")). { cbn [SENTINELS In] in S. destruct S as [S|[S|[S|[]]]]; injection S as <- <-; reflexivity. }
  assert (C : dget b MSI_BAND_NAMES = Some c). { cbn [MSI_COLUMNS In] in I. repeat (destruct I as [I|I]; [injection I as <- <-; reflexivity|]). destruct I. }
  assert (Q : exists pts, @near_significant XRN (firsts rows) (seconds rows) = Ok pts).
  { destruct rows as [|q rows]; [congruence|]. unfold near_significant. cbn [firsts map]. match goal with |- context [match ?l with [] => Ok [] | _ => _ end] => destruct l end; eauto. }
  destruct Q as (pts & Q).
  rewrite P. cbn [of_option bind]. edestruct (path_total options ex true "msi" p path (load_msi read_excel s b)) as (o & E & _); [exact En|exact X| |exists o; exact E].
  unfold load_msi. rewrite C, H. cbn [of_option bind]. rewrite D. cbn [bind]. rewrite W, Y. cbn [of_option bind].
  rewrite Q. cbn [bind]. reflexivity.
Qed.
Lemma oli_total options ex read_excel b p path key sheet wn rn f df w y : oli_layout p b key sheet wn rn -> entry options p "oli_tirs" "path" path -> entry options p "oli_tirs" key f ->
  ex (path ++ "/" ++ f) = true -> read_excel (path ++ "/" ++ f) sheet 0%nat = Ok df -> dget wn df = Some w -> dget rn df = Some y -> exists o, @OliRSR XRN options ex read_excel b p = Ok o.
Proof.
  intros L En (m' & A' & B') X D W Y. destruct (options_entry _ _ _ _ En) as (out & m & E & M). rewrite M in A'. injection A' as <-.
  unfold OliRSR. rewrite E. cbn [bind].
  assert (K : (if dhas b OLI_BAND_NAMES then Ok "oli" else if dhas b TIRS_BAND_NAMES_L8 then Ok "tirs" else Err ValueError) = Ok key).
  { destruct L as [p b sheet I| | | |]; try reflexivity. cbn [In] in I. repeat (destruct I as [I|I]; [injection I as <- <-; reflexivity|]). destruct I. }
  rewrite K. cbn [bind]. unfold file_entry. rewrite B'. cbn [of_option bind]. unfold join. rewrite X.
  assert (C : @oli_columns XRN read_excel (path ++ "/" ++ f) sheet wn rn = Ok {| rw_wavelength := map (fun x => ndiv XRN x (nlit XRN 1000 1)) w; rw_response := y |}).
  { unfold oli_columns. rewrite D. cbn [bind]. rewrite W, Y. reflexivity. }
  unfold load_oli. destruct L as [p b sheet I| | | |].
  - assert (G : dget b OLI_BAND_NAMES = Some sheet). { cbn [In] in I. repeat (destruct I as [I|I]; [injection I as <- <-; reflexivity|]). destruct I. }
    rewrite G, C. cbn [bind]. eauto.
  - cbn [dget OLI_BAND_NAMES String.eqb Ascii.eqb Bool.eqb of_option bind TIRS_SHEETNAMES_L8 TIRS_BAND_NAMES_L8 TIRS_SHEETNAMES_L9 TIRS_BAND_NAMES_L9]. rewrite C. cbn [bind]. eauto.
  - cbn [dget OLI_BAND_NAMES String.eqb Ascii.eqb Bool.eqb of_option bind TIRS_SHEETNAMES_L8 TIRS_BAND_NAMES_L8 TIRS_SHEETNAMES_L9 TIRS_BAND_NAMES_L9]. rewrite C. cbn [bind]. eauto.
  - cbn [dget OLI_BAND_NAMES String.eqb Ascii.eqb Bool.eqb of_option bind TIRS_SHEETNAMES_L8 TIRS_BAND_NAMES_L8 TIRS_SHEETNAMES_L9 TIRS_BAND_NAMES_L9]. rewrite C. cbn [bind]. eauto.
  - cbn [dget OLI_BAND_NAMES String.eqb Ascii.eqb Bool.eqb of_option bind TIRS_SHEETNAMES_L8 TIRS_BAND_NAMES_L8 TIRS_SHEETNAMES_L9 TIRS_BAND_NAMES_L9]. rewrite C. cbn [bind]. eauto.
Qed.
Lemma msugsa_total options read_excel_names b p path kind names df1 df2 w1 y1 w2 y2 : entry options p "msu-gsa" "path" path -> msugsa_sheet b kind names ->
  read_excel_names path ("MSU-1" ++ kind) 2%nat names = Ok df1 -> read_excel_names path ("MSU-2" ++ kind) 2%nat names = Ok df2 ->
  dget "wvl" df1 = Some w1 -> dget b df1 = Some y1 -> dget "wvl" df2 = Some w2 -> dget b df2 = Some y2 -> exists o, @MsugsaRSR XRN options read_excel_names b p = Ok o.
Proof.
  intros (m & A & B) S D1 D2 W1 Y1 W2 Y2. unfold MsugsaRSR, get_path. change (p ++ "-msu-gsa") with (p ++ "-" ++ "msu-gsa"). rewrite A. cbn [of_option bind]. rewrite B. cbn [bind mapM].
  assert (L : forall k d w y, read_excel_names path ("MSU-" ++ band_number k ++ kind) 2%nat names = Ok d -> dget "wvl" d = Some w -> dget b d = Some y ->
    exists r, @load_msugsa XRN read_excel_names path b k = Ok r).
  { intros k d w y D W Y. unfold load_msugsa. destruct S as [b I|b I]; apply existsb_str_In in I.
    - change ["ch1"; "ch2"; "ch3"] with (channels 1 3) in I. rewrite I. change ("wvl" :: channels 1 3) with ["wvl"; "ch1"; "ch2"; "ch3"]. cbn [append] in D |- *. rewrite D. cbn [bind]. rewrite W, Y. cbn. eauto.
    - destruct (existsb_str b (channels 1 3)) eqn:B1.
      { exfalso. apply existsb_str_In in I, B1. vm_compute in B1. cbn [In] in I. intuition congruence. }
      change ["ch4"; "ch5"; "ch6"; "ch7"; "ch8"; "ch9"; "ch10"] with (channels 4 7) in I. rewrite I.
      change ("wvl" :: channels 4 7) with ["wvl"; "ch4"; "ch5"; "ch6"; "ch7"; "ch8"; "ch9"; "ch10"]. cbn [append] in D |- *. rewrite D. cbn [bind]. rewrite W, Y. cbn. eauto. }
  destruct (L 1%nat df1 w1 y1 D1 W1 Y1) as (r1 & ->). destruct (L 2%nat df2 w2 y2 D2 W2 Y2) as (r2 & ->). cbn [bind]. eauto.
Qed.
