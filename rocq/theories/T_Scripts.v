(** Property theorems C88-C92 (the scripts in bin). *)
From Coq Require Import String Ascii List Bool ZArith Reals Lra Lia.
From Verif Require Import Base NumSig XR M_Tables M_Utils M_Rsr M_World M_Config M_Logging M_Download M_Scripts
  S_Names S_Utils S_Config S_Download S_Logging S_Scripts P_Utils2 P_Logging P_Download P_Scripts P_Scripts2 P_Scripts3 P_Scripts4 P_ScriptNames Samples2 Samples9.
Import ListNotations.
Local Open Scope string_scope.
Local Open Scope R_scope.

(** ** C88: plotting a wavelength range *)
(** The loop ends; each band that is not excluded and whose central wavelength is
    near one of the sampled wavelengths is drawn exactly once, and no other. *)
Theorem C88_range : forall (a : plot_args XRN) (o : robj XRN) minimum lo hi res,
  ca_bandname a = None -> ca_wavelength a = None \/ ca_wavelength a = Some (Fin 0) -> ca_minimum a = Fin minimum -> ca_resolution a = Fin res ->
  NoDup (dkeys (so_rsr o)) -> Forall (fun kb => first_cw (snd kb) <> None) (so_rsr o) ->
  (forall b, In b (dkeys (so_rsr o)) -> b <> "" /\ translate_band (so_instrument o) b = b /\ drawable o b) -> 0 < res ->
  exists bs cs n, (forall fuel, (n <= fuel)%nat -> curves_of fuel a (Some (Fin lo, Fin hi)) o = Done cs) /\
    NoDup bs /\ Forall2 (curve_of o minimum (negb (ca_no_name a))) bs cs /\
    forall b, In b bs <-> ~ In b (ca_exclude a) /\ exists bd cw, dget b (so_rsr o) = Some bd /\ first_cw bd = Some cw /\ sampled lo hi res cw.
Proof. exact range_curves. Qed.
Print Assumptions C88_range.

(** Every band inside the range is sampled; bands outside by the resolution or more are not. *)
Theorem C88_inside : forall lo hi res cw, 0 < res <= 10 -> lo <= cw < hi -> sampled lo hi res cw.
Proof. exact sampled_inside. Qed.
Print Assumptions C88_inside.
Theorem C88_outside : forall lo hi res cw, 0 < res -> sampled lo hi res cw -> lo - res < cw < hi + res.
Proof. exact sampled_outside. Qed.
Print Assumptions C88_outside.

Example C88_case : exists bs cs n, (forall fuel, (n <= fuel)%nat ->
    curves_of fuel (cam_scan (5/1000) ["ch1"]) (Some (Fin (6/10), Fin (7/10))) (cam "NOAA-19") = Done cs) /\
  In "ch2" bs /\ ~ In "ch1" bs /\ ~ In "ch3b" bs.
Proof.
  destruct (C88_range (cam_scan (5/1000) ["ch1"]) (cam "NOAA-19") (15/1000) (6/10) (7/10) (5/1000) eq_refl (or_introl eq_refl) eq_refl eq_refl
    (cam_nodup _) (cam_cws _) (cam_names _) ltac:(lra))
    as (bs & cs & n & A & _ & _ & B). exists bs, cs, n. split; [exact A|]. split; [|split].
  - apply B. split; [cbn; intuition discriminate|]. eexists _, (65/100). split; [reflexivity|]. split; [reflexivity|]. apply C88_inside; lra.
  - intros H. apply B in H as [H _]. apply H. now left.
  - intros H. apply B in H as (_ & bd & cw & [= <-] & [= <-] & H). apply C88_outside in H; lra.
Qed.

(** Finding: a resolution that is not positive makes the script run for ever. *)
Theorem C88_termination_refuted : forall (a : plot_args XRN) (o : robj XRN) lo hi res,
  ca_bandname a = None -> ca_wavelength a = None -> ca_resolution a = Fin res -> NoDup (dkeys (so_rsr o)) ->
  Forall (fun kb => first_cw (snd kb) <> None) (so_rsr o) ->
  (forall b, In b (dkeys (so_rsr o)) -> b <> "" /\ translate_band (so_instrument o) b = b /\ drawable o b) ->
  (exists minimum, ca_minimum a = Fin minimum) -> res <= 0 -> lo < hi -> forall fuel,
  curves_of fuel a (Some (Fin lo, Fin hi)) o = Stop StillRunning.
Proof. exact range_forever. Qed.
Print Assumptions C88_termination_refuted.
Example C88_forever_case : forall fuel, curves_of fuel (cam_scan 0 []) (Some (Fin 2, Fin 3)) (cam "NOAA-19") = Stop StillRunning.
Proof.
  intros fuel. apply (C88_termination_refuted (cam_scan 0 []) (cam "NOAA-19") 2 3 0); try reflexivity; try lra; [apply cam_nodup|apply cam_cws|apply cam_names|].
  now exists (15/1000).
Qed.

(** Finding: the help text says nanometres, but the resolution is in micrometres:
    with "5 nm" the band at 0.62 um is drawn for the range 2 to 3 um. *)
Theorem C88_only_the_range_refuted : exists a (o : robj XRN) bd cs n, ca_resolution a = Fin 5 /\
  (forall fuel, (n <= fuel)%nat -> curves_of fuel a (Some (Fin 2, Fin 3)) o = Done cs) /\
  dget "ch1" (so_rsr o) = Some bd /\ first_cw bd = Some (62/100) /\ exists c, In c cs /\ pl_label c = "NOAA-19 - ch1".
Proof.
  destruct (C88_range (cam_scan 5 []) (cam "NOAA-19") (15/1000) 2 3 5 eq_refl (or_introl eq_refl) eq_refl eq_refl
    (cam_nodup _) (cam_cws _) (cam_names _) ltac:(lra)) as (bs & cs & n & A & _ & F & B).
  exists (cam_scan 5 []), (cam "NOAA-19"). eexists. exists cs, n. split; [reflexivity|]. split; [exact A|]. split; [reflexivity|]. split; [reflexivity|].
  assert (In "ch1" bs) as H.
  { apply B. split; [intros []|]. eexists _, (62/100). split; [reflexivity|]. split; [reflexivity|]. exists 0%nat. unfold scan_point. cbn [INR].
    replace (62/100 - (2 + 0 * (5 / 5))) with (- (138/100)) by lra. rewrite Rabs_Ropp, Rabs_right by lra. lra. }
  clear A B. induction F as [|x c bs cs (bd & d & ws & rs & pts & _ & _ & _ & E & _) F IH]; [destruct H|]. destruct H as [->|H].
  - exists c. split; [now left|]. exact E.
  - destruct (IH H) as (c' & I & L). exists c'. split; [now right|exact L].
Qed.
Print Assumptions C88_only_the_range_refuted.

(** ** C89: whose curves are drawn *)
(** If at least one sensor is tried for every platform: the curves of the
    platforms whose data can be read, in the order given. *)
Theorem C89_platforms : forall make fuel a range oss css f, range_of a range ->
  Forall2 (shows make (ca_sensors a)) (ca_platforms a) oss ->
  Forall2 (fun o cs => curves_of fuel a range o = Done cs) (concat oss) css -> concat oss <> [] -> plot_filename a range = Ok f ->
  composite make fuel a = Done (Some (concat css, f)).
Proof. exact composite_platforms. Qed.
Print Assumptions C89_platforms.

(** With a band name: one curve per platform, labelled with its own name. *)
Theorem C89_labels : forall make fuel a oss b, ca_range a = None -> ca_bandname a = Some b -> b <> "" -> ca_no_name a = false ->
  (exists m, ca_minimum a = Fin m) ->
  (forall p s o, make p s = Ok o -> so_platform o = p /\ drawable o b) ->
  Forall2 (shows make (ca_sensors a)) (ca_platforms a) oss -> concat oss <> [] ->
  exists cs f, composite make fuel a = Done (Some (cs, f)) /\
    map pl_label cs = map (fun o => so_platform o ++ " - " ++ b) (concat oss) /\
    map (map so_platform) oss = map (fun pos => match snd pos with [] => [] | _ => [fst pos] end) (combine (ca_platforms a) oss).
Proof. exact composite_labels. Qed.
Print Assumptions C89_labels.

Theorem C89_nothing_readable : forall make fuel a range, range_of a range ->
  (forall p, In p (ca_platforms a) -> unreadable make p (ca_sensors a)) -> composite make fuel a = Done None.
Proof. exact composite_nothing. Qed.
Print Assumptions C89_nothing_readable.

(** A platform's own sensors are always tried. *)
Theorem C89_own_sensors_tried : forall p s, on_board p s -> skipped p s = false.
Proof. exact on_board_tried. Qed.
Print Assumptions C89_own_sensors_tried.

(** Exactly these sensors are tried: all of them if the platform is not in the
    table, those in its list, or those whose name is a part of its only sensor's. *)
Theorem C89_tried : forall p s, skipped p s = false <->
  match dget p INSTRUMENTS with None => True | Some (IOne i) => part_of s i | Some (IList l) => In s l end.
Proof. exact tried_iff. Qed.
Print Assumptions C89_tried.

(** Only failures to get the data are passed over; any other error of a sensor
    that is tried ends the script. *)
Theorem C89_other_errors : forall make fuel (a : plot_args XRN) range p ps pre s post e, range_of a range -> ca_platforms a = p :: ps ->
  ca_sensors a = (pre ++ s :: post)%list ->
  (forall s', In s' pre -> skipped p s' = true \/ exists e', make p s' = Err e' /\ In e' [FileNotFoundError; OSError; HTTPError; NetworkError]) ->
  skipped p s = false -> make p s = Err e -> ~ In e [FileNotFoundError; OSError; HTTPError; NetworkError] ->
  composite make fuel a = Stop (Raise e).
Proof. exact other_errors. Qed.
Print Assumptions C89_other_errors.
Example C89_error_case : composite (fun p s => if String.eqb s "avhrr/3" then Err AttributeError else cam_make p s) 0
  (cam_args ["NOAA-19"] ["modis"; "avhrr"; "avhrr/3"] (Some "ch1")) = Stop (Raise AttributeError).
Proof.
  apply (C89_other_errors _ 0 (cam_args ["NOAA-19"] ["modis"; "avhrr"; "avhrr/3"] (Some "ch1")) None "NOAA-19" [] ["modis"; "avhrr"] "avhrr/3" []); try reflexivity.
  - intros s' [<-|[<-|[]]]; [now left|right]. exists FileNotFoundError. split; [reflexivity|now left].
  - cbn. intuition discriminate.
Qed.

(** By wavelength: the bands within 0.25 um, each once, in the order of the data. *)
Theorem C89_by_wavelength : forall fuel (a : plot_args XRN) range o minimum x,
  ca_bandname a = None -> ca_wavelength a = Some (Fin x) -> x <> 0 -> ca_minimum a = Fin minimum ->
  NoDup (dkeys (so_rsr o)) -> Forall (fun kb => first_cw (snd kb) <> None) (so_rsr o) ->
  (forall b, In b (dkeys (so_rsr o)) -> b <> "" /\ translate_band (so_instrument o) b = b /\ drawable o b) ->
  exists cs, curves_of fuel a range o = Done cs /\
    Forall2 (curve_of o minimum (negb (ca_no_name a))) (map fst (filter (near x (1 / 4)) (so_rsr o))) cs.
Proof. exact by_wavelength. Qed.
Print Assumptions C89_by_wavelength.
Example C89_wavelength_case : exists cs, curves_of 0 (cam_at (8/10)) None (cam "NOAA-19") = Done cs /\
  Forall2 (curve_of (cam "NOAA-19") (15/1000) true) ["ch1"; "ch2"] cs.
Proof.
  destruct (C89_by_wavelength 0 (cam_at (8/10)) None (cam "NOAA-19") (15/1000) (8/10) eq_refl eq_refl ltac:(lra) eq_refl (cam_nodup _) (cam_cws _) (cam_names _))
    as (cs & E & F). exists cs. split; [exact E|]. rewrite cam_near in F. exact F.
Qed.

(** The name of the file. *)
Theorem C89_file_name : forall (a : plot_args XRN) range,
  (forall f, ca_filename a = Some f -> f <> "" -> plot_filename a range = Ok f) /\
  (ca_filename a = None -> range = None -> forall b, ca_bandname a = Some b -> b <> "" ->
     plot_filename a range = Ok ("rsr_band_" ++ b ++ ".png")) /\
  (ca_filename a = None -> ca_bandname a = None -> forall x n, ca_wavelength a = Some (Fin x) -> x <> 0 ->
     (0 <= n < 10000)%Z -> IZR n <= 100 * x < IZR n + 1 ->
     plot_filename a range = Ok ("rsr_band_" ++ four_digits n ++ ".png")) /\
  (ca_filename a = None -> ca_wavelength a = None -> forall lo hi m n, range = Some (Fin lo, Fin hi) -> lo <> 0 -> hi <> 0 ->
     (0 <= m < 10000)%Z -> IZR m <= 100 * lo < IZR m + 1 -> (0 <= n < 10000)%Z -> IZR n <= 100 * hi < IZR n + 1 ->
     plot_filename a range = Ok ("rsr_band_" ++ four_digits m ++ "_" ++ four_digits n ++ ".png")).
Proof. exact file_names. Qed.
Print Assumptions C89_file_name.
Example C89_file_case : plot_filename (cam_at (108/10)) None = Ok "rsr_band_1080.png".
Proof. destruct (C89_file_name (cam_at (108/10)) None) as (_ & _ & H & _). apply (H eq_refl eq_refl (108/10) 1080%Z); try reflexivity; try lra; lia. Qed.

(** Finding: a range that starts at 0 goes into a file named after no band, the
    same for all such ranges. *)
Theorem C89_range_in_name_refuted : forall (a : plot_args XRN) hi, ca_filename a = None -> ca_bandname a = None -> ca_wavelength a = None ->
  plot_filename a (Some (Fin 0, Fin hi)) = Ok "rsr_band_None.png".
Proof.
  intros a hi Hf Hb Hw. unfold plot_filename. rewrite Hf, Hb, Hw. cbn [text_given number_given].
  change (neqb XRN (Fin 0) (nlit XRN 0 1)) with (Reqb 0 (0 / 1)). unfold Reqb. destruct (Req_EM_T 0 (0 / 1)); [reflexivity|lra].
Qed.
Print Assumptions C89_range_in_name_refuted.

Example C89_case : exists cs f, composite cam_make 0 (cam_args ["NOAA-19"; "NOAA-17"; "Metop-A"] ["modis"; "avhrr/3"] (Some "ch1")) = Done (Some (cs, f)) /\
  map pl_label cs = ["NOAA-19 - ch1"; "Metop-A - ch1"].
Proof.
  set (a := cam_args _ _ _).
  destruct (C89_platforms cam_make 0 a None [[cam "NOAA-19"]; []; [cam "Metop-A"]]
    (map (fun p => [{| pl_label := p ++ " - ch1"; pl_points := map (fun p => (Fin (fst p), Fin (snd p))) (filter (fun p => Rltb (15/1000) (snd p)) (combine [1; 2; 4] [1/10; 1; 2/10])) |}]) ["NOAA-19"; "Metop-A"])
    "rsr_band_ch1.png") as []; try reflexivity; [| | |eexists _, _; split; [reflexivity|reflexivity]]; try discriminate.
  - apply Forall2_cons; [apply cam_shows; [discriminate|reflexivity]|]. apply Forall2_cons; [|apply Forall2_cons; [apply cam_shows; [discriminate|reflexivity]|apply Forall2_nil]].
    right. split; [reflexivity|]. split.
    + exists "avhrr/3". split; [cbn; auto|reflexivity].
    + intros s [<-|[<-|[]]] H; [discriminate H|]. exists FileNotFoundError. split; [reflexivity|now left].
  - unfold concat, app. constructor; [|constructor; [|constructor]]; unfold curves_of;
      cbn [a cam_args ca_bandname ca_wavelength ca_minimum ca_no_name text_given number_given negb]; rewrite cam_curve; reflexivity.
Qed.

(** Finding: a platform for which no given sensor is tried is drawn with the data
    of the platform before it; as the first platform it ends the script. *)
Theorem C89_own_data_refuted : forall make fuel a range p q o cs f, range_of a range -> ca_platforms a = [p; q] ->
  found make p (ca_sensors a) o -> untried q (ca_sensors a) -> curves_of fuel a range o = Done cs -> plot_filename a range = Ok f ->
  composite make fuel a = Done (Some ((cs ++ cs)%list, f)).
Proof. exact later_untried. Qed.
Print Assumptions C89_own_data_refuted.
Theorem C89_first_untried : forall make fuel a range p ps, range_of a range -> ca_platforms a = p :: ps -> untried p (ca_sensors a) ->
  composite make fuel a = Stop NameError.
Proof. exact first_untried. Qed.
Print Assumptions C89_first_untried.
Example C89_stale_case : exists cs f, composite cam_make 0 (cam_args ["NOAA-19"; "EOS-Aqua"] ["avhrr/3"] (Some "ch1")) = Done (Some (cs, f)) /\
  map pl_label cs = ["NOAA-19 - ch1"; "NOAA-19 - ch1"] /\
  composite cam_make 0 (cam_args ["EOS-Aqua"; "NOAA-19"] ["avhrr/3"] (Some "ch1")) = Stop NameError.
Proof.
  eexists _, "rsr_band_ch1.png". split; [|split; [|reflexivity]].
  - apply (C89_own_data_refuted cam_make 0 (cam_args ["NOAA-19"; "EOS-Aqua"] ["avhrr/3"] (Some "ch1")) None "NOAA-19" "EOS-Aqua" (cam "NOAA-19")); try reflexivity.
    + apply found_here; reflexivity.
    + intros s [<-|[]]. reflexivity.
  - reflexivity.
Qed.

(** Finding: a sensor name that RelativeSpectralResponse accepts for the platform
    is not tried if it is not a part of the name in the table. *)
Theorem C89_accepted_names_tried_refuted : exists p s t, skipped p s = true /\ skipped p t = false /\
  check_and_adjust_instrument_name p s = check_and_adjust_instrument_name p t.
Proof. exists "NOAA-19", "avhrr-3", "avhrr/3". repeat split. Qed.
Print Assumptions C89_accepted_names_tried_refuted.

(** ** C90: wavelength ranges for satpy *)
Theorem C90_all_bands : forall make p s o b det t bands, make p s = Ok o ->
  (match b with Some b => bands = [b] /\ b <> "" | None => bands = so_bands o end) ->
  (forall b, In b bands -> has_range o det t b) ->
  exists ls, Forall2 (good_line o det t) bands ls /\ find_wavelengths make p s (Fin t) b det = (ls, Ok tt).
Proof. exact find_all. Qed.
Print Assumptions C90_all_bands.

(** The first band without the detector, or nowhere above the threshold, ends the
    script; the bands before it have been printed, the bands after it are not. *)
Theorem C90_stops : forall make p s o det t pre b post, make p s = Ok o -> so_bands o = (pre ++ b :: post)%list ->
  (forall b, In b pre -> has_range o det t b) ->
  exists ls, Forall2 (good_line o det t) pre ls /\
    (forall bd, dget b (so_rsr o) = Some bd -> dget det bd = None ->
       find_wavelengths make p s (Fin t) None det = (ls, Err KeyError)) /\
    (forall bd d ws rs, dget b (so_rsr o) = Some bd -> dget det bd = Some d -> arrays d ws rs -> Forall (fun r => r <= t) rs ->
       find_wavelengths make p s (Fin t) None det = (ls, Err IndexError)).
Proof. exact find_stops. Qed.
Print Assumptions C90_stops.

Example C90_case : (exists ls, find_wavelengths cam_make "NOAA-19" "avhrr/3" (Fin (15/100)) None "det-1" = (ls, Ok tt) /\ map fst ls = ["ch1"; "ch2"; "ch3b"]) /\
  (exists ls, find_wavelengths cam_make "NOAA-19" "avhrr/3" (Fin (15/100)) (Some "ch2") "det-10" = (ls, Ok tt) /\ map fst ls = ["ch2"]).
Proof.
  assert (N : forall o det t bs ls, Forall2 (good_line o det t) bs ls -> map fst ls = bs).
  { intros o det t bs ls F. induction F as [|b l bs ls (bd & d & ws & rs & i & j & wi & wj & _ & _ & _ & _ & _ & _ & ->) F IH]; [reflexivity|]. cbn [map fst]. f_equal. exact IH. }
  split.
  - destruct (C90_all_bands cam_make "NOAA-19" "avhrr/3" (cam "NOAA-19") None "det-1" (15/100) ["ch1"; "ch2"; "ch3b"] eq_refl eq_refl) as (ls & F & E).
    { intros b H. apply cam_range. cbn in *. intuition congruence. } exists ls. split; [exact E|exact (N _ _ _ _ _ F)].
  - destruct (C90_all_bands cam_make "NOAA-19" "avhrr/3" (cam "NOAA-19") (Some "ch2") "det-10" (15/100) ["ch2"] eq_refl) as (ls & F & E).
    { split; [reflexivity|discriminate]. } { intros b [<-|[]]. apply cam_range. cbn. auto 6. } exists ls. split; [exact E|exact (N _ _ _ _ _ F)].
Qed.
Example C90_stop_case : exists ls, find_wavelengths cam_make "NOAA-19" "avhrr/3" (Fin (15/100)) None "det-2" = (ls, Err KeyError).
Proof.
  destruct (C90_stops cam_make "NOAA-19" "avhrr/3" (cam "NOAA-19") "det-2" (15/100) [] "ch1" ["ch2"; "ch3b"] eq_refl eq_refl) as (ls & _ & A & _).
  { intros b []. } exists ls. apply (A [("det-1", det3 (62/100))]); reflexivity.
Qed.

(** ** C91: the download scripts *)
Theorem C91_dry_run : forall x s w,
  (forall a, da_dry_run a = true -> harmless w (fst (snd (download_rsr_main x a s w)))) /\
  (forall a, la_dry_run a = true -> harmless w (fst (snd (download_luts_main x a s w)))).
Proof. exact dry_runs. Qed.
Print Assumptions C91_dry_run.

(** -a alone means all aerosol types; an empty -o means the configured directory. *)
Theorem C91_all_types : forall x s w dry v l, l = [] \/ l = AEROSOL_TYPES ->
  download_luts_main x {| la_aerosol_types := Some l; la_dry_run := dry; la_verbose := v |} s w =
  download_luts_main x {| la_aerosol_types := None; la_dry_run := dry; la_verbose := v |} s w.
Proof. exact lut_script_types. Qed.
Print Assumptions C91_all_types.
Theorem C91_empty_destination : forall x s w dry v,
  download_rsr_main x {| da_destination := Some ""; da_dry_run := dry; da_verbose := v |} s w =
  download_rsr_main x {| da_destination := None; da_dry_run := dry; da_verbose := v |} s w.
Proof. exact empty_destination. Qed.
Print Assumptions C91_empty_destination.

(** Data that are out of date are installed in the given directory, or in the
    configured one, and nothing else is changed. *)
Theorem C91_installs : forall x a s w w1 c rsr w' members, get_config x None w = (w1, Ok c) -> wants_downloads c ->
  path_option "rsr_dir" c = Ok rsr -> readable (join (x_expanduser x rsr) RSR_DATA_VERSION_FILENAME) w1 ->
  ~ says (join (x_expanduser x rsr) RSR_DATA_VERSION_FILENAME) RSR_DATA_VERSION w1 -> da_dry_run a = false ->
  serves x HTTP_PYSPECTRAL_RSR members -> snd (download_rsr_main x a s w) = (w', Ok tt) ->
  let dir := match da_destination a with None | Some "" => rsr | Some d => d end in
  w_requests w' = HTTP_PYSPECTRAL_RSR :: w_requests w /\
  (forall n t, dget n (rev members) = Some t -> n <> rsr_tarball -> dget (join dir n) (w_files w') = Some t) /\
  (forall p, ~ written_by dir rsr_tarball members p -> dget p (w_files w') = dget p (w_files w)).
Proof. exact rsr_script_installs. Qed.
Print Assumptions C91_installs.
Example C91_installs_case : forall w', snd (download_rsr_main dl_ext {| da_destination := Some "/lut"; da_dry_run := false; da_verbose := true |} log0 (dl_world "on")) = (w', Ok tt) ->
  dget "/lut/rsr_modis_EOS-Aqua.h5" (w_files w') = Some "MODIS" /\ dget "/rsr/rsr_modis_EOS-Aqua.h5" (w_files w') = None.
Proof.
  intros w' H. pose proof (proj1 (uptodate_false {| db_dir := "/rsr"; db_download := true |} (dl_world "on")) eq_refl) as [R N].
  edestruct (C91_installs dl_ext {| da_destination := Some "/lut"; da_dry_run := false; da_verbose := true |} log0 (dl_world "on")) with
    (rsr := "/rsr") (members := dl_rsr_members) as (_ & A & B); [vm_compute; reflexivity| |reflexivity|exact R|exact N|reflexivity|exact dl_serves|exact H|].
  - eexists. split; [reflexivity|]. cbn. intuition discriminate.
  - split; [apply (A "rsr_modis_EOS-Aqua.h5" "MODIS"); [reflexivity|discriminate]|]. rewrite B; [reflexivity|].
    intros [E|(n & [<-|[<-|[]]] & E)]; discriminate E.
Qed.
(** The LUT script asks for the outdated types among those given, in order, up to
    the first failure. *)
Theorem C91_types : forall x s w w1 c ray a members,
  get_config x None w = (w1, Ok c) -> path_option "rayleigh_dir" c = Ok ray -> la_dry_run a = false ->
  (forall t, In t (asked (la_aerosol_types a)) -> In t AEROSOL_TYPES) -> (forall t, In t (asked (la_aerosol_types a)) -> lut_readable ray t w1) ->
  (forall t, In t AEROSOL_TYPES -> serves x (lut_url t) (members t)) ->
  (forall t, In t (asked (la_aerosol_types a)) -> ~ written_by (join ray t) lut_tarball (members t) (config_path x w)) ->
  forall w' o, snd (download_luts_main x a s w) = (w', o) ->
  exists l k, outdated ray w1 (asked (la_aerosol_types a)) l /\
    w_requests w' = (rev (map lut_url (firstn k l)) ++ w_requests w)%list /\ (o = Ok tt -> firstn k l = l).
Proof. exact lut_script_requests. Qed.
Print Assumptions C91_types.

Example C91_types_case : exists w' o, snd (download_luts_main dl_ext {| la_aerosol_types := Some ["urban_aerosol"; "rayleigh_only"]; la_dry_run := false; la_verbose := false |} log0 (dl_world "on")) = (w', o) /\
  exists l k, outdated "/lut" (dl_world "on") ["urban_aerosol"; "rayleigh_only"] l /\ w_requests w' = (rev (map lut_url (firstn k l)) ++ [])%list /\ (o = Ok tt -> firstn k l = l).
Proof.
  eexists _, _. split; [vm_compute; reflexivity|].
  assert (Hin : forall t, In t ["urban_aerosol"; "rayleigh_only"] -> In t AEROSOL_TYPES) by (intros t; cbn; intuition).
  eapply (C91_types dl_ext log0 (dl_world "on") (dl_world "on") _ "/lut" {| la_aerosol_types := Some ["urban_aerosol"; "rayleigh_only"]; la_dry_run := false; la_verbose := false |} dl_members
    ltac:(vm_compute; reflexivity) eq_refl eq_refl Hin); [|exact dl_serves_lut| |vm_compute; reflexivity].
  - intros t _ v f H. split; [vm_compute; reflexivity|]. cbn. intros text E. exfalso. revert E. vm_compute. discriminate.
  - intros t _ [E|(n & _ & E)]; cbn in E; discriminate.
Qed.

(** -v prints everything from debug level on, exactly once; without it nothing is printed. *)
Theorem C91_verbose : forall x a b s w name lv, fresh s ->
  printed (fst (download_rsr_main x a s w)) name lv = (if da_verbose a && (10 <=? lv)%Z then 1 else 0)%nat /\
  printed (fst (download_luts_main x b s w)) name lv = (if la_verbose b && (10 <=? lv)%Z then 1 else 0)%nat.
Proof. exact script_output. Qed.
Print Assumptions C91_verbose.

(** Finding: with downloading disabled in the configuration the RSR script ends
    normally, whatever its options, and has not downloaded anything ... *)
Theorem C91_success_means_installed_refuted : forall x a s w w1 c rsr, get_config x None w = (w1, Ok c) -> ~ wants_downloads c ->
  path_option "rsr_dir" c = Ok rsr -> readable (join (x_expanduser x rsr) RSR_DATA_VERSION_FILENAME) w1 ->
  snd (download_rsr_main x a s w) = (w1, Ok tt) /\ harmless w w1.
Proof. exact rsr_script_off. Qed.
Print Assumptions C91_success_means_installed_refuted.
(** ... while the LUT script downloads all the same. *)
Theorem C91_setting_respected_refuted : exists x w c a s, snd (get_config x None w) = Ok c /\ ~ wants_downloads c /\
  w_requests w = [] /\ w_requests (fst (snd (download_luts_main x a s w))) = [lut_url "urban_aerosol"].
Proof.
  exists dl_ext, (dl_world "off"). eexists. exists {| la_aerosol_types := Some ["urban_aerosol"]; la_dry_run := false; la_verbose := false |}, log0.
  split; [vm_compute; reflexivity|]. split; [|split; vm_compute; reflexivity]. intros (v & H & T). vm_compute in H. injection H as <-. apply T; cbn; auto 9.
Qed.
Print Assumptions C91_setting_respected_refuted.
Example C91_case :
  let run d dry setting := snd (download_rsr_main dl_ext {| da_destination := d; da_dry_run := dry; da_verbose := true |} log0 (dl_world setting)) in
  w_requests (fst (run None false "on")) = [HTTP_PYSPECTRAL_RSR] /\ dget "/rsr/rsr_modis_EOS-Aqua.h5" (w_files (fst (run None false "on"))) = Some "MODIS" /\
  dget "/lut/rsr_modis_EOS-Aqua.h5" (w_files (fst (run (Some "/lut") false "on"))) = Some "MODIS" /\
  w_requests (fst (run None true "on")) = [] /\ w_requests (fst (run None false "off")) = [] /\ snd (run None false "off") = Ok tt.
Proof. vm_compute. repeat split. Qed.

(** ** C92: plot_rsr *)
Theorem C92_points : forall minimum ws rs p, List.length rs = List.length ws ->
  In p (filter (fun p => Rltb minimum (snd p)) (combine ws rs)) <-> point_above minimum ws rs p.
Proof. exact points_above. Qed.
Print Assumptions C92_points.

(** All detectors of the band are drawn, in order, exactly the points above the
    minimum; asked by wavelength, this is the band that alone is within 0.1 um. *)
Theorem C92_plot_rsr : forall make p s o minimum b w bd dss, make p s = Ok o -> b <> "" -> dget b (so_rsr o) = Some bd ->
  Forall2 (fun kd ds => arrays (snd kd) (fst ds) (snd ds)) bd dss ->
  let drawn := Ok (map (fun ds => map (fun p => (Fin (fst p), Fin (snd p))) (filter (fun p => Rltb minimum (snd p)) (combine (fst ds) (snd ds)))) dss,
                   p ++ "_" ++ s ++ "_rsr_band" ++ b ++ ".png") in
  plot_rsr make p s (Fin minimum : XRN) (Some b) w = drawn /\
  (forall x, NoDup (dkeys (so_rsr o)) -> Forall (fun kb => first_cw (snd kb) <> None) (so_rsr o) ->
     translate_band (so_instrument o) b = b -> filter (near x (1 / 10)) (so_rsr o) = [(b, bd)] ->
     plot_rsr make p s (Fin minimum) None (Fin x) = drawn).
Proof. exact plot_rsr_spec. Qed.
Print Assumptions C92_plot_rsr.

Theorem C92_no_single_band : forall make p s o minimum x, make p s = Ok o ->
  NoDup (dkeys (so_rsr o)) -> Forall (fun kb => first_cw (snd kb) <> None) (so_rsr o) ->
  (filter (near x (1 / 10)) (so_rsr o) = [] -> plot_rsr make p s (minimum : XRN) None (Fin x) = Err KeyError) /\
  ((2 <= List.length (filter (near x (1 / 10)) (so_rsr o)))%nat -> plot_rsr make p s minimum None (Fin x) = Err AttributeError).
Proof. exact plot_rsr_fails. Qed.
Print Assumptions C92_no_single_band.

Example C92_case : exists cs, plot_rsr cam_make "NOAA-19" "avhrr/3" (Fin (1/2) : XRN) (Some "ch2") (Fin 0) = Ok (cs, "NOAA-19_avhrr/3_rsr_bandch2.png") /\
  List.length cs = 3%nat.
Proof.
  destruct (C92_plot_rsr cam_make "NOAA-19" "avhrr/3" (cam "NOAA-19") (1/2) "ch2" (Fin 0) _ [([1; 2; 4], [1/10; 1; 2/10]); ([1; 2; 4], [1/10; 1; 2/10]); ([1; 2; 4], [1/10; 1; 2/10])]
    eq_refl ltac:(discriminate) eq_refl) as [E _].
  { repeat (apply Forall2_cons; [apply det3_arrays|]). apply Forall2_nil. }
  eexists. split; [exact E|reflexivity].
Qed.

(** A band under another name: the scripts show the data of its standard name
    under the name given. *)
Theorem C92_other_names : forall (N : Num) (make : string -> string -> res (robj N)) p s o b k bd, make p s = Ok o -> b <> "" -> k <> "" ->
  dget b (so_rsr o) = None -> std_name (Some (IOne (so_instrument o))) b k -> dget k (so_rsr o) = Some bd ->
  (forall t det, find_wavelengths make p s t (Some b) det =
     let (ls, r) := find_wavelengths make p s t (Some k) det in (map (fun l => (b, snd l)) ls, r)) /\
  (forall m w, plot_rsr make p s m (Some b) w =
     match plot_rsr make p s m (Some k) w with Ok (cs, _) => Ok (cs, p ++ "_" ++ s ++ "_rsr_band" ++ b ++ ".png") | Err e => Err e end) /\
  (forall fuel a r, ca_bandname a = Some b -> curves_of fuel a r o =
     match plot_band (ca_minimum a) (negb (ca_no_name a)) o k with
     | Ok c => Done [{| pl_label := if ca_no_name a then b else so_platform o ++ " - " ++ b; pl_points := pl_points c |}]
     | Err e => Stop (Raise e)
     end).
Proof. exact @other_names. Qed.
Print Assumptions C92_other_names.

Theorem C92_unknown_names : forall (N : Num) (make : string -> string -> res (robj N)) p s o b, make p s = Ok o -> b <> "" ->
  dget b (so_rsr o) = None -> (forall k, std_name (Some (IOne (so_instrument o))) b k -> dget k (so_rsr o) = None) ->
  (forall t det, find_wavelengths make p s t (Some b) det = ([], Err KeyError)) /\
  (forall m w, plot_rsr make p s m (Some b) w = Err KeyError) /\
  (forall fuel a r, ca_bandname a = Some b -> curves_of fuel a r o = Stop (Raise KeyError)).
Proof. exact @unknown_names. Qed.
Print Assumptions C92_unknown_names.

(** "2" is channel 2, "4" would be channel 4, which is not there *)
Example C92_names_case : (exists bd, dget "2" (so_rsr (cam "NOAA-19")) = None /\ std_name (Some (IOne "avhrr/3")) "2" "ch2" /\
    dget "ch2" (so_rsr (cam "NOAA-19")) = Some bd) /\
  dget "4" (so_rsr (cam "NOAA-19")) = None /\ (forall k, std_name (Some (IOne "avhrr/3")) "4" k -> k = "ch4").
Proof.
  split; [eexists; split; [reflexivity|split; [|reflexivity]]|split; [reflexivity|]].
  - right. split; [|reflexivity]. intros n t [= <-] H. discriminate H.
  - intros k [(n & t & [= <-] & H & _)|[_ H]]; [discriminate H|]. vm_compute in H. now injection H as <-.
Qed.
