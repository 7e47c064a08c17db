(** Property theorems C41, C42, C44-C47, C62 (downloads and constructors). *)
From Coq Require Import String Ascii List Bool.
From Verif Require Import Base M_Tables M_Utils M_World M_Config M_Download S_Names S_Download
  P_Strings P_Events P_Config P_Download P_Crash P_Lut P_Lut2 Samples2.
Import ListNotations.
Local Open Scope string_scope.

(** ** C47: one transfer *)
Theorem C47_success : forall x url tb dir w w', fetch x url tb dir w = (w', Ok tt) ->
  exists r members, x_net x (w_requests w) url = Ok r /\ rs_ok r = true /\ rs_end r = Ok tt /\
    x_untar x (String.concat "" (rs_chunks r)) = (members, Ok tt) /\
    dget (join dir tb) (w_files w') = None /\
    (forall n c, dget n (rev members) = Some c -> n <> tb -> dget (join dir n) (w_files w') = Some c) /\
    (forall p, ~ written_by dir tb members p -> dget p (w_files w') = dget p (w_files w)) /\
    w_requests w' = url :: w_requests w /\ w_dirs w' = w_dirs w /\ w_env w' = w_env w.
Proof. exact fetch_success. Qed.
Print Assumptions C47_success.

Theorem C47_chunking_irrelevant : forall x r1 r2 tb dir w, rs_ok r1 = rs_ok r2 -> rs_end r1 = rs_end r2 ->
  String.concat "" (rs_chunks r1) = String.concat "" (rs_chunks r2) ->
  let a := transfer_events x r1 tb dir w in let b := transfer_events x r2 tb dir w in
  snd a = snd b /\ w_dirs (run_evs (fst a) w) = w_dirs (run_evs (fst b) w) /\
  forall p, dget p (w_files (run_evs (fst a) w)) = dget p (w_files (run_evs (fst b) w)).
Proof. exact chunking_irrelevant. Qed.
Print Assumptions C47_chunking_irrelevant.

Theorem C47_http_error_changes_nothing : forall x url tb dir w r, x_net x (w_requests w) url = Ok r -> rs_ok r = false ->
  fetch x url tb dir w = (log_request url w, Err HTTPError).
Proof. exact fetch_http_error. Qed.
Print Assumptions C47_http_error_changes_nothing.

(** A lost connection leaves the bytes received so far in the tarball and
    changes nothing else. *)
Theorem C47_lost_connection : forall x url tb dir w r e, x_net x (w_requests w) url = Ok r -> rs_ok r = true -> rs_end r = Err e ->
  is_dir w dir = true -> is_dir w (join dir tb) = false ->
  exists w', fetch x url tb dir w = (w', Err e) /\ dget (join dir tb) (w_files w') = Some (String.concat "" (rs_chunks r)) /\
    (forall p, p <> join dir tb -> dget p (w_files w') = dget p (w_files w)) /\ w_dirs w' = w_dirs w.
Proof. exact fetch_lost_connection. Qed.
Print Assumptions C47_lost_connection.

Example C47_case : let (w', o) := fetch dl_ext HTTP_PYSPECTRAL_RSR rsr_tarball "/rsr" (dl_world "on") in
  o = Ok tt /\ dget "/rsr/rsr_modis_EOS-Aqua.h5" (w_files w') = Some "MODIS" /\ dget "/rsr/keep.txt" (w_files w') = Some "mine" /\
  dget "/rsr/pyspectral_rsr_data.tgz" (w_files w') = None /\ w_requests w' = [HTTP_PYSPECTRAL_RSR].
Proof. vm_compute. repeat split. Qed.

(** ** C45: when RSR data are downloaded *)
Theorem C45_returns_true_iff_outdated : forall x db dest dry w w' b, download_rsr_updates x db dest dry w = (w', Ok b) ->
  (b = false <-> says (join (db_dir db) RSR_DATA_VERSION_FILENAME) RSR_DATA_VERSION w).
Proof. exact updates_true. Qed.
Print Assumptions C45_returns_true_iff_outdated.

Theorem C45_downloads_exactly_when : forall x db dest dry w w' o, download_rsr_updates x db dest dry w = (w', o) ->
  (w_requests w' = w_requests w \/ w_requests w' = HTTP_PYSPECTRAL_RSR :: w_requests w) /\
  (w_requests w' = HTTP_PYSPECTRAL_RSR :: w_requests w <->
     readable (join (db_dir db) RSR_DATA_VERSION_FILENAME) w /\
     ~ says (join (db_dir db) RSR_DATA_VERSION_FILENAME) RSR_DATA_VERSION w /\
     db_download db = true /\ dry = false /\ exists c, snd (get_config x None w) = Ok c).
Proof. exact updates_requests. Qed.
Print Assumptions C45_downloads_exactly_when.

(** The setting: off unless the option is given and true. *)
Theorem C45_download_setting : forall x w w1 c db, get_config x None w = (w1, Ok c) -> snd (rsr_db_init x w) = Ok db ->
  (db_download db = true <-> wants_downloads c).
Proof. exact rsr_setting. Qed.
Print Assumptions C45_download_setting.
Theorem C45_setting_is_enabled : forall c, download_enabled c = true <-> wants_downloads c.
Proof. exact download_enabled_iff. Qed.
Print Assumptions C45_setting_is_enabled.

(** After a completed check every later check (and every construction) is a
    no-op on the whole world. *)
Theorem C45_quiet_after_download : forall x members text w w1 c rsr,
  serves x HTTP_PYSPECTRAL_RSR members -> dget RSR_DATA_VERSION_FILENAME (rev members) = Some text ->
  utf8_valid text = true -> version_line text RSR_DATA_VERSION ->
  snd (get_config x None w) = Ok c -> download_enabled c = true -> path_option "rsr_dir" c = Ok rsr ->
  x_expanduser x rsr = rsr -> ~ written_by rsr rsr_tarball members (config_path x w) ->
  rsr_check_and_download x None false w = (w1, Ok tt) ->
  (forall dest dry, rsr_check_and_download x dest dry w1 = (w1, Ok tt)) /\
  (forall A (load : string -> res (string * string * A)) p i f, fst (rsr_init x load p i f w1) = w1).
Proof. exact quiet_after_download. Qed.
Print Assumptions C45_quiet_after_download.

(** With another destination every check downloads again. *)
Theorem C45_other_destination_repeats : forall x members dest w c rsr n,
  serves x HTTP_PYSPECTRAL_RSR members ->
  get_config x None w = (w, Ok c) -> path_option "rsr_dir" c = Ok rsr -> download_enabled c = true ->
  let vp := join (x_expanduser x rsr) RSR_DATA_VERSION_FILENAME in
  readable vp w -> ~ says vp RSR_DATA_VERSION w ->
  ~ written_by dest rsr_tarball members vp -> ~ written_by dest rsr_tarball members (config_path x w) ->
  w_requests (checks x dest n w) = (repeat HTTP_PYSPECTRAL_RSR n ++ w_requests w)%list.
Proof. exact other_directory'. Qed.
Print Assumptions C45_other_destination_repeats.

Lemma dl_text_line : version_line ("v1.6.1" ++ String "010" "") RSR_DATA_VERSION.
Proof. apply version_line_simple. vm_compute. reflexivity. Qed.
Lemma dl_not_written dir p : (p = "/etc/psp.yaml" \/ p = "/rsr/PYSPECTRAL_RSR_VERSION" /\ dir = "/elsewhere") ->
  dir = "/rsr" \/ dir = "/elsewhere" -> ~ written_by dir rsr_tarball dl_rsr_members p.
Proof.
  intros Hp Hd [E|(n & [<-|[<-|[]]] & E)]; destruct Hp as [->|[-> ->]]; destruct Hd as [Hd|Hd]; subst; cbn in E; discriminate.
Qed.

Example C45_case :
  (let w1 := fst (rsr_check_and_download dl_ext None false (dl_world "on")) in
   rsr_check_and_download dl_ext None false (dl_world "on") = (w1, Ok tt) /\ w_requests w1 = [HTTP_PYSPECTRAL_RSR] /\
   rsr_check_and_download dl_ext (Some "/elsewhere") false w1 = (w1, Ok tt)) /\
  (forall n, w_requests (checks dl_ext "/elsewhere" n (dl_world "on")) = repeat HTTP_PYSPECTRAL_RSR n) /\
  w_requests (fst (rsr_check_and_download dl_ext None false (dl_world "off"))) = [].
Proof.
  split; [|split].
  - cbv zeta. split; [vm_compute; reflexivity|]. split; [vm_compute; reflexivity|].
    eapply (C45_quiet_after_download dl_ext dl_rsr_members ("v1.6.1" ++ String "010" "") (dl_world "on")) with (rsr := "/rsr");
      [exact dl_serves|reflexivity|reflexivity|exact dl_text_line|vm_compute; reflexivity|reflexivity|reflexivity|reflexivity|
       apply dl_not_written; auto|vm_compute; reflexivity].
  - intros n. rewrite <- (app_nil_r (repeat _ n)).
    eapply (C45_other_destination_repeats dl_ext dl_rsr_members "/elsewhere" (dl_world "on")) with (rsr := "/rsr");
      [exact dl_serves|vm_compute; reflexivity|reflexivity|reflexivity| | |apply dl_not_written; auto|apply dl_not_written; auto].
    + apply (proj1 (proj1 (uptodate_false {| db_dir := "/rsr"; db_download := true |} (dl_world "on")) eq_refl)).
    + apply (proj2 (proj1 (uptodate_false {| db_dir := "/rsr"; db_download := true |} (dl_world "on")) eq_refl)).
  - vm_compute. reflexivity.
Qed.

(** ** C46: interruptions *)
Theorem C46_nothing_else_touched : forall x url r tb dir w l o l' members reqs p, serves x url members -> x_net x reqs url = Ok r ->
  transfer_events x r tb dir w = (l, o) -> cut l l' -> ~ written_by dir tb members p ->
  dget p (w_files (run_evs l' w)) = dget p (w_files w) /\
  w_env (run_evs l' w) = w_env w /\ w_dirs (run_evs l' w) = w_dirs w /\ w_requests (run_evs l' w) = w_requests w.
Proof. exact crash_frame. Qed.
Print Assumptions C46_nothing_else_touched.

(** If the version file is the last member: along every history of checks,
    constructions and crashes, data judged current are completely extracted,
    and a check that completes leaves them so. *)
Theorem C46_version_last_is_safe : forall x w0 w w1 c rsr front vtext,
  get_config x None w0 = (w1, Ok c) -> path_option "rsr_dir" c = Ok rsr -> x_expanduser x rsr = rsr ->
  serves x HTTP_PYSPECTRAL_RSR (front ++ [(RSR_DATA_VERSION_FILENAME, vtext)]) ->
  ~ written_by rsr rsr_tarball (front ++ [(RSR_DATA_VERSION_FILENAME, vtext)]) (config_path x w0) ->
  ~ In RSR_DATA_VERSION_FILENAME (map fst front) -> ~ In rsr_tarball (map fst front) ->
  (says (join rsr RSR_DATA_VERSION_FILENAME) RSR_DATA_VERSION w0 -> extracted rsr front w0) ->
  rsr_history x w0 w ->
  (says (join rsr RSR_DATA_VERSION_FILENAME) RSR_DATA_VERSION w -> extracted rsr front w) /\
  (forall w', download_enabled c = true -> utf8_valid vtext = true -> version_line vtext RSR_DATA_VERSION ->
     rsr_check_and_download x None false w = (w', Ok tt) ->
     extracted rsr front w' /\ says (join rsr RSR_DATA_VERSION_FILENAME) RSR_DATA_VERSION w').
Proof. exact version_last. Qed.
Print Assumptions C46_version_last_is_safe.

(** If it is not: some crash leaves a later member as it was, and yet every
    later check does nothing. *)
Theorem C46_version_early_is_unsafe : forall x w w1 c rsr w2 r a vtext n content b,
  get_config x None w = (w1, Ok c) -> path_option "rsr_dir" c = Ok rsr -> x_expanduser x rsr = rsr ->
  download_enabled c = true ->
  readable (join rsr RSR_DATA_VERSION_FILENAME) w1 -> ~ says (join rsr RSR_DATA_VERSION_FILENAME) RSR_DATA_VERSION w1 ->
  x_net x (w_requests w1) HTTP_PYSPECTRAL_RSR = Ok r ->
  fetch x HTTP_PYSPECTRAL_RSR rsr_tarball rsr w1 = (w2, Ok tt) ->
  x_untar x (String.concat "" (rs_chunks r)) = ((a ++ (RSR_DATA_VERSION_FILENAME, vtext) :: (n, content) :: b)%list, Ok tt) ->
  utf8_valid vtext = true -> version_line vtext RSR_DATA_VERSION ->
  ~ written_by rsr rsr_tarball (a ++ [(RSR_DATA_VERSION_FILENAME, vtext)])%list (config_path x w) ->
  ~ In n (map fst a) -> n <> RSR_DATA_VERSION_FILENAME -> n <> rsr_tarball ->
  exists w', rsr_step x w w' /\ dget (join rsr n) (w_files w') = dget (join rsr n) (w_files w) /\
    forall dest dry, rsr_check_and_download x dest dry w' = (w', Ok tt).
Proof. exact version_early. Qed.
Print Assumptions C46_version_early_is_unsafe.

(** The safe order: a crash in the middle of writing the response file, then a check. *)
Example C46_case_safe :
  let w1 := log_request HTTP_PYSPECTRAL_RSR (dl_world "on") in
  let crash := [ECreate "/rsr/pyspectral_rsr_data.tgz"; EAppend "/rsr/pyspectral_rsr_data.tgz" "https";
                EAppend "/rsr/pyspectral_rsr_data.tgz" (substring 5 200 HTTP_PYSPECTRAL_RSR);
                ECreate "/rsr/rsr_modis_EOS-Aqua.h5"; EAppend "/rsr/rsr_modis_EOS-Aqua.h5" "MO"] in
  let w' := run_evs crash w1 in
  rsr_step dl_ext (dl_world "on") w' /\ rsr_history dl_ext (dl_world "on") w' /\
  dget "/rsr/rsr_modis_EOS-Aqua.h5" (w_files w') = Some "MO" /\
  dget "/rsr/rsr_modis_EOS-Aqua.h5" (w_files (fst (rsr_check_and_download dl_ext None false w'))) = Some "MODIS" /\
  (says "/rsr/PYSPECTRAL_RSR_VERSION" "v1.6.1" w' -> extracted "/rsr" [("rsr_modis_EOS-Aqua.h5", "MODIS")] w').
Proof.
  cbv zeta. match goal with |- rsr_step _ _ ?w /\ _ => set (w' := w) end.
  assert (S : rsr_step dl_ext (dl_world "on") w').
  { unfold w'. eapply st_crash_late with (l' := [ECreate "/rsr/pyspectral_rsr_data.tgz"; EAppend "/rsr/pyspectral_rsr_data.tgz" "https";
                EAppend "/rsr/pyspectral_rsr_data.tgz" (substring 5 200 HTTP_PYSPECTRAL_RSR);
                ECreate "/rsr/rsr_modis_EOS-Aqua.h5"; EAppend "/rsr/rsr_modis_EOS-Aqua.h5" "MO"]);
      [vm_compute; reflexivity|vm_compute; reflexivity|reflexivity|vm_compute; reflexivity|reflexivity|reflexivity|vm_compute; reflexivity|].
    do 4 constructor. now constructor. }
  assert (H : rsr_history dl_ext (dl_world "on") w') by (econstructor; [exact S|constructor]).
  split; [exact S|]. split; [exact H|]. split; [vm_compute; reflexivity|]. split; [vm_compute; reflexivity|].
  eapply (proj1 (C46_version_last_is_safe dl_ext (dl_world "on") w' _ _ "/rsr" [("rsr_modis_EOS-Aqua.h5", "MODIS")] ("v1.6.1" ++ String "010" "")
     ltac:(vm_compute; reflexivity) eq_refl eq_refl dl_serves (dl_not_written "/rsr" "/etc/psp.yaml" (or_introl eq_refl) (or_introl eq_refl))
     ltac:(cbn; intuition discriminate) ltac:(cbn; intuition discriminate)
     ltac:(intros Hs; apply (uptodate_true {| db_dir := "/rsr"; db_download := true |}) in Hs; vm_compute in Hs; discriminate) H)).
Qed.

(** The unsafe order: the response file never arrives. *)
Example C46_case_unsafe : exists w', rsr_step dl_ext_early (dl_world "on") w' /\
  dget "/rsr/rsr_modis_EOS-Aqua.h5" (w_files w') = None /\
  forall dest dry, rsr_check_and_download dl_ext_early dest dry w' = (w', Ok tt).
Proof.
  pose proof (proj1 (uptodate_false {| db_dir := "/rsr"; db_download := true |} (dl_world "on")) eq_refl) as [R N].
  edestruct (C46_version_early_is_unsafe dl_ext_early (dl_world "on")) with
    (rsr := "/rsr") (a := @nil (string * string)) (vtext := "v1.6.1" ++ String "010" "") (n := "rsr_modis_EOS-Aqua.h5") (content := "MODIS")
    (b := @nil (string * string)) as (w' & A & B & C);
    [vm_compute; reflexivity|reflexivity|reflexivity|reflexivity|exact R|exact N|vm_compute; reflexivity|vm_compute; reflexivity|vm_compute; reflexivity|
     reflexivity|exact dl_text_line| |cbn; auto|discriminate|discriminate|].
  - intros [E|(n & [<-|[]] & E)]; cbn in E; discriminate.
  - exists w'. split; [exact A|]. split; [exact B|exact C].
Qed.

(** ** C44: arguments of RelativeSpectralResponse *)
Theorem C44_other_combinations_rejected : forall x A (load : string -> res (string * string * A)) p i f w w1 c,
  get_config x None w = (w1, Ok c) ->
  ~ (f <> None /\ p = None /\ i = None) -> ~ (f = None /\ p <> None /\ i <> None) ->
  rsr_init x load p i f w = (w1, Err ValueError).
Proof. exact init_rejected. Qed.
Print Assumptions C44_other_combinations_rejected.

Theorem C44_filename_never_downloads : forall x A (load : string -> res (string * string * A)) f w w1 c,
  get_config x None w = (w1, Ok c) ->
  rsr_init x load None None (Some f) w =
    (w1, match read_file w1 f with
         | Err e => Err e
         | Ok text => match load text with
                      | Err e => Err e
                      | Ok (fp, fi, data) => Ok {| ro_file := f; ro_platform := fp; ro_instrument := fi; ro_data := data |}
                      end
         end) /\ w_requests w1 = w_requests w /\ w_files w1 = w_files w.
Proof. exact init_file. Qed.
Print Assumptions C44_filename_never_downloads.

Theorem C44_names_read_the_standard_file : forall x A (load : string -> res (string * string * A)) p i w w1 c rsr,
  get_config x None w = (w1, Ok c) -> path_option "rsr_dir" c = Ok rsr ->
  exists i', check_and_adjust_instrument_name p i = Ok i' /\
  let db := {| db_dir := x_expanduser x rsr; db_download := download_enabled c |} in
  let path := join (x_expanduser x rsr) ("rsr_" ++ i' ++ "_" ++ p ++ ".h5") in
  let (w2, o) := download_rsr_updates x db None false w1 in
  rsr_init x load (Some p) (Some i) None w =
    (w2, match o with
         | Err e => Err e
         | Ok _ => match read_file w2 path with
                   | Err e => Err e
                   | Ok text => match load text with
                                | Err e => Err e
                                | Ok (_, _, data) => Ok {| ro_file := path; ro_platform := p; ro_instrument := i'; ro_data := data |}
                                end
                   end
         end).
Proof. exact init_names_outcome. Qed.
Print Assumptions C44_names_read_the_standard_file.

Definition dl_load (s : string) : res (string * string * string) := Ok ("EOS-Aqua", "modis", s).
Example C44_case :
  snd (rsr_init dl_ext dl_load (Some "EOS-Aqua") (Some "modis") None (dl_world "on")) =
    Ok {| ro_file := "/rsr/rsr_modis_EOS-Aqua.h5"; ro_platform := "EOS-Aqua"; ro_instrument := "modis"; ro_data := "MODIS" |} /\
  rsr_init dl_ext dl_load (Some "EOS-Aqua") None None (dl_world "on") = (dl_world "on", Err ValueError) /\
  snd (rsr_init dl_ext dl_load (Some "EOS-Aqua") (Some "modis") None (dl_world "off")) = Err FileNotFoundError /\
  rsr_init dl_ext dl_load None None (Some "/rsr/keep.txt") (dl_world "on") =
    (dl_world "on", Ok {| ro_file := "/rsr/keep.txt"; ro_platform := "EOS-Aqua"; ro_instrument := "modis"; ro_data := "mine" |}).
Proof. vm_compute. repeat split. Qed.

(** ** C41: construction of Rayleigh *)
Theorem C41_unsupported_rejected : forall x t atm w w1 c, get_config x None w = (w1, Ok c) ->
  dget atm ATMOSPHERES = None \/ ~ In t AEROSOL_TYPES -> ray_base_init x t atm w = (w1, Err AttributeError).
Proof. exact unsupported. Qed.
Print Assumptions C41_unsupported_rejected.

Theorem C41_construction : forall x p s t atm n w w1 c ray,
  get_config x None w = (w1, Ok c) -> path_option "rayleigh_dir" c = Ok ray ->
  dget atm ATMOSPHERES = Some n -> In t AEROSOL_TYPES -> lut_readable ray t w1 ->
  forall w' o, ray_init x p s t atm w = (w', o) ->
  ((exists l, dget p INSTRUMENTS = Some (IList l) /\ ~ In s l) -> o = Err ValueError /\ w' = w1) /\
  ((forall l, dget p INSTRUMENTS = Some (IList l) -> In s l) ->
     (lut_current ray t w1 \/ download_enabled c = false -> w' = w1 /\ exists ob, o = Ok ob) /\
     (~ lut_current ray t w1 -> download_enabled c = true -> forall w2, makedirs x (join ray t) w1 = (w2, Ok tt) ->
        fst (fetch x (lut_url t) lut_tarball (join ray t) w2) = w' /\
        w_requests w' = lut_url t :: w_requests w /\
        match snd (fetch x (lut_url t) lut_tarball (join ray t) w2) with Ok _ => exists ob, o = Ok ob | Err e => o = Err e end) /\
     forall ob, o = Ok ob -> ry_platform ob = p /\
       ry_lut ob = join (join ray t) ("rayleigh_lut_" ++ replace_char " " "_" atm ++ ".h5") /\
       ry_sensor ob = remove_char "/" (match dget p INSTRUMENTS with Some (IOne i) => i | _ => s end)).
Proof. exact ray_init_requests. Qed.
Print Assumptions C41_construction.

Theorem C41_download_setting : forall x t atm w w1 c b, get_config x None w = (w1, Ok c) -> snd (ray_base_init x t atm w) = Ok b ->
  (rb_download b = true <-> wants_downloads c).
Proof. exact ray_setting. Qed.
Print Assumptions C41_download_setting.
Example C41_setting_case : wants_downloads [("download_from_internet", Leaf (LStr "no"))] /\ ~ wants_downloads [("rsr_dir", Leaf (LStr "/x"))].
Proof.
  split; [exists (Leaf (LStr "no")); split; [reflexivity|cbn; intuition discriminate]|]. intros (v & H & _). discriminate.
Qed.

Theorem C41_tables : NoDup AEROSOL_TYPES /\ NoDup (map lut_url AEROSOL_TYPES) /\
  NoDup (map (fun t => match dget t ATM_CORRECTION_LUT_VERSION with Some (_, f) => f | None => "" end) AEROSOL_TYPES) /\
  forall t, In t AEROSOL_TYPES -> exists v f, dget t ATM_CORRECTION_LUT_VERSION = Some (v, f) /\
    dget t HTTPS_RAYLEIGH_LUTS = Some (lut_url t).
Proof. exact tables_distinct. Qed.
Print Assumptions C41_tables.

Example C41_case :
  let ask p s t a set := ray_init dl_ext p s t a (dl_world set) in
  (exists ob, snd (ask "NOAA-19" "avhrr-3" "rayleigh_only" "midlatitude summer" "on") = Ok ob /\
     ry_sensor ob = "avhrr3" /\ ry_lut ob = "/lut/rayleigh_only/rayleigh_lut_midlatitude_summer.h5") /\
  w_requests (fst (ask "NOAA-19" "avhrr-3" "rayleigh_only" "midlatitude summer" "on")) = [lut_url "rayleigh_only"] /\
  w_requests (fst (ask "NOAA-19" "avhrr-3" "rayleigh_only" "midlatitude summer" "off")) = [] /\
  snd (ask "FY-3A" "modis" "rayleigh_only" "us-standard" "on") = Err ValueError /\
  snd (ask "NOAA-19" "avhrr-3" "dust" "us-standard" "on") = Err AttributeError /\
  snd (ask "NOAA-19" "avhrr-3" "urban_aerosol" "mars" "on") = Err AttributeError.
Proof. vm_compute. repeat split. eexists. repeat split. Qed.

(** ** C42: rayleigh.check_and_download *)
Theorem C42_requests_the_outdated_types : forall x w w1 c ray a members,
  get_config x None w = (w1, Ok c) -> path_option "rayleigh_dir" c = Ok ray ->
  (forall t, In t (asked a) -> In t AEROSOL_TYPES) -> (forall t, In t (asked a) -> lut_readable ray t w1) ->
  (forall t, In t AEROSOL_TYPES -> serves x (lut_url t) (members t)) ->
  (forall t, In t (asked a) -> ~ written_by (join ray t) lut_tarball (members t) (config_path x w)) ->
  forall w' o, ray_check_and_download x false a w = (w', o) ->
  exists l k, outdated ray w1 (asked a) l /\
    w_requests w' = (rev (map lut_url (firstn k l)) ++ w_requests w)%list /\ (o = Ok tt -> firstn k l = l) /\
    (o = Ok tt -> (forall t, In t l -> has_version members t) ->
       forall dry, ray_check_and_download x dry a w' = (w', Ok tt)).
Proof. exact lut_check. Qed.
Print Assumptions C42_requests_the_outdated_types.

Theorem C42_dry_run_requests_nothing : forall x w w1 c ray a,
  get_config x None w = (w1, Ok c) -> path_option "rayleigh_dir" c = Ok ray ->
  (forall t, In t (asked a) -> In t AEROSOL_TYPES) -> (forall t, In t (asked a) -> lut_readable ray t w1) ->
  ray_check_and_download x true a w = (w1, Ok tt) /\ w_requests w1 = w_requests w /\ w_files w1 = w_files w.
Proof. exact lut_check_dry. Qed.
Print Assumptions C42_dry_run_requests_nothing.

Theorem C42_bad_type_requests_nothing : forall x w w1 c ray a dry,
  get_config x None w = (w1, Ok c) -> path_option "rayleigh_dir" c = Ok ray ->
  (exists t, In t (asked a) /\ (~ In t AEROSOL_TYPES \/ ~ lut_readable ray t w1)) ->
  exists e, ray_check_and_download x dry a w = (w1, Err e) /\ w_requests w1 = w_requests w /\ w_files w1 = w_files w.
Proof. exact lut_check_bad. Qed.
Print Assumptions C42_bad_type_requests_nothing.

(** The download_from_internet setting is not consulted by this function. *)
Theorem C42_setting_respected_refuted : exists x w c, snd (get_config x None w) = Ok c /\ download_enabled c = false /\
  w_requests w = [] /\ w_requests (fst (ray_check_and_download x false (Some ["urban_aerosol"]) w)) = [lut_url "urban_aerosol"].
Proof. exists dl_ext, (dl_world "off"). eexists. vm_compute. repeat split. Qed.
Print Assumptions C42_setting_respected_refuted.

Lemma dl_lut_not_written t : In t AEROSOL_TYPES -> ~ written_by (join "/lut" t) lut_tarball (dl_members t) "/etc/psp.yaml".
Proof. intros _ [E|(n & _ & E)]; cbn in E; discriminate. Qed.
Lemma dl_lut_readable t : lut_readable "/lut" t (dl_world "on").
Proof.
  intros v f H. split; [vm_compute; reflexivity|]. cbn. intros text E. exfalso. revert E.
  vm_compute. discriminate.
Qed.
Lemma dl_has_version t : In t AEROSOL_TYPES -> has_version dl_members t.
Proof.
  intros Ht. destruct (type_facts t Ht) as (v & f & A & _). exists v, f, v. unfold dl_members. rewrite A.
  assert (V : v = "v1.0.1"). { cbn in A. repeat (destruct (String.eqb t _) in A; [injection A as <- _; reflexivity|]). discriminate. }
  subst v. repeat split; [cbn; now rewrite String.eqb_refl|]. apply version_line_simple. vm_compute. reflexivity.
Qed.

Example C42_case :
  let ask := Some ["urban_aerosol"; "rayleigh_only"; "urban_aerosol"] in
  let w' := fst (ray_check_and_download dl_ext false ask (dl_world "on")) in
  w_requests w' = [lut_url "urban_aerosol"; lut_url "rayleigh_only"; lut_url "urban_aerosol"] /\
  dget "/lut/rayleigh_only/rayleigh_lut_us-standard.h5" (w_files w') = Some "LUT rayleigh_only" /\
  (forall dry, ray_check_and_download dl_ext dry ask w' = (w', Ok tt)).
Proof.
  cbv zeta. split; [vm_compute; reflexivity|]. split; [vm_compute; reflexivity|]. intros dry.
  assert (Hin : forall t, In t (asked (Some ["urban_aerosol"; "rayleigh_only"; "urban_aerosol"])) -> In t AEROSOL_TYPES).
  { intros t. cbn. intuition. }
  edestruct (C42_requests_the_outdated_types dl_ext (dl_world "on") (dl_world "on") _ "/lut" (Some ["urban_aerosol"; "rayleigh_only"; "urban_aerosol"]) dl_members
    ltac:(vm_compute; reflexivity) eq_refl Hin (fun t _ => dl_lut_readable t) dl_serves_lut (fun t H => dl_lut_not_written t (Hin t H)))
    as (l & k & Ol & _ & _ & Q); [vm_compute; reflexivity|].
  apply Q; [reflexivity|]. intros t Hi. apply dl_has_version, Hin. now apply (outdated_types _ _ _ _ Ol).
Qed.

(** ** C62 *)
Theorem C62_aerosol_type_selection : forall many one dry x w,
  download_luts x many dry one w =
    for_each (download_lut x dry)
      (match one with
       | Some (AOne s) => [s]
       | Some (AMany l) => l
       | None => match many with Some l => l | None => AEROSOL_TYPES end
       end) w.
Proof. exact aerosol_selection. Qed.
Print Assumptions C62_aerosol_type_selection.

Example C62_case :
  w_requests (fst (download_luts dl_ext (Some ["urban_aerosol"]) false (Some (AOne "rayleigh_only")) (dl_world "on"))) = [lut_url "rayleigh_only"] /\
  w_requests (fst (download_luts dl_ext None false None (dl_world "on"))) = rev (map lut_url AEROSOL_TYPES) /\
  snd (download_luts dl_ext (Some ["dust"]) false None (dl_world "on")) = Err KeyError.
Proof. vm_compute. repeat split. Qed.
