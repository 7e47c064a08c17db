(** Property theorems C68, C69, C72 (pyspectral.testing). *)
From Coq Require Import String Ascii List Bool.
From Verif Require Import Base M_Tables M_Utils M_World M_Config M_Download S_Config S_Download M_Testing S_Testing
  P_Testing P_Testing2 P_Testing3 P_Testing4 P_Testing5 P_Testing6 Samples5.
Import ListNotations.
Local Open Scope string_scope.

(** ** C68: the configuration override is scoped *)
Theorem C68_restored : forall A T options path (body : string -> io A) w,
  dget "PSP_CONFIG_FILE" (w_env (fst (override_config T options path body w))) = dget "PSP_CONFIG_FILE" (w_env w).
Proof. exact restored. Qed.
Print Assumptions C68_restored.

(** With a given file: the body runs with the variable set, and everything else
    is as the body leaves it, exceptions included; KeyError if the variable was
    unset before and the body has removed it. *)
Theorem C68_given_path : forall A T options p (body : string -> io A) w,
  exists v, overridden p w v /\ w_files v = w_files w /\ w_dirs v = w_dirs w /\
    let r := override_config T options (Some p) body w in
    let b := body p v in
    (forall k, k <> "PSP_CONFIG_FILE" -> dget k (w_env (fst r)) = dget k (w_env (fst b))) /\
    w_files (fst r) = w_files (fst b) /\ w_dirs (fst r) = w_dirs (fst b) /\ w_requests (fst r) = w_requests (fst b) /\
    (dget "PSP_CONFIG_FILE" (w_env w) = None /\ dget "PSP_CONFIG_FILE" (w_env (fst b)) = None /\ snd r = Err KeyError \/
     (dget "PSP_CONFIG_FILE" (w_env w) <> None \/ dget "PSP_CONFIG_FILE" (w_env (fst b)) <> None) /\ snd r = snd b).
Proof. exact given_path. Qed.
Print Assumptions C68_given_path.

(** With options: the body finds them in a file of a new directory, which is
    gone afterwards. *)
Theorem C68_temporary_file : forall A T options (body : string -> io A) w d, t_mkdtemp T w = Ok d ->
  let f := join d "pyspectral.yaml" in is_dir w f = false ->
  exists v, overridden f w v /\ dget f (w_files v) = Some (t_dump T (match options with None => [] | Some o => o end)) /\
    (forall p, p <> f -> dget p (w_files v) = dget p (w_files w)) /\ (forall e, is_dir v e = is_dir w e || String.eqb d e) /\
    let r := override_config T options None body w in
    let b := body f v in
    (forall k, k <> "PSP_CONFIG_FILE" -> dget k (w_env (fst r)) = dget k (w_env (fst b))) /\
    (forall p, dget p (w_files (fst r)) = if String.prefix (d ++ "/") p then None else dget p (w_files (fst b))) /\
    (forall e, is_dir (fst r) e = is_dir (fst b) e && negb (String.eqb d e || String.prefix (d ++ "/") e)) /\
    w_requests (fst r) = w_requests (fst b) /\
    (dget "PSP_CONFIG_FILE" (w_env w) = None /\ dget "PSP_CONFIG_FILE" (w_env (fst b)) = None /\ snd r = Err KeyError \/
     (dget "PSP_CONFIG_FILE" (w_env w) <> None \/ dget "PSP_CONFIG_FILE" (w_env (fst b)) <> None) /\ snd r = snd b).
Proof. exact temp_path. Qed.
Print Assumptions C68_temporary_file.

(** Nested overrides: the innermost file counts, and with two levels (or the
    variable set before) the outcome is always the body's. *)
Theorem C68_nesting : forall A T p ps (body : io A) w, ps <> [] \/ dget "PSP_CONFIG_FILE" (w_env w) <> None ->
  exists v, overridden (last (p :: ps) "") w v /\ w_files v = w_files w /\ w_dirs v = w_dirs w /\
    let r := nested T (p :: ps) body w in let b := body v in
    snd r = snd b /\ (forall k, k <> "PSP_CONFIG_FILE" -> dget k (w_env (fst r)) = dget k (w_env (fst b))) /\
    w_files (fst r) = w_files (fst b) /\ w_dirs (fst r) = w_dirs (fst b) /\ w_requests (fst r) = w_requests (fst b).
Proof. exact nesting. Qed.
Print Assumptions C68_nesting.

(** a body that raises after setting another variable, with and without an
    earlier value; a body that deletes the variable *)
Example C68_case :
  let env w := w_env (fst w) in
  let fails : io unit := fun w => (set_env (dset "A" "1" (w_env w)) w, Err ValueError) in
  let deletes : io unit := fun w => (set_env (ddel_all "PSP_CONFIG_FILE" (w_env w)) w, Ok tt) in
  let w0 := st_world [] in let w1 := st_world [("PSP_CONFIG_FILE", "/old")] in
  let r0 := override_config st_tools None (Some "/new") (fun _ => fails) w0 in
  let r1 := override_config st_tools None None (fun _ => fails) w1 in
  snd r0 = Err ValueError /\ env r0 = [("A", "1")] /\
  snd r1 = Err ValueError /\ env r1 = [("PSP_CONFIG_FILE", "/old"); ("A", "1")] /\ w_files (fst r1) = w_files w1 /\
  snd (override_config st_tools None (Some "/new") (fun _ => deletes) w0) = Err KeyError /\
  snd (override_config st_tools None (Some "/new") (fun _ => deletes) w1) = Ok tt /\
  snd (nested st_tools ["/a"; "/b"] deletes w0) = Ok tt /\
  snd (override_config st_tools None (Some "/new") (fun p => look (fun w => Ok (p, config_path st_ext w))) w1) = Ok ("/new", "/new").
Proof. vm_compute. repeat split. Qed.

(** ** C69: mocked data are never downloaded again *)
(** Whatever is checked or constructed inside the all-in-one mock leaves the
    world as it is: no request, even if an extra option enables downloads.
    Every corrector that can be constructed finds the file of its table. *)
Theorem C69_mocked_downloads : forall A x T tmp extra (body : io A) w,
  reads_back x T (fake_options tmp extra) -> ~ In "rsr_dir" (dkeys extra) -> ~ In "rayleigh_dir" (dkeys extra) ->
  x_expanduser x (join tmp "fake_rsr") = join tmp "fake_rsr" -> x_expanduser x (join tmp "fake_rayleigh") = join tmp "fake_rayleigh" ->
  temp_elsewhere T w tmp ->
  let r := mock_pyspectral_downloads x T tmp extra (Some RSR_DATA_VERSION) body w in
  (exists e, snd r = Err e /\ w_requests (fst r) = w_requests w) \/
  exists v, undisturbed x v /\ furnished x (map fst ATMOSPHERES) v /\ w_requests v = w_requests w /\ w_requests (fst r) = w_requests (fst (body v)) /\
    (dget "PSP_CONFIG_FILE" (w_env (fst (body v))) <> None -> snd r = snd (body v)).
Proof. exact mocked_downloads. Qed.
Print Assumptions C69_mocked_downloads.

Theorem C69_mocked_rayleigh : forall A x T ray rsr atms (body : io A) w,
  let rsr' := match rsr with None => ray | Some d => d end in
  let o := [("rayleigh_dir", Leaf (LStr ray)); ("rsr_dir", Leaf (LStr rsr')); ("download_from_internet", Leaf (LBool false))] in
  reads_back x T o -> x_expanduser x rsr' = rsr' -> x_expanduser x ray = ray ->
  temp_elsewhere T w ray -> temp_elsewhere T w rsr' ->
  let r := mock_rayleigh x T ray rsr Yes None atms body w in
  (exists e, snd r = Err e /\ w_requests (fst r) = w_requests w) \/
  exists v, undisturbed x v /\ furnished x (match atms with None => map fst ATMOSPHERES | Some l => l end) v /\ w_requests v = w_requests w /\ w_requests (fst r) = w_requests (fst (body v)) /\
    (dget "PSP_CONFIG_FILE" (w_env (fst (body v))) <> None -> snd r = snd (body v)).
Proof. exact mocked_rayleigh. Qed.
Print Assumptions C69_mocked_rayleigh.

(** With outdated or missing tables and downloads enabled, constructing a
    corrector makes one request (unless something fails before). *)
Theorem C69_outdated_tables_request : forall x T o ray e atms p s t atm n w,
  reads_back x T o -> dget "rayleigh_dir" o = Some (Leaf (LStr ray)) -> x_expanduser x ray = ray -> download_enabled o = true ->
  temp_elsewhere T w ray -> dget atm ATMOSPHERES = Some n -> In t AEROSOL_TYPES ->
  (forall l, dget p INSTRUMENTS = Some (IList l) -> In s l) -> stale e ray t w ->
  let r := override_config T (Some o) None (fun _ => mock_rayleigh_luts x T ray e None atms (ray_init x p s t atm)) w in
  w_requests (fst r) = lut_url t :: w_requests w \/ (exists err, snd r = Err err) /\ w_requests (fst r) = w_requests w.
Proof. exact stale_luts_request. Qed.
Print Assumptions C69_outdated_tables_request.

Theorem C69_outdated_responses_request : forall x T rsr version w,
  let o := [("rsr_dir", Leaf (LStr rsr)); ("download_from_internet", Leaf (LBool true))] in
  reads_back x T o -> x_expanduser x rsr = rsr -> temp_elsewhere T w rsr ->
  match version with
  | None => ~ says (join rsr RSR_DATA_VERSION_FILENAME) RSR_DATA_VERSION w
  | Some s => ~ version_line s RSR_DATA_VERSION
  end ->
  let r := mock_rsr x T rsr version true (rsr_check_and_download x None false) w in
  w_requests (fst r) = HTTP_PYSPECTRAL_RSR :: w_requests w \/ (exists err, snd r = Err err) /\ w_requests (fst r) = w_requests w.
Proof. exact stale_rsr_request. Qed.
Print Assumptions C69_outdated_responses_request.

(** Inside the all-in-one mock downloads are off (unless an extra option turns
    them on): even responses of an old version are not fetched. *)
Theorem C69_disabled : forall x T tmp extra version dest dry w,
  reads_back x T (fake_options tmp extra) -> ~ In "download_from_internet" (dkeys extra) -> temp_elsewhere T w tmp ->
  w_requests (fst (mock_pyspectral_downloads x T tmp extra version (rsr_check_and_download x dest dry) w)) = w_requests w.
Proof. exact mocked_disabled. Qed.
Print Assumptions C69_disabled.

(** mock_rsr and mock_tb_conversion: the body finds the directories, the setting
    for downloads and the version that were asked for; with downloads off (the
    default) a check requests nothing. *)
Theorem C69_mocked_rsr : forall A x T rsr version download (body : io A) w,
  let o := [("rsr_dir", Leaf (LStr rsr)); ("download_from_internet", Leaf (LBool download))] in
  reads_back x T o -> temp_elsewhere T w rsr ->
  let r := mock_rsr x T rsr version download body w in
  (exists e, snd r = Err e /\ w_requests (fst r) = w_requests w) \/
  exists v, shown x o (x_expanduser x rsr) v /\ (forall s, version = Some s -> dget (join rsr RSR_DATA_VERSION_FILENAME) (w_files v) = Some s) /\
    w_requests v = w_requests w /\ w_requests (fst r) = w_requests (fst (body v)) /\
    (dget "PSP_CONFIG_FILE" (w_env (fst (body v))) <> None -> snd r = snd (body v)).
Proof. exact mocked_rsr. Qed.
Print Assumptions C69_mocked_rsr.
Theorem C69_mocked_tb_conversion : forall A x T tb2rad rsr version (body : io A) w,
  let rsr' := match rsr with None => tb2rad | Some d => d end in
  let o := [("rsr_dir", Leaf (LStr rsr')); ("tb2rad_dir", Leaf (LStr tb2rad)); ("download_from_internet", Leaf (LBool false))] in
  reads_back x T o -> temp_elsewhere T w rsr' ->
  let r := mock_tb_conversion x T tb2rad rsr version body w in
  (exists e, snd r = Err e /\ w_requests (fst r) = w_requests w) \/
  exists v, shown x o (x_expanduser x rsr') v /\ (forall s, version = Some s -> dget (join rsr' RSR_DATA_VERSION_FILENAME) (w_files v) = Some s) /\
    w_requests v = w_requests w /\ w_requests (fst r) = w_requests (fst (body v)) /\
    (dget "PSP_CONFIG_FILE" (w_env (fst (body v))) <> None -> snd r = snd (body v)).
Proof. exact mocked_tb. Qed.
Print Assumptions C69_mocked_tb_conversion.
Theorem C69_rsr_disabled : forall x T rsr version dest dry w,
  reads_back x T [("rsr_dir", Leaf (LStr rsr)); ("download_from_internet", Leaf (LBool false))] -> temp_elsewhere T w rsr ->
  w_requests (fst (mock_rsr x T rsr version false (rsr_check_and_download x dest dry) w)) = w_requests w.
Proof. exact mocked_rsr_disabled. Qed.
Print Assumptions C69_rsr_disabled.

(** a machine that reads the options of mock_tb_conversion("/tb", "/rsr") back: the body sees them; an old version and downloads off *)
Example C69_case_mocked :
  let tb := [("rsr_dir", Leaf (LStr "/rsr")); ("tb2rad_dir", Leaf (LStr "/tb")); ("download_from_internet", Leaf (LBool false))] in
  let machine o := {| x_yaml := fun _ => Ok (CMap o); x_expanduser := fun s => s; x_user_data_dir := "/data"; x_builtin_config := "/etc/psp.yaml";
     x_mkdir_ok := fun _ => true; x_net := x_net st_ext; x_untar := x_untar st_ext |} in
  reads_back (machine tb) st_tools tb /\ temp_elsewhere st_tools (st_world []) "/rsr" /\
  match snd (mock_tb_conversion (machine tb) st_tools "/tb" (Some "/rsr") (Some "v1") (get_config (machine tb) None) (st_world [])) with
  | Ok c => dget "tb2rad_dir" c = Some (Leaf (LStr "/tb")) /\ dget "rsr_dir" c = Some (Leaf (LStr "/rsr")) /\ download_enabled c = false
  | Err _ => False
  end /\
  reads_back (machine (st_rsr false)) st_tools (st_rsr false) /\
  snd (mock_rsr (machine (st_rsr false)) st_tools "/rsr" (Some "v1") false (rsr_check_and_download (machine (st_rsr false)) None false) (st_world [])) = Ok tt.
Proof.
  cbv zeta. split; [|split; [intros d [= <-] q; discriminate|split; [vm_compute; repeat split|split; [|vm_compute; reflexivity]]]].
  - eexists. split; [reflexivity|]. split; [|reflexivity]. repeat split; repeat constructor; cbn; intuition discriminate.
  - eexists. split; [reflexivity|]. split; [|reflexivity]. repeat split; repeat constructor; cbn; intuition discriminate.
Qed.

(** an old version: quiet by default, a request if an option turns downloads on *)
Example C69_case_disabled : forall w, w = st_world [] ->
  reads_back st_ext_plain st_tools (fake_options "/t" []) /\ temp_elsewhere st_tools w "/t" /\
  snd (mock_pyspectral_downloads st_ext_plain st_tools "/t" [] (Some "v0.0.1") (rsr_check_and_download st_ext_plain None false) w) = Ok tt /\
  w_requests (fst (mock_pyspectral_downloads st_ext st_tools "/t" [("download_from_internet", Leaf (LBool true))] (Some "v0.0.1")
                     (rsr_check_and_download st_ext None false) w)) = [HTTP_PYSPECTRAL_RSR].
Proof.
  intros w ->. split; [exact st_plain_reads|]. split; [intros d [= <-] q; discriminate|]. split; vm_compute; reflexivity.
Qed.

Definition st_uses : list (use unit) :=
  [CheckRsr None false; NewRayleigh "Sentinel-3A" "olci" "marine_clean_aerosol" "tropical"; CheckLuts false None;
   NewRsr (fun _ => Err KeyError) (Some "EOS-Aqua") (Some "modis") None; CheckRsr (Some "/x") true].

(** nothing is requested; the tables are there; the same uses outside request *)
Example C69_case :
  let body : io string := fun v => (perform_all st_ext st_uses v, Ok (file_text v "/t/fake_rayleigh/desert_aerosol/rayleigh_lut_us-standard.h5")) in
  let w := st_world [] in
  let r := mock_pyspectral_downloads st_ext st_tools "/t" [("download_from_internet", Leaf (LBool true))] (Some RSR_DATA_VERSION) body w in
  snd r = Ok "HDF5" /\ w_requests (fst r) = [] /\ dget "/tmp/cfg/pyspectral.yaml" (w_files (fst r)) = None /\
  (reads_back st_ext st_tools (fake_options "/t" [("download_from_internet", Leaf (LBool true))])) /\ temp_elsewhere st_tools w "/t" /\
  length (w_requests (fst (override_config st_tools (Some st_options) None (fun _ v => (perform_all st_ext st_uses v, Ok tt)) w))) = 12.
Proof.
  cbv zeta. split; [vm_compute; reflexivity|]. split; [vm_compute; reflexivity|]. split; [vm_compute; reflexivity|].
  split; [apply st_reads_back; now left|]. split; [|vm_compute; reflexivity].
  intros d [= <-] q. discriminate.
Qed.
Example C69_case_outdated : let w := st_world [] in
  let run e := override_config st_tools (Some st_options) None
                 (fun _ => mock_rayleigh_luts st_ext st_tools "/lut" e None None (ray_init st_ext "EOS-Aqua" "modis" "desert_aerosol" "tropical")) w in
  w_requests (fst (run No)) = [lut_url "desert_aerosol"] /\ w_requests (fst (run (Version "v0.9.9"))) = [lut_url "desert_aerosol"] /\
  w_requests (fst (run Yes)) = [] /\
  stale No "/lut" "desert_aerosol" w /\ stale (Version "v0.9.9") "/lut" "desert_aerosol" w /\
  w_requests (fst (mock_rsr st_ext st_tools "/rsr" (Some "v1.0.0") true (rsr_check_and_download st_ext None false) w)) = [HTTP_PYSPECTRAL_RSR] /\
  w_requests (fst (mock_rsr st_ext st_tools "/rsr" (Some RSR_DATA_VERSION) true (rsr_check_and_download st_ext None false) w)) = [].
Proof.
  cbv zeta. split; [vm_compute; reflexivity|]. split; [vm_compute; reflexivity|]. split; [vm_compute; reflexivity|].
  split; [|split; [|split; vm_compute; reflexivity]].
  - intros (v & f & E & t & _ & H & _). vm_compute in E. injection E as <- <-. vm_compute in H. discriminate.
  - right. split; [discriminate|]. intros v f E H. vm_compute in E. injection E as <- <-. apply P_Strings.version_line_iff in H. vm_compute in H. discriminate.
Qed.

(** ** C72: forbidden downloads *)
(** Under forbid_pyspectral_downloads every operation of the package either does
    what it does without, making no request, or ends with RuntimeError where it
    would have made its first request, and writes no file. *)
Theorem C72_ban : forall x, let y := forbid_pyspectral_downloads x in
  (forall dest dry, banned (rsr_check_and_download y dest dry) (rsr_check_and_download x dest dry)) /\
  (forall A (load : string -> res (string * string * A)) p i f, banned (rsr_init y load p i f) (rsr_init x load p i f)) /\
  (forall p s t a, banned (ray_init y p s t a) (ray_init x p s t a)) /\
  (forall dry l, banned (ray_check_and_download y dry l) (ray_check_and_download x dry l)) /\
  (forall dest dry, banned (download_rsr y dest dry) (download_rsr x dest dry)) /\
  (forall a dry b, banned (download_luts y a dry b) (download_luts x a dry b)).
Proof. exact ban_all. Qed.
Print Assumptions C72_ban.

Example C72_case : let y := forbid_pyspectral_downloads st_ext in
  let run x o := override_config st_tools (Some o) None (fun _ => rsr_check_and_download x None false) (st_world []) in
  snd (run y st_options) = Err RuntimeError /\ snd (run st_ext st_options) = Ok tt /\
  snd (run y st_off) = Ok tt /\ snd (run st_ext st_off) = Ok tt.
Proof. vm_compute. repeat split. Qed.
