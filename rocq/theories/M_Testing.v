(** Model of pyspectral/testing.py: override_config and the mocked data
    directories.  A context manager is modelled as a function of its body; the
    body may change the world and end in an exception.  Not modelled: the
    contents of the fake responses (see M_Fake), write permissions,
    an h5py failure while the fake table is written; a symbolic link to the fake
    table is modelled as a copy. *)
From Coq Require Import String Ascii List Bool.
From Verif Require Import Base M_Tables M_Utils M_World M_Config M_Download.
Import ListNotations.
Local Open Scope string_scope.

(** what testing.py asks of other libraries *)
(** libraries called in testing.py:491-584 *)
Record tools := {
  t_mkdtemp : world -> res string;        (** tempfile.TemporaryDirectory: a new directory *)
  t_dump : dict cfg -> string;            (** yaml.dump *)
  t_fake_lut : string                     (** the bytes written by testing.py:529-584 *)
}.

(** testing.py:472, 481, 486, 488 *)
Definition CONFIG_VAR : string := "PSP_CONFIG_FILE".

(** open(p, "w") and write: [p] is not a directory; its directory exists *)
(** testing.py:297-299, 463-464, 515-516 *)
Definition put (p s : string) : io unit := fun w =>
  if is_dir w p then (w, Err OSError) else (run_evs [ECreate p; EAppend p s] w, Ok tt).

(** TemporaryDirectory.cleanup: everything below [d] *)
(** testing.py:525 *)
Definition below (d p : string) : bool := String.prefix (d ++ "/") p.
Definition rmtree (d : string) (w : world) : world :=
  {| w_env := w_env w; w_files := filter (fun kv => negb (below d (fst kv))) (w_files w);
     w_dirs := filter (fun p => negb (String.eqb d p || below d p)) (w_dirs w); w_requests := w_requests w |}.
Definition with_temp_dir {A} (T : tools) (body : string -> io A) : io A := fun w =>
  match t_mkdtemp T w with
  | Err e => (w, Err e)
  | Ok d => let (w1, o) := body d (apply_ev (EMkdir d) w) in (rmtree d w1, o)
  end.

(** testing.py:491-526 *)
Definition with_temp_config {A} (T : tools) (options : option (dict cfg)) (body : string -> io A) : io A :=
  with_temp_dir T (fun d =>
    let p := join d "pyspectral.yaml" in
    _ <~ put p (t_dump T (match options with None => [] | Some o => o end)) ;;
    body p).

(** testing.py:480-488: the inner with block; an exception of the finally
    clause replaces the body's *)
Definition config_scope {A} (old : option string) (p : string) (body : io A) : io A := fun w =>
  let (w1, o) := body (set_env (dset CONFIG_VAR p (w_env w)) w) in
  match old with
  | None => if dhas CONFIG_VAR (w_env w1) then (set_env (ddel_all CONFIG_VAR (w_env w1)) w1, o) else (w1, Err KeyError)
  | Some v => (set_env (dset CONFIG_VAR v (w_env w1)) w1, o)
  end.

(** testing.py:467-488 *)
Definition override_config {A} (T : tools) (options : option (dict cfg)) (path : option string) (body : string -> io A) : io A := fun w =>
  let old := dget CONFIG_VAR (w_env w) in
  match path with
  | Some p => config_scope old p (body p) w
  | None => with_temp_config T options (fun p => config_scope old p (body p)) w
  end.

(** testing.py:252-311; the mocked loader is an argument of the body's calls *)
Definition mock_rsr_files {A} (x : extern) (rsr_dir : string) (version : option string) (body : io A) : io A :=
  _ <~ (match version with
        | None => ret tt
        | Some v => _ <~ makedirs x rsr_dir ;; put (join rsr_dir RSR_DATA_VERSION_FILENAME) v
        end) ;;
  body.

(** existing_version: bool | str *)
(** the argument of testing.py:381-464 *)
Inductive existing := Yes | No | Version (s : string).
Definition wanted (e : existing) : bool := match e with Yes => true | No => false | Version s => negb (String.eqb s "") end.

(** testing.py:448-464 *)
Definition init_version_file (x : extern) (dir : string) (e : existing) (t : string) : io unit :=
  vf <~ lift (of_option KeyError (dget t ATM_CORRECTION_LUT_VERSION)) ;;
  _ <~ makedirs x (join dir t) ;;
  put (join (join dir t) (snd vf)) (match e with Version s => s | _ => fst vf end).
(** testing.py:83 *)
Definition BASE_RAYLEIGH_LUT_FILENAME : string := "base_fake_rayleigh_lut.h5".
(** testing.py:587-593 *)
Definition link_lut (dir p : string) : io unit := fun w =>
  if is_file w p || is_dir w p then (w, Ok tt)
  else (run_evs [ECreate p; EAppend p (file_text w (join dir BASE_RAYLEIGH_LUT_FILENAME))] w, Ok tt).
(** testing.py:436-443 *)
Definition link_type (x : extern) (dir : string) (atmospheres : list string) (t : string) : io unit :=
  _ <~ makedirs x (join dir t) ;;
  for_each (fun a => link_lut dir (join (join dir t) ("rayleigh_lut_" ++ replace_char " " "_" a ++ ".h5"))) atmospheres.
(** testing.py:421-443: everything before the yield *)
Definition make_luts (x : extern) (T : tools) (dir : string) (e : existing) (types : option (list string)) (atmospheres : option (list string)) : io unit :=
  let types := match types with None => AEROSOL_TYPES | Some l => l end in
  let atms := match atmospheres with None => map fst ATMOSPHERES | Some l => l end in
  _ <~ makedirs x dir ;;
  _ <~ put (join dir BASE_RAYLEIGH_LUT_FILENAME) (t_fake_lut T) ;;
  if wanted e then
    _ <~ for_each (init_version_file x dir e) types ;;
    for_each (link_type x dir atms) types
  else ret tt.
(** testing.py:381-445 *)
Definition mock_rayleigh_luts {A} (x : extern) (T : tools) (dir : string) (e : existing) (types atmospheres : option (list string)) (body : io A) : io A :=
  _ <~ make_luts x T dir e types atmospheres ;; body.

(** testing.py:179-186 *)
Definition init_tb_cache {A} (x : extern) (dir : string) (body : io A) : io A := _ <~ makedirs x dir ;; body.

(** dict.update *)
(** dict.update in testing.py:86-138 *)
Definition dupdate {V} (d u : dict V) : dict V := fold_left (fun d kv => dset (fst kv) (snd kv) d) u d.

(** testing.py:86-138 with a given tmp_path *)
Definition fake_options (tmp : string) (extra : dict cfg) : dict cfg :=
  dupdate [("download_from_internet", Leaf (LBool false));
           ("rsr_dir", Leaf (LStr (join tmp "fake_rsr")));
           ("rayleigh_dir", Leaf (LStr (join tmp "fake_rayleigh")));
           ("tb2rad_dir", Leaf (LStr (join tmp "fake_tb2rad")))] extra.
Definition mock_pyspectral_downloads {A} (x : extern) (T : tools) (tmp : string) (extra : dict cfg) (version : option string) (body : io A) : io A :=
  override_config T (Some (fake_options tmp extra)) None (fun _ =>
    mock_rayleigh_luts x T (join tmp "fake_rayleigh") Yes None None (
      init_tb_cache x (join tmp "fake_tb2rad") (
        mock_rsr_files x (join tmp "fake_rsr") version body))).

(** testing.py:314-378 with a given rayleigh_dir *)
Definition mock_rayleigh {A} (x : extern) (T : tools) (ray : string) (rsr : option string) (e : existing) (types atmospheres : option (list string)) (body : io A) : io A :=
  let rsr := match rsr with None => ray | Some d => d end in
  override_config T (Some [("rayleigh_dir", Leaf (LStr ray)); ("rsr_dir", Leaf (LStr rsr)); ("download_from_internet", Leaf (LBool false))]) None (fun _ =>
    mock_rayleigh_luts x T ray e types atmospheres (mock_rsr_files x rsr (Some RSR_DATA_VERSION) body)).

(** testing.py:189-249 with a given rsr_dir *)
Definition mock_rsr {A} (x : extern) (T : tools) (rsr : string) (version : option string) (download : bool) (body : io A) : io A :=
  override_config T (Some [("rsr_dir", Leaf (LStr rsr)); ("download_from_internet", Leaf (LBool download))]) None (fun _ =>
    mock_rsr_files x rsr version body).

(** testing.py:141-176 with a given tb2rad_dir *)
Definition mock_tb_conversion {A} (x : extern) (T : tools) (tb2rad : string) (rsr : option string) (version : option string) (body : io A) : io A :=
  let rsr := match rsr with None => tb2rad | Some d => d end in
  override_config T (Some [("rsr_dir", Leaf (LStr rsr)); ("tb2rad_dir", Leaf (LStr tb2rad)); ("download_from_internet", Leaf (LBool false))]) None (fun _ =>
    mock_rsr_files x rsr version body).

(** testing.py:642-676: requests.get raises RuntimeError *)
Definition forbid_pyspectral_downloads (x : extern) : extern :=
  {| x_yaml := x_yaml x; x_expanduser := x_expanduser x; x_user_data_dir := x_user_data_dir x; x_builtin_config := x_builtin_config x;
     x_mkdir_ok := x_mkdir_ok x; x_net := fun _ _ => Err RuntimeError; x_untar := x_untar x |}.
