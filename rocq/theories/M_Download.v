(** Model of downloading: pyspectral/utils.py:146-150, 356-461,
    rsr_reader.py:75-213 and 368-376, rayleigh.py:59-141, 264-275 and 339-358. *)
From Coq Require Import String Ascii List Bool.
From Verif Require Import Base M_Tables M_Utils M_World M_Config.
Import ListNotations.
Local Open Scope string_scope.

(** Python computations that read and change the world. *)
(** Python statements with side effects (utils.py:356-461, rsr_reader.py:75-213, rayleigh.py:59-141) *)
Definition io (A : Type) : Type := world -> world * res A.
Definition ret {A} (a : A) : io A := fun w => (w, Ok a).
Definition lift {A} (r : res A) : io A := fun w => (w, r).
(** a computation that only looks at the world *)
(** Python statements with side effects (utils.py:356-461, rsr_reader.py:75-213, rayleigh.py:59-141) *)
Definition look {A} (f : world -> res A) : io A := fun w => (w, f w).
Definition iobind {A B} (m : io A) (k : A -> io B) : io B :=
  fun w => let (w', o) := m w in
           match o with Ok a => k a w' | Err e => (w', Err e) end.
Notation "x <~ e ;; k" := (iobind e (fun x => k)) (at level 61, e at next level, right associativity).

(** [conf.get(k)] used as a path: [Path(v)] takes strings only. *)
(** an option used as a path: utils.py:149, 373; rsr_reader.py:91 *)
Definition path_option (k : string) (c : dict cfg) : res string :=
  match dget k c with Some (Leaf (LStr s)) => Ok s | _ => Err TypeError end.

(** ** utils.py:437-461, [_download_tarball_and_extract].
    The effects on the file system as a list of primitive events in program
    order, and the outcome.  Both callers put the tarball into the extraction
    directory.  Not modelled: a malformed content-length header, a full disk,
    tqdm.  tarfile writes each member with open(…, "wb"); parent directories of
    members are created without being recorded; member names are normalised. *)

(** utils.py:450-455: empty chunks are skipped *)
Definition nonempty (s : string) : bool := negb (String.eqb s "").
Definition write_events (local : string) (chunks : list string) : list ev :=
  ECreate local :: map (EAppend local) (filter nonempty chunks).

(** utils.py:458-459: [tar.extractall(extract_dir)]; a member whose path is a
    directory stops the extraction, and so does a damaged archive ([o]) *)
Fixpoint extract_events (w : world) (dir : string) (members : list (string * string)) (o : res unit)
  : list ev * res unit :=
  match members with
  | [] => ([], o)
  | (name, content) :: rest =>
      let p := join dir name in
      if is_dir w p then ([], Err OSError)
      else let (l, o') := extract_events w dir rest o in
           (ECreate p :: EAppend p content :: l, o')
  end.

(** utils.py:446-461, after the reply [r] has arrived *)
Definition transfer_events (x : extern) (r : response) (tarball dir : string) (w : world) : list ev * res unit :=
  let local := join dir tarball in
  if negb (rs_ok r) then ([], Err HTTPError)
  else if is_dir w local then ([], Err OSError)
  else if negb (is_dir w dir) then ([], Err FileNotFoundError)
  else let wr := write_events local (rs_chunks r) in
       match rs_end r with
       | Err e => (wr, Err e)
       | Ok _ =>
           let (members, o) := x_untar x (file_text (run_evs wr w) local) in
           let (l, o') := extract_events w dir members o in
           match o' with
           | Ok _ => ((wr ++ l ++ [ERemove local])%list, Ok tt)
           | Err e => ((wr ++ l)%list, Err e)
           end
       end.

(** utils.py:437-461 *)
Definition fetch (x : extern) (url tarball dir : string) : io unit := fun w =>
  let w1 := log_request url w in
  match x_net x (w_requests w) url with
  | Err e => (w1, Err e)
  | Ok r => let (l, o) := transfer_events x r tarball dir w1 in (run_evs l w1, o)
  end.

(** utils.py:377 and 414 *)
Definition rsr_tarball : string := "pyspectral_rsr_data.tgz".
Definition lut_tarball : string := "pyspectral_rayleigh_correction_luts.tgz".

(** utils.py:356-383 *)
Definition download_rsr (x : extern) (dest_dir : option string) (dry_run : bool) : io unit :=
  c <~ get_config x None ;;
  local_rsr_dir <~ lift (path_option "rsr_dir" c) ;;
  let dest_path := match dest_dir with Some d => d | None => local_rsr_dir end in
  if dry_run then ret tt
  else fetch x HTTP_PYSPECTRAL_RSR rsr_tarball dest_path.

(** utils.py:146-150 *)
Definition get_rayleigh_lut_dir (x : extern) (aerosol_type : string) : io string :=
  c <~ get_config x None ;;
  d <~ lift (path_option "rayleigh_dir" c) ;;
  ret (join d aerosol_type).

(** utils.py:402-415: the loop body and the loop *)
Definition download_lut (x : extern) (dry_run : bool) (subname : string) : io unit :=
  url <~ lift (of_option KeyError (dget subname HTTPS_RAYLEIGH_LUTS)) ;;
  subdir <~ get_rayleigh_lut_dir x subname ;;
  if dry_run then ret tt
  else _ <~ makedirs x subdir ;;
       fetch x url lut_tarball subdir.
Fixpoint for_each {A} (f : A -> io unit) (l : list A) : io unit :=
  match l with
  | [] => ret tt
  | a :: rest => _ <~ f a ;; for_each f rest
  end.
(** utils.py:386-415 *)
Definition download_luts (x : extern) (aerosol_types : option (list string)) (dry_run : bool)
    (aerosol_type : option atype_arg) : io unit :=
  for_each (download_lut x dry_run) (get_aerosol_types aerosol_types aerosol_type).

(** A version file: rsr_reader.py:97-103 and rayleigh.py:97-102.  The whole
    text is decoded (Python decodes it in blocks). *)
Definition read_version (path : string) (w : world) : res string :=
  if is_file w path || is_dir w path then
    text <- read_file w path ;;
    if utf8_valid text then Ok (strip (first_line text)) else Err UnicodeDecodeError
  else Ok "v0.0.0".

(** ** rsr_reader.py:75-136 *)
Record rsr_db := { db_dir : string; db_download : bool }.

(** options.get("download_from_internet", False), used as a condition *)
(** rsr_reader.py:92, rayleigh.py:65 *)
Definition download_enabled (c : dict cfg) : bool :=
  match dget "download_from_internet" c with Some v => truthy v | None => false end.

(** rsr_reader.py:83-92; [Path.expanduser] is modelled by the same oracle as
    [os.path.expanduser] *)
Definition rsr_db_init (x : extern) : io rsr_db :=
  c <~ get_config x None ;;
  d <~ lift (path_option "rsr_dir" c) ;;
  ret {| db_dir := x_expanduser x d; db_download := download_enabled c |}.

(** rsr_reader.py:94-103 *)
Definition rsr_data_version (db : rsr_db) : world -> res string :=
  read_version (join (db_dir db) RSR_DATA_VERSION_FILENAME).

(** rsr_reader.py:105-108 *)
Definition rsr_uptodate (db : rsr_db) (w : world) : res bool :=
  v <- rsr_data_version db w ;; Ok (String.eqb v RSR_DATA_VERSION).

(** rsr_reader.py:110-136 *)
Definition download_rsr_updates (x : extern) (db : rsr_db) (dest_dir : option string) (dry_run : bool) : io bool :=
  up <~ look (rsr_uptodate db) ;;
  if up then ret false
  else if negb (db_download db) then ret true
  else _ <~ download_rsr x dest_dir dry_run ;; ret true.

(** rsr_reader.py:372-376 *)
Definition rsr_check_and_download (x : extern) (dest_dir : option string) (dry_run : bool) : io unit :=
  db <~ rsr_db_init x ;;
  _ <~ download_rsr_updates x db dest_dir dry_run ;;
  ret tt.

(** ** rsr_reader.py:139-213, construction of a response object.
    [load] stands for reading an RSR file (rsr_reader.py:254-365, modelled in
    M_Hdf5): its platform, its instrument and the rest. *)
Record rsr_obj (A : Type) := { ro_file : string; ro_platform : string; ro_instrument : string; ro_data : A }.
Arguments ro_file {A}. Arguments ro_platform {A}. Arguments ro_instrument {A}. Arguments ro_data {A}.

(** rsr_reader.py:368-369 *)
Definition get_rsr_filename (platform_name instrument : string) : string :=
  "rsr_" ++ instrument ++ "_" ++ platform_name ++ ".h5".

(** rsr_reader.py:182-202 *)
Definition sanitize_inputs (db : rsr_db) (filename platform_name instrument : option string)
  : res (string * option string * option string) :=
  match filename with
  | Some f =>
      match instrument, platform_name with
      | None, None => Ok (f, None, None)
      | _, _ => Err ValueError
      end
  | None =>
      match instrument, platform_name with
      | Some i, Some p =>
          i' <- check_and_adjust_instrument_name p i ;;
          Ok (join (db_dir db) (get_rsr_filename p i'), Some p, Some i')
      | _, _ => Err ValueError
      end
  end.

(** rsr_reader.py:204-213: a missing file is FileNotFoundError either way *)
Definition load_rsr_info {A} (load : string -> res (string * string * A)) (filename : string) (w : world)
  : res (string * string * A) :=
  text <- read_file w filename ;; load text.

(** rsr_reader.py:142-180 *)
Definition rsr_init {A} (x : extern) (load : string -> res (string * string * A))
    (platform_name instrument filename : option string) : io (rsr_obj A) :=
  db <~ rsr_db_init x ;;
  resolved <~ lift (sanitize_inputs db filename platform_name instrument) ;;
  let '(path, p, i) := resolved in
  _ <~ (match filename with
        | None => download_rsr_updates x db None false
        | Some _ => ret false
        end) ;;
  info <~ look (load_rsr_info load path) ;;
  let '(fp, fi, data) := info in
  ret {| ro_file := path;
         ro_platform := match p with Some p => p | None => fp end;
         ro_instrument := match i with Some i => i | None => fi end;
         ro_data := data |}.

(** ** rayleigh.py:59-141 *)
Record ray_base := { rb_download : bool; rb_uptodate : bool; rb_aerosol : string }.

(** rayleigh.py:86-102 *)
Definition get_lutfiles_version (x : extern) (aerosol_type filename : string) : io string :=
  basedir <~ get_rayleigh_lut_dir x aerosol_type ;;
  look (read_version (join basedir filename)).

(** rayleigh.py:62-84 *)
Definition ray_base_init (x : extern) (aerosol_type atm_type : string) : io ray_base :=
  c <~ get_config x None ;;
  let mk up := {| rb_download := download_enabled c; rb_uptodate := up; rb_aerosol := aerosol_type |} in
  if negb (dhas atm_type ATMOSPHERES) then lift (Err AttributeError)
  else if negb (existsb_str aerosol_type AEROSOL_TYPES) then lift (Err AttributeError)
  else match dget aerosol_type ATM_CORRECTION_LUT_VERSION with
       | None => ret (mk false)
       | Some (version, filename) =>
           v <~ get_lutfiles_version x aerosol_type filename ;;
           ret (mk (String.eqb v version))
       end.

(** rayleigh.py:264-275; [instr != sensor] holds for every list *)
Definition normalize_sensor (platform_name sensor : string) : res string :=
  sensor' <- (match dget platform_name INSTRUMENTS with
              | None => Ok sensor
              | Some (IOne i) => Ok i
              | Some (IList l) => if existsb_str sensor l then Ok sensor else Err ValueError
              end) ;;
  Ok (remove_char "/" sensor').

(** the attributes set in rayleigh.py:124-141 *)
Record ray_obj := { ry_sensor : string; ry_platform : string; ry_lut : string; ry_base : ray_base }.

(** rayleigh.py:124-141 *)
Definition ray_init (x : extern) (platform_name sensor aerosol_type atm_type : string) : io ray_obj :=
  b <~ ray_base_init x aerosol_type atm_type ;;
  s <~ lift (normalize_sensor platform_name sensor) ;;
  rayleigh_path <~ get_rayleigh_lut_dir x aerosol_type ;;
  let lut := join rayleigh_path ("rayleigh_lut_" ++ replace_char " " "_" atm_type ++ ".h5") in
  _ <~ (if negb (rb_uptodate b) && rb_download b
        then download_luts x (Some [aerosol_type]) false None else ret tt) ;;
  ret {| ry_sensor := s; ry_platform := platform_name; ry_lut := lut; ry_base := b |}.

(** rayleigh.py:347-354: the types that are not up to date *)
Fixpoint needed_types (x : extern) (types : list string) : io (list string) :=
  match types with
  | [] => ret []
  | t :: rest =>
      b <~ ray_base_init x t "us-standard" ;;
      l <~ needed_types x rest ;;
      ret (if rb_uptodate b then l else t :: l)
  end.

(** rayleigh.py:339-358; None and the empty list mean all types *)
Definition ray_check_and_download (x : extern) (dry_run : bool) (aerosol_types : option (list string)) : io unit :=
  let types := match aerosol_types with None | Some [] => AEROSOL_TYPES | Some l => l end in
  needed <~ needed_types x types ;;
  match needed with
  | [] => ret tt
  | _ => download_luts x (Some needed) dry_run None
  end.
