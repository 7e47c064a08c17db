(** Specification vocabulary: version files, archives, interruptions, histories. *)
From Coq Require Import String Ascii List Bool.
From Verif Require Import Base M_Tables M_Utils M_World M_Config M_Download.
Import ListNotations.
Local Open Scope string_scope.

(** Characters of a string *)
Fixpoint all_chars (P : ascii -> Prop) (s : string) : Prop :=
  match s with EmptyString => True | String c t => P c /\ all_chars P t end.
(** tab, the four line characters, the four separators and the space *)
Definition white : list ascii :=
  ["009"; "010"; "011"; "012"; "013"; "028"; "029"; "030"; "031"; "032"]%char.
Definition blank (c : ascii) : Prop := In c white.
Definition eol (c : ascii) : Prop := c = "010"%char \/ c = "013"%char.

(** [v] does not begin or end with white space *)
Definition trimmed (v : string) : Prop :=
  (forall c t, v = String c t -> ~ blank c) /\ (forall c t, v = t ++ String c "" -> ~ blank c).

(** the first line of [text] is [v] up to surrounding white space *)
Definition version_line (text v : string) : Prop :=
  exists a b rest, text = a ++ v ++ b ++ rest /\
    all_chars (fun c => blank c /\ ~ eol c) a /\ all_chars (fun c => ~ eol c) v /\
    all_chars (fun c => blank c /\ ~ eol c) b /\ trimmed v /\
    (rest = "" \/ exists c t, rest = String c t /\ eol c).

(** The version file at [path] says [v]. *)
Definition says (path v : string) (w : world) : Prop :=
  exists text, is_dir w path = false /\ dget path (w_files w) = Some text /\ utf8_valid text = true /\ version_line text v.

(** The version file is absent or can be read. *)
Definition readable (path : string) (w : world) : Prop :=
  is_dir w path = false /\ (forall text, dget path (w_files w) = Some text -> utf8_valid text = true).

(** The configuration file consulted when none is named. *)
Definition config_path (x : extern) (w : world) : string :=
  match dget "PSP_CONFIG_FILE" (w_env w) with Some f => f | None => x_builtin_config x end.

(** The paths an extraction into [dir] writes to. *)
Definition written_by (dir tarball : string) (members : list (string * string)) (p : string) : Prop :=
  p = join dir tarball \/ exists n, In n (map fst members) /\ p = join dir n.

(** The content a path under [dir] has after extraction: later members win. *)
Definition extracted (dir : string) (members : list (string * string)) (w : world) : Prop :=
  forall n c, dget n (rev members) = Some c -> dget (join dir n) (w_files w) = Some c.

(** [cut l l']: the events [l'] are what an interrupted [l] has done; the last
    write may be torn. *)
Inductive cut : list ev -> list ev -> Prop :=
| cut_stop l : cut l []
| cut_torn p s s' l : String.prefix s' s = true -> cut (EAppend p s :: l) [EAppend p s']
| cut_go e l l' : cut l l' -> cut (e :: l) (e :: l').

(** A damaged archive: some first members, the last one possibly incomplete. *)
Inductive truncated : list (string * string) -> list (string * string) -> Prop :=
| tr_stop l : truncated l []
| tr_torn n s s' l : String.prefix s' s = true -> truncated ((n, s) :: l) [(n, s')]
| tr_go m l l' : truncated l l' -> truncated (m :: l) (m :: l').

(** Whatever the server sends for [url], it is the archive with these members,
    possibly damaged on the way (then unpacking fails). *)
Definition serves (x : extern) (url : string) (members : list (string * string)) : Prop :=
  forall reqs r, x_net x reqs url = Ok r -> rs_ok r = true -> rs_end r = Ok tt ->
    match x_untar x (String.concat "" (rs_chunks r)) with
    | (ms, Ok _) => ms = members
    | (ms, Err _) => truncated members ms
    end.

(** One thing that can happen to the RSR data: a check or a construction that
    ends (with or without an exception), or a crash in one of them: while the
    configuration is read (only directories appear) or during the download. *)
Inductive rsr_step (x : extern) : world -> world -> Prop :=
| st_check w dry : rsr_step x w (fst (rsr_check_and_download x None dry w))
| st_construct w A (load : string -> res (string * string * A)) p i f :
    rsr_step x w (fst (rsr_init x load p i f w))
| st_crash_early w dirs reqs : (forall d, is_dir w d = true -> In d dirs) ->
    rsr_step x w {| w_env := w_env w; w_files := w_files w; w_dirs := dirs; w_requests := reqs |}
| st_crash_late w w1 db w2 c d r l o l' :
    rsr_db_init x w = (w1, Ok db) -> rsr_uptodate db w1 = Ok false -> db_download db = true ->
    get_config x None w1 = (w2, Ok c) -> path_option "rsr_dir" c = Ok d ->
    x_net x (w_requests w2) HTTP_PYSPECTRAL_RSR = Ok r ->
    transfer_events x r rsr_tarball d (log_request HTTP_PYSPECTRAL_RSR w2) = (l, o) -> cut l l' ->
    rsr_step x w (run_evs l' (log_request HTTP_PYSPECTRAL_RSR w2)).

(** histories *)
Inductive rsr_history (x : extern) : world -> world -> Prop :=
| hist_nil w : rsr_history x w w
| hist_cons w w1 w2 : rsr_step x w w1 -> rsr_history x w1 w2 -> rsr_history x w w2.

(** The aerosol types among [types] whose version file (under [d]) does not say
    the version of the table, in order. *)
Definition lut_current (d t : string) (w : world) : Prop :=
  exists v f, dget t ATM_CORRECTION_LUT_VERSION = Some (v, f) /\ says (join (join d t) f) v w.
Inductive outdated (d : string) (w : world) : list string -> list string -> Prop :=
| od_nil : outdated d w [] []
| od_keep t l l' : ~ lut_current d t w -> outdated d w l l' -> outdated d w (t :: l) (t :: l')
| od_drop t l l' : lut_current d t w -> outdated d w l l' -> outdated d w (t :: l) l'.

(** the version file of an aerosol type is absent or can be read *)
Definition lut_readable (d t : string) (w : world) : Prop :=
  forall v f, dget t ATM_CORRECTION_LUT_VERSION = Some (v, f) -> readable (join (join d t) f) w.

(** the archive of an aerosol type contains its current version file *)
Definition has_version (members : string -> list (string * string)) (t : string) : Prop :=
  exists v f text, dget t ATM_CORRECTION_LUT_VERSION = Some (v, f) /\ dget f (rev (members t)) = Some text /\
    utf8_valid text = true /\ version_line text v.

(** the types a check is about *)
Definition asked (aerosol_types : option (list string)) : list string :=
  match aerosol_types with None | Some [] => AEROSOL_TYPES | Some l => l end.

(** [n] checks downloading into [dest] *)
Fixpoint checks (x : extern) (dest : string) (n : nat) (w : world) : world :=
  match n with O => w | S n => checks x dest n (fst (rsr_check_and_download x (Some dest) false w)) end.

(** The option download_from_internet: given, and true in Python's sense.  A
    missing option means no. *)
Definition wants_downloads (c : dict cfg) : Prop :=
  exists v, dget "download_from_internet"%string c = Some v /\
    ~ In v [Leaf LNull; Leaf (LBool false); Leaf (LInt 0); Leaf (LStr ""%string); Leaf (LSeq []); CMap []].
