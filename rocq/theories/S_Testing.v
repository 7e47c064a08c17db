(** Specification vocabulary for pyspectral.testing. *)
From Coq Require Import String Ascii List Bool.
From Verif Require Import Base M_Tables M_Utils M_World M_Config M_Download S_Config S_Download M_Testing.
Import ListNotations.
Local Open Scope string_scope.

(** what user code does with the package inside a mock *)
Inductive use (A : Type) :=
| CheckRsr (dest : option string) (dry : bool)
| NewRsr (load : string -> res (string * string * A)) (platform instrument filename : option string)
| NewRayleigh (platform sensor aerosol atmosphere : string)
| CheckLuts (dry : bool) (aerosols : option (list string)).
Arguments CheckRsr {A}. Arguments NewRsr {A}. Arguments NewRayleigh {A}. Arguments CheckLuts {A}.
Definition perform {A} (x : extern) (u : use A) (w : world) : world :=
  match u with
  | CheckRsr dest dry => fst (rsr_check_and_download x dest dry w)
  | NewRsr load p i f => fst (rsr_init x load p i f w)
  | NewRayleigh p s t a => fst (ray_init x p s t a w)
  | CheckLuts dry l => fst (ray_check_and_download x dry l w)
  end.
(** one after another, whatever their outcomes *)
Definition perform_all {A} (x : extern) (us : list (use A)) (w : world) : world := fold_left (fun w u => perform x u w) us w.

(** nothing that is done with the package changes [v] *)
Definition undisturbed (x : extern) (v : world) : Prop := forall A (us : list (use A)), perform_all x us v = v.

(** a corrector for one of the atmospheres finds its table *)
Definition furnished (x : extern) (atms : list string) (v : world) : Prop :=
  forall p s t a o, In a atms -> snd (ray_init x p s t a v) = Ok o -> is_file v (ry_lut o) = true \/ is_dir v (ry_lut o) = true.

(** A dumped configuration reads back as the same options (in some order). *)
Definition reads_back (x : extern) (T : tools) (o : dict cfg) : Prop :=
  exists m, x_yaml x (t_dump T o) = Ok (CMap m) /\ well_formed (CMap m) /\ forall k, dget k m = dget k o.

(** The temporary directory lies elsewhere than [dir]. *)
Definition temp_elsewhere (T : tools) (w : world) (dir : string) : Prop :=
  forall d, t_mkdtemp T w = Ok d -> forall q, join d "pyspectral.yaml" <> join dir q.

(** [overridden p w v]: [v] is [w] with PSP_CONFIG_FILE set to [p]. *)
Definition overridden (p : string) (w v : world) : Prop :=
  dget "PSP_CONFIG_FILE" (w_env v) = Some p /\
  (forall k, k <> "PSP_CONFIG_FILE" -> dget k (w_env v) = dget k (w_env w)) /\
  w_requests v = w_requests w.

(** overrides, one inside the other *)
Fixpoint nested {A} (T : tools) (ps : list string) (body : io A) : io A :=
  match ps with
  | [] => body
  | p :: rest => override_config T None (Some p) (fun _ => nested T rest body)
  end.

(** [m'] is [m] under a ban on requests: it does the same, or it stops with
    RuntimeError at the first request, having written no file. *)
Definition banned {A} (m' m : io A) : Prop := forall w,
  (m' w = m w /\ w_requests (fst (m' w)) = w_requests w /\ w_files (fst (m' w)) = w_files w) \/
  (snd (m' w) = Err RuntimeError /\ w_files (fst (m' w)) = w_files w /\
   exists url, w_requests (fst (m' w)) = url :: w_requests w /\
     exists l, w_requests (fst (m w)) = (l ++ url :: w_requests w)%list).

(** After mock_rayleigh_luts with [e] the tables of [t] are not of the current version. *)
Definition stale (e : existing) (ray t : string) (w : world) : Prop :=
  match e with
  | Yes => False
  | No => ~ lut_current ray t w
  | Version s => (s = "" /\ ~ lut_current ray t w) \/ (s <> "" /\ forall v f, dget t ATM_CORRECTION_LUT_VERSION = Some (v, f) -> ~ version_line s v)
  end.

(** Every configuration that can be read in [v] consists of the options [o]
    (apart from the default for the tables' directory), with [rsr] as the
    directory of responses. *)
Definition shown (x : extern) (o : dict cfg) (rsr : string) (v : world) : Prop :=
  forall w c, get_config x None v = (w, Ok c) ->
    (forall k, k <> "rsr_dir" -> k <> "rayleigh_dir" -> dget k c = dget k o) /\ dget "rsr_dir" c = Some (Leaf (LStr rsr)).
