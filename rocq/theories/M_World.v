(** The outside world as explicit state: environment variables, files,
    directories and the requests sent to the network.  Paths are strings; they
    are joined with "/" and not normalised. *)
From Coq Require Import String Ascii List Bool Arith.
From Verif Require Import Base.
Import ListNotations.
Local Open Scope string_scope.

(** what utils.py:356-461, config.py:41-68 and rsr_reader.py:94-103 read and change *)
Record world := {
  w_env : dict string;
  w_files : dict string;          (** path -> content (bytes) *)
  w_dirs : list string;           (** existing directories *)
  w_requests : list string        (** URLs requested, latest first *)
}.

(** what utils.py:356-461, config.py:41-68 and rsr_reader.py:94-103 read and change *)
Definition set_env (e : dict string) (w : world) : world :=
  {| w_env := e; w_files := w_files w; w_dirs := w_dirs w; w_requests := w_requests w |}.
Definition set_files (f : dict string) (w : world) : world :=
  {| w_env := w_env w; w_files := f; w_dirs := w_dirs w; w_requests := w_requests w |}.
Definition set_dirs (d : list string) (w : world) : world :=
  {| w_env := w_env w; w_files := w_files w; w_dirs := d; w_requests := w_requests w |}.
Definition log_request (url : string) (w : world) : world :=
  {| w_env := w_env w; w_files := w_files w; w_dirs := w_dirs w; w_requests := url :: w_requests w |}.

(** [os.path.join(p, q)] / [Path(p) / q] for a relative [q] *)
(** os.path.join, e.g. utils.py:150, 377 *)
Definition join (p q : string) : string := p ++ "/" ++ q.

(** os.path.exists and isdir, e.g. rsr_reader.py:98 *)
Definition is_file (w : world) (p : string) : bool := dhas p (w_files w).
Definition is_dir (w : world) (p : string) : bool := existsb_str p (w_dirs w).

(** [open(p)] for reading: the content *)
(** rsr_reader.py:101-103 *)
Definition read_file (w : world) (p : string) : res string :=
  if is_dir w p then Err OSError else of_option FileNotFoundError (dget p (w_files w)).

(** The primitive changes of the file system.  [ECreate] truncates. *)
(** the file operations of utils.py:437-461 *)
Inductive ev := EMkdir (d : string) | ECreate (p : string) | EAppend (p s : string) | ERemove (p : string).

(** the file operations of utils.py:437-461 *)
Definition file_text (w : world) (p : string) : string :=
  match dget p (w_files w) with Some s => s | None => "" end.

(** the file operations of utils.py:437-461 *)
Fixpoint ddel_all {V} (k : string) (d : dict V) : dict V :=
  match d with
  | [] => []
  | (k', v) :: t => if String.eqb k k' then ddel_all k t else (k', v) :: ddel_all k t
  end.

(** the file operations of utils.py:437-461 *)
Definition apply_ev (e : ev) (w : world) : world :=
  match e with
  | EMkdir d => if is_dir w d then w else set_dirs (d :: w_dirs w) w
  | ECreate p => set_files (dset p "" (w_files w)) w
  | EAppend p s => set_files (dset p (file_text w p ++ s) (w_files w)) w
  | ERemove p => set_files (ddel_all p (w_files w)) w
  end.
Definition run_evs (l : list ev) (w : world) : world := fold_left (fun w e => apply_ev e w) l w.

(** Configuration trees: what YAML produces (string keys only). *)
(** the options of config.py:24-58 *)
Inductive leaf := LStr (s : string) | LBool (b : bool) | LInt (z : nat) | LNull | LSeq (l : list string).
Inductive cfg := Leaf (v : leaf) | CMap (m : list (string * cfg)).

(** truth value of a Python object *)
(** the options of config.py:24-58 *)
Definition truthy (c : cfg) : bool :=
  match c with
  | Leaf (LStr s) => negb (String.eqb s "")
  | Leaf (LBool b) => b
  | Leaf (LInt z) => negb (Nat.eqb z 0)
  | Leaf LNull => false
  | Leaf (LSeq l) => match l with [] => false | _ => true end
  | CMap m => match m with [] => false | _ => true end
  end.

(** A reply of the server: status, the chunks of the body and how the stream
    ended (an error after some chunks is a lost connection). *)
(** requests.get, utils.py:440-455 *)
Record response := { rs_ok : bool; rs_chunks : list string; rs_end : res unit }.

(** Everything the modelled code asks of other libraries and of the machine. *)
(** libraries called in utils.py:437-461 and config.py:41-68 *)
Record extern := {
  x_yaml : string -> res cfg;                     (** yaml.load of a file's text *)
  x_expanduser : string -> string;                (** os.path.expanduser *)
  x_user_data_dir : string;                       (** appdirs *)
  x_builtin_config : string;                      (** config.py:21 *)
  x_mkdir_ok : string -> bool;                    (** permission to create a directory *)
  x_net : list string -> string -> res response;  (** requests.get, given the earlier requests *)
  x_untar : string -> list (string * string) * res unit
     (** tarfile: the members of an archive in order, and whether all of it
         could be extracted *)
}.

(** [os.makedirs(d, exist_ok=True)] (the parents are not recorded) *)
(** os.makedirs, config.py:55-56 *)
Definition makedirs (x : extern) (d : string) (w : world) : world * res unit :=
  if String.eqb d "" then (w, Err FileNotFoundError)
  else if is_dir w d then (w, Ok tt)
  else if is_file w d then (w, Err OSError)
  else if x_mkdir_ok x d then (apply_ev (EMkdir d) w, Ok tt)
  else (w, Err OSError).

(** the first line without surrounding white space: [fpt.readline().strip()]
    with universal newlines (ASCII white space only) *)
(** readline().strip(), rsr_reader.py:103 *)
Definition is_eol (c : ascii) : bool := Ascii.eqb c "010" || Ascii.eqb c "013".
Fixpoint first_line (s : string) : string :=
  match s with
  | EmptyString => EmptyString
  | String c t => if is_eol c then EmptyString else String c (first_line t)
  end.
Definition is_space (c : ascii) : bool :=
  let n := nat_of_ascii c in
  ((9 <=? n)%nat && (n <=? 13)%nat) || ((28 <=? n)%nat && (n <=? 32)%nat).
Fixpoint lstrip (s : string) : string :=
  match s with
  | EmptyString => EmptyString
  | String c t => if is_space c then lstrip t else s
  end.
Fixpoint rstrip (s : string) : string :=
  match s with
  | EmptyString => EmptyString
  | String c t => match rstrip t with
                  | EmptyString => if is_space c then EmptyString else String c EmptyString
                  | r => String c r
                  end
  end.
Definition strip (s : string) : string := lstrip (rstrip s).
