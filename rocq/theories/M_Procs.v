(** Model of several processes running [_download_tarball_and_extract]
    (pyspectral/utils.py:437-461) on one directory at the same time.  Names and
    files are separate, as in POSIX: an open file survives the removal of its
    name, and writing goes to the writer's own position. *)
From Coq Require Import String Ascii List Bool Arith.
From Verif Require Import Base M_World M_Download.
Import ListNotations.
Local Open Scope string_scope.

(** The file system: which file a name stands for, and the bytes of each file. *)
(** the file system behind utils.py:437-461 *)
Record fsys := { fs_names : dict nat; fs_bytes : list string }.

(** The system calls behind open(p, "wb"), write, open(p), read and os.remove
    (pyspectral/utils.py:450-461).
    A reader gives its position and how much it asks for (None: everything). *)
Inductive call :=
| COpenW (p : string)
| CWrite (file pos : nat) (s : string)
| COpenR (p : string)
| CRead (file pos : nat) (len : option nat)
| CUnlink (p : string).
Inductive reply := RFile (file : nat) | RText (s : string) | RDone | RFail (e : exn).

(** the bytes of an open file (utils.py:450, 458) *)
Definition bytes_of (fs : fsys) (i : nat) : string := nth i (fs_bytes fs) "".
(** replacing one entry of a list (auxiliary, no counterpart in the code) *)
(** the file system behind utils.py:437-461 *)
Fixpoint set_nth {A} (i : nat) (a : A) (l : list A) : list A :=
  match i, l with
  | _, [] => []
  | O, _ :: t => a :: t
  | S j, b :: t => b :: set_nth j a t
  end.
(** a hole in a file reads as zeros (POSIX; utils.py:450-455) *)
Fixpoint zeros (n : nat) : string := match n with O => "" | S m => String "000" (zeros m) end.
(** the bytes from position [n] on (POSIX read; utils.py:458-459) *)
Definition from (n : nat) (s : string) : string := substring n (String.length s - n) s.
(** writing [s] at [pos]; a gap is filled with zeros (utils.py:455) *)
Definition write_at (pos : nat) (s c : string) : string :=
  substring 0 pos c ++ zeros (pos - String.length c) ++ s ++ from (pos + String.length s) c.

(** One system call: POSIX open with O_CREAT|O_TRUNC, pwrite, open, pread, unlink
    (utils.py:450, 455, 458-459, 461) *)
Definition exec (c : call) (fs : fsys) : fsys * reply :=
  match c with
  | COpenW p =>
      match dget p (fs_names fs) with
      | Some i => ({| fs_names := fs_names fs; fs_bytes := set_nth i "" (fs_bytes fs) |}, RFile i)
      | None => ({| fs_names := (p, List.length (fs_bytes fs)) :: fs_names fs; fs_bytes := (fs_bytes fs ++ [""])%list |},
                 RFile (List.length (fs_bytes fs)))
      end
  | CWrite i pos s => ({| fs_names := fs_names fs; fs_bytes := set_nth i (write_at pos s (bytes_of fs i)) (fs_bytes fs) |}, RDone)
  | COpenR p => (fs, match dget p (fs_names fs) with Some i => RFile i | None => RFail FileNotFoundError end)
  | CRead i pos len =>
      let rest := from pos (bytes_of fs i) in
      (fs, RText (match len with None => rest | Some n => substring 0 n rest end))
  | CUnlink p =>
      match dget p (fs_names fs) with
      | Some _ => ({| fs_names := ddel_all p (fs_names fs); fs_bytes := fs_bytes fs |}, RDone)
      | None => (fs, RFail FileNotFoundError)
      end
  end.

(** What a process still has to do of utils.py:446-461: it ends with a result or
    makes a call and goes on with the reply; failed calls raise. *)
Inductive proc := Ret (r : res unit) | Do (c : call) (k : reply -> proc).
Definition on_file (k : nat -> proc) (r : reply) : proc :=
  match r with RFile i => k i | RFail e => Ret (Err e) | _ => Ret (Err OSError) end.
Definition on_done (k : proc) (r : reply) : proc :=
  match r with RFail e => Ret (Err e) | _ => k end.
Fixpoint after (m : proc) (k : proc) : proc :=
  match m with
  | Ret (Ok _) => k
  | Ret (Err e) => Ret (Err e)
  | Do c f => Do c (fun r => after (f r) k)
  end.

(** utils.py:450-455: [handle.write] of each non-empty chunk *)
Fixpoint write_chunks (file pos : nat) (chunks : list string) (k : proc) : proc :=
  match chunks with
  | [] => k
  | s :: rest => if nonempty s then Do (CWrite file pos s) (on_done (write_chunks file (pos + String.length s) rest k))
                 else write_chunks file pos rest k
  end.
(** utils.py:446-461 once the reply [r] has arrived; [unpack] is what tarfile
    does with the opened archive *)
Definition download (r : response) (local : string) (unpack : nat -> proc) : proc :=
  if negb (rs_ok r) then Ret (Err HTTPError)
  else Do (COpenW local) (on_file (fun h =>
    write_chunks h 0 (rs_chunks r)
      match rs_end r with
      | Err e => Ret (Err e)
      | Ok _ => Do (COpenR local) (on_file (fun t =>
                  after (unpack t) (Do (CUnlink local) (on_done (Ret (Ok tt))))))
      end)).

(** utils.py:458-459 for an archive read at one go: the members in order *)
Fixpoint unpack_members (dir : string) (members : list (string * string)) (o : res unit) : proc :=
  match members with
  | [] => Ret o
  | (name, content) :: rest =>
      Do (COpenW (join dir name)) (on_file (fun h => Do (CWrite h 0 content) (on_done (unpack_members dir rest o))))
  end.
Definition unpack_all (x : extern) (dir : string) (t : nat) : proc :=
  Do (CRead t 0 None) (fun r => match r with
    | RText s => let (members, o) := x_untar x s in unpack_members dir members o
    | _ => Ret (Err OSError) end).

(** Processes side by side, each in utils.py:437-461; a schedule says which one makes its next call. *)
Definition system : Type := fsys * list proc.
Definition turn (st : system) (i : nat) : system :=
  match nth_error (snd st) i with
  | Some (Do c k) => let (fs, r) := exec c (fst st) in (fs, set_nth i (k r) (snd st))
  | _ => st
  end.
Definition run (schedule : list nat) (st : system) : system := fold_left turn schedule st.
