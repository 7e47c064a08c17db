(** Specification vocabulary for the construction of a calculator and its cache. *)
From Coq Require Import Reals ZArith String Ascii List Bool.
From Verif Require Import Base NumSig XR M_Tables M_Utils M_Rsr M_RadTb M_World M_Config M_Download M_Nir S_Download.
Import ListNotations.
Local Open Scope string_scope.

(** ** Names and paths *)
Definition ends (s suf : string) : Prop := exists p, s = p ++ suf.
Definition no_slash (s : string) : Prop := forall a b, s <> a ++ "/" ++ b.
(** only slashes *)
Fixpoint slashes (n : nat) : string := match n with O => "" | S n => "/" ++ slashes n end.

(** [p] is directory [d] and base name [b]: the base name is what follows the
    last slash; the directory is what precedes it without trailing slashes,
    unless there is nothing but slashes. *)
Definition path_parts (p d b : string) : Prop :=
  no_slash b /\
  ((p = b /\ d = "") \/
   (exists n, p = slashes (S n) ++ b /\ d = slashes (S n)) \/
   (exists n, p = d ++ slashes (S n) ++ b /\ d <> "" /\ ~ ends d "/")).
(** the path of [name] in directory [d] *)
Definition located (d name f : string) : Prop :=
  (d = "" /\ f = name) \/ (ends d "/" /\ f = d ++ name) \/ (d <> "" /\ ~ ends d "/" /\ f = d ++ "/" ++ name).

(** ** What the configuration asks for *)
Inductive asks_for (options : dict cfg) (platform instrument band : string) : option string -> Prop :=
| ask_no_section : dget (platform ++ "-" ++ instrument) options = None ->
    asks_for options platform instrument band None
| ask_no_name m : dget (platform ++ "-" ++ instrument) options = Some (CMap m) -> dget "tb2rad_lut_filename" m = None ->
    asks_for options platform instrument band None
| ask_name m s : dget (platform ++ "-" ++ instrument) options = Some (CMap m) ->
    dget "tb2rad_lut_filename" m = Some (Leaf (LStr s)) -> s <> "" ->
    asks_for options platform instrument band (Some s)
| ask_band m before k s after : dget (platform ++ "-" ++ instrument) options = Some (CMap m) ->
    dget "tb2rad_lut_filename" m = Some (CMap (before ++ (k, Leaf (LStr s)) :: after)%list) ->
    k = band \/ k = lower band -> (forall k' v, In (k', v) before -> k' <> band /\ k' <> lower band) -> s <> "" ->
    asks_for options platform instrument band (Some s)
| ask_other_bands m d : dget (platform ++ "-" ++ instrument) options = Some (CMap m) ->
    dget "tb2rad_lut_filename" m = Some (CMap d) ->
    (forall k v, In (k, v) d -> k <> band /\ k <> lower band) ->
    asks_for options platform instrument band None.

(** the directory for the tables *)
Definition table_dir (options : dict cfg) (tempdir d : string) : Prop :=
  dget "tb2rad_dir" options = Some (Leaf (LStr d)) \/ (dget "tb2rad_dir" options = None /\ d = tempdir).

(** a path exists: a file or a directory *)
Definition exists_path (w : world) (p : string) : Prop :=
  p <> "" /\ ((exists s, dget p (w_files w) = Some s) \/ In p (w_dirs w)).

(** The file [f] for a band, given what was asked for, the directory [dir] and
    the state [w] of the disk. *)
Definition cache_file (w : world) (dir platform instrument band : string) (ask : option string) (f : string) : Prop :=
  match ask with
  | None => located dir ("tb2rad_lut_" ++ lower platform ++ "_" ++ lower instrument ++ "_" ++ lower band ++ ".npz") f
  | Some s =>
      exists full d b, (ends s ".npz" /\ full = s \/ ~ ends s ".npz" /\ full = s ++ ".npz") /\ path_parts full d b /\
        ((exists_path w d /\ f = full) \/ (~ exists_path w d /\ located dir b f))
  end.

(** ** Histories of constructor calls *)
Section Histories.
  Context {N : Num}.

  Record request := {
    rq_platform : string; rq_instrument : string; rq_band : bandarg N; rq_detector : string; rq_wavespace : string;
    rq_solar_flux : option N; rq_sunz_threshold : option N; rq_masking_limit : option N }.
  Definition build (E : nir_env N) (q : request) : io (calculator N) :=
    Calculator E (rq_platform q) (rq_instrument q) (rq_band q) (rq_detector q) (rq_wavespace q)
               (rq_solar_flux q) (rq_sunz_threshold q) (rq_masking_limit q).

  (** the calls [qs] were made one after the other, whatever their outcomes *)
  Inductive history (E : nir_env N) : list request -> world -> world -> Prop :=
  | hist_nil w : history E [] w w
  | hist_cons q qs w w1 w2 o : build E q w = (w1, o) -> history E qs w1 w2 -> history E (q :: qs) w w2.

  (** Some call with these arguments generates the table [t] for the file [P]. *)
  Definition generates (E : nir_env N) (q : request) (P : string) (t : tblut N) : Prop :=
    exists c nb w w1 f,
      RadTbConverter (nx_load E) (rq_platform q) (rq_instrument q) (rq_band q) (rq_detector q) (rq_wavespace q) (nlit N 1 10) = Ok c /\
      nir_band c (rq_instrument q) (rq_band q) = Ok nb /\
      set_lutfile E (rq_platform q) (rq_instrument q) (fst nb) w = (w1, Ok f) /\
      (f = P \/ f ++ ".npz" = P) /\ make_tb2rad_lut c true = Ok t.

  (** the call was about to write its table to [P] and did only the events [l] *)
  Definition crashed (E : nir_env N) (q : request) (P : string) (l : list ev) (w w' : world) : Prop :=
    exists c nb w1 t,
      RadTbConverter (nx_load E) (rq_platform q) (rq_instrument q) (rq_band q) (rq_detector q) (rq_wavespace q) (nlit N 1 10) = Ok c /\
      nir_band c (rq_instrument q) (rq_band q) = Ok nb /\
      set_lutfile E (rq_platform q) (rq_instrument q) (fst nb) w = (w1, Ok P) /\
      path_exists w1 P = false /\ make_tb2rad_lut c true = Ok t /\
      snd (savez_events E P t w1) = Ok tt /\
      cut (fst (savez_events E P t w1)) l /\ w' = run_evs l w1.
End Histories.
Arguments request : clear implicits.

(** An accepted wavelength.  (Comparisons with NaN are false, so NaN passes.) *)
Definition in_band (x : XR) : Prop := match x with Fin v => (3.5 <= v <= 3.95)%R | NaN => True | _ => False end.
