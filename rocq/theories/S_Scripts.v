(** Specification vocabulary for the scripts (C88-C92). *)
From Coq Require Import String Ascii List Bool ZArith Reals.
From Verif Require Import Base NumSig XR M_Tables M_Utils M_Rsr M_World M_Scripts S_Utils.
Import ListNotations.
Local Open Scope R_scope.

(** The wavelengths at which a range is sampled, and: a band with central
    wavelength [cw] is near one of them (and nearer than 2 um). *)
Definition scan_point (lo res : R) (k : nat) : R := lo + INR k * (res / 5).
Definition sampled (lo hi res cw : R) : Prop :=
  exists k, scan_point lo res k < hi /\ Rabs (cw - scan_point lo res k) < res /\ Rabs (cw - scan_point lo res k) < 2.

(** Strings in dictionary order: [a] does not come after [b]. *)
Definition not_after (a b : string) : Prop := String.leb a b = true.

(** The first detector in dictionary order of the data of a band. *)
Definition first_detector (bd : band XRN) (d : detector XRN) : Prop :=
  exists det, dget det bd = Some d /\ forall e, In e (dkeys bd) -> not_after det e.

(** [(w, r)] is a point of the detector's curve above the minimum. *)
Definition point_above (minimum : R) (ws rs : list R) (p : R * R) : Prop :=
  exists i, nth_error ws i = Some (fst p) /\ nth_error rs i = Some (snd p) /\ minimum < snd p.

(** The data of a detector: two arrays of numbers of the same length. *)
Definition arrays (d : detector XRN) (ws rs : list R) : Prop :=
  List.length rs = List.length ws /\
  dget "wavelength"%string d = Some (VArr (map Fin ws)) /\ dget "response"%string d = Some (VArr (map Fin rs)).

(** The band [b] of [o] has data that can be drawn. *)
Definition drawable (o : robj XRN) (b : string) : Prop :=
  exists bd d ws rs, dget b (so_rsr o) = Some bd /\ first_detector bd d /\ arrays d ws rs.

(** [c] is the curve of band [b] of [o] above the minimum. *)
Definition curve_of (o : robj XRN) (minimum : R) (legend : bool) (b : string) (c : curve XRN) : Prop :=
  exists bd d ws rs pts, dget b (so_rsr o) = Some bd /\ first_detector bd d /\ arrays d ws rs /\
    pl_label c = (if legend then so_platform o ++ " - " ++ b else b)%string /\
    pl_points c = map (fun p => (Fin (fst p), Fin (snd p))) pts /\
    pts = filter (fun p => Rltb minimum (snd p)) (combine ws rs).

(** Which object the script finds for a platform: the first sensor that is not
    left out and can be read; sensors before it were left out or could not be read. *)
Inductive found (make : string -> string -> res (robj XRN)) (p : string) : list string -> robj XRN -> Prop :=
| found_here s rest o : skipped p s = false -> make p s = Ok o -> found make p (s :: rest) o
| found_skip s rest o : skipped p s = true -> found make p rest o -> found make p (s :: rest) o
| found_fail s rest o e : skipped p s = false -> make p s = Err e -> In e [FileNotFoundError; OSError; HTTPError; NetworkError] ->
    found make p rest o -> found make p (s :: rest) o.
(** No sensor's data can be read, and at least one was tried. *)
Definition unreadable (make : string -> string -> res (robj XRN)) (p : string) (sensors : list string) : Prop :=
  (exists s, In s sensors /\ skipped p s = false) /\
  forall s, In s sensors -> skipped p s = false -> exists e, make p s = Err e /\ In e [FileNotFoundError; OSError; HTTPError; NetworkError].
(** The script does not try any of the sensors. *)
Definition untried (p : string) (sensors : list string) : Prop := forall s, In s sensors -> skipped p s = true.

(** What is drawn for a platform: the object found, or nothing if no data can be read. *)
Definition shows (make : string -> string -> res (robj XRN)) (sensors : list string) (p : string) (os : list (robj XRN)) : Prop :=
  (exists o, os = [o] /\ found make p sensors o) \/ (os = [] /\ unreadable make p sensors).
(** The range given on the command line: none, or two numbers. *)
Definition range_of (a : plot_args XRN) (range : option (XRN * XRN)) : Prop :=
  match ca_range a with None => range = None | Some [lo; hi] => range = Some (lo, hi) | Some _ => False end.

(** The line printed for a band: first and last wavelength at which the response
    of the detector exceeds [t], and the central wavelength between them. *)
Definition good_line (o : robj XRN) (det : string) (t : R) (b : string) (l : string * (XRN * XRN * XRN)) : Prop :=
  exists bd d ws rs i j wi wj, dget b (so_rsr o) = Some bd /\ dget det bd = Some d /\ arrays d ws rs /\
    first_last (fun r => t < r) rs i j /\ nth_error ws i = Some wi /\ nth_error ws j = Some wj /\
    l = (b, (Fin wi, xdiv (Fin (Rtrapz (Rvmul rs ws) ws)) (Fin (Rtrapz rs ws)), Fin wj)).
(** The band has the detector, and its response exceeds [t] somewhere. *)
Definition has_range (o : robj XRN) (det : string) (t : R) (b : string) : Prop :=
  exists bd d ws rs, dget b (so_rsr o) = Some bd /\ dget det bd = Some d /\ arrays d ws rs /\ Exists (fun r => t < r) rs.

(** A sensor belongs to the platform according to the table. *)
Definition on_board (p s : string) : Prop :=
  match dget p INSTRUMENTS with
  | None => True
  | Some (IOne i) => s = i
  | Some (IList l) => In s l
  end.

(** No download was requested and no file changed. *)
Definition harmless (w w' : world) : Prop := w_requests w' = w_requests w /\ w_files w' = w_files w.

(** The sensor's name is a part of another name. *)
Definition part_of (s t : string) : Prop := exists a b, t = (a ++ s ++ b)%string.

(** A number below 10000 with four digits. *)
Definition digit (n : Z) : ascii := ascii_of_nat (48 + Z.to_nat n).
Definition four_digits (n : Z) : string :=
  String (digit (n / 1000)) (String (digit (n / 100 mod 10)) (String (digit (n / 10 mod 10)) (String (digit (n mod 10)) EmptyString))).
