(** Specification vocabulary: MODIS and VIIRS files. *)
From Coq Require Import String Ascii List Bool ZArith Reals Sorted.
From Verif Require Import Base NumSig XR M_Tables M_Utils M_World M_Hdf5 M_Raw S_Raw S_Hdf5.
Import ListNotations.
Local Open Scope string_scope.

(** the detector of the first row that is not a comment *)
Inductive first_mentioned {A} : list (option (Z * A * A)) -> Z -> Prop :=
| fm_here z w r rows : first_mentioned (Some (z, w, r) :: rows) z
| fm_later rows z : first_mentioned rows z -> first_mentioned (None :: rows) z.

(** ** MODIS *)
Definition MODIS_NAMES : list string := ["1"; "2"; "3"; "4"; "5"; "6"; "7"; "8"; "9"; "10"; "11"; "12"; "13"; "14"; "15"; "16"; "17"; "18"; "19"; "20"; "21"; "22"; "23"; "24"; "25"; "26"; "27"; "28"; "29"; "30"; "31"; "32"; "33"; "34"; "35"; "36"].
Definition AQUA_FILES : list string := ["01.amb.1pct.det"; "02.amb.1pct.det"; "03.amb.1pct.det"; "04.amb.1pct.det"; "05.tv.1pct.det"; "06.tv.1pct.det"; "07.tv.1pct.det"; "08.amb.1pct.det"; "09.amb.1pct.det"; "10.amb.1pct.det"; "11.amb.1pct.det"; "12.amb.1pct.det"; "13.amb.1pct.det"; "14.amb.1pct.det"; "15.amb.1pct.det"; "16.amb.1pct.det"; "17.amb.1pct.det"; "18.amb.1pct.det"; "19.amb.1pct.det"; "20.tv.1pct.det"; "21.tv.1pct.det"; "22.tv.1pct.det"; "23.tv.1pct.det"; "24.tv.1pct.det"; "25.tv.1pct.det"; "26.tv.1pct.det"; "27.tv.1pct.det"; "28.tv.1pct.det"; "29.tv.1pct.det"; "30.tv.1pct.det"; "31.tv.1pct.det"; "32.tv.1pct.det"; "33.tv.1pct.det"; "34.tv.1pct.det"; "35.tv.1pct.det"; "36.tv.1pct.det"].
(** the file of a band *)
Inductive modis_file (path : string) : string -> string -> string -> Prop :=
| mf_terra b : In b MODIS_NAMES -> modis_file path "EOS-Terra" b (path ++ "/rsr." ++ b ++ ".inb.final")
| mf_aqua p n b f : p <> "EOS-Terra" -> nth_error MODIS_NAMES n = Some b -> nth_error AQUA_FILES n = Some f -> modis_file path p b (path ++ "/" ++ f).
(** how many of the unit of a file make a micrometre *)
Inductive modis_unit : string -> string -> R -> Prop :=
| mu_aqua b : modis_unit "EOS-Aqua" b 1000
| mu_short p b : In b ["1"; "2"; "3"; "4"; "5"; "6"; "7"; "8"; "9"; "10"; "11"; "12"; "13"; "14"; "15"; "16"; "17"; "18"; "19"; "26"] -> modis_unit p b 1000
| mu_thermal p b : p <> "EOS-Aqua" -> ~ In b ["1"; "2"; "3"; "4"; "5"; "6"; "7"; "8"; "9"; "10"; "11"; "12"; "13"; "14"; "15"; "16"; "17"; "18"; "19"; "26"] -> modis_unit p b 1.
Definition finite_rows (rows : list (option (Z * XRN * XRN))) : Prop :=
  forall z w r, In (Some (z, w, r)) rows -> exists w' r', w = Fin w' /\ r = Fin r'.
(** points of a curve, by wavelength *)
Definition ascending (l : list (R * R)) : Prop := StronglySorted (fun a b => (fst a < fst b)%R) l.
(** numpy.isclose for numbers *)
Definition close_to (a b : R) : Prop := (Rabs (a - b) <= 1 / 100000000 + 1 / 100000 * Rabs b)%R.
(** as many wavelengths, and close to each other *)
Definition alike {N : Num} (w w' : list N) : Prop := Forall2 (fun a b => isclose a b = true) w w'.
(** wavelengths as they are after writing and reading *)
Definition stored {N : Num} (f32 : N -> N) (w : list N) : list N :=
  map (fun x => nmul N (nmul N (f32 x) (nlit N 1 1000000)) (nlit N 1000000 1)) w.

(** ** VIIRS *)
(** the points of a curve by wavelength; the first one of several for a wavelength *)
Definition distinct_points (rows pts : list (R * R)) : Prop :=
  ascending pts /\
  forall w r, In (w, r) pts <-> exists pre post, rows = (pre ++ (w, r) :: post)%list /\ forall r', ~ In (w, r') pre.
(** rows: wavelength in nanometres, response, detector *)
Definition detector_points (rows : list (R * R * Z)) (k : Z) : list (R * R) :=
  map (fun q => (fst (fst q) / 1000, snd (fst q))%R) (filter (fun q => Z.eqb (snd q) k) rows).
Definition highest_detector (rows : list (R * R * Z)) (n : nat) : Prop :=
  In (Z.of_nat n) (map snd rows) /\ Forall (fun q => (snd q <= Z.of_nat n)%Z) rows.
Definition every_detector (rows : list (R * R * Z)) : Prop :=
  exists n, highest_detector rows n /\ (1 <= n)%nat /\ forall k, (1 <= k <= n)%nat -> In (Z.of_nat k) (map snd rows).
(** the lines at the beginning that start with a percent sign *)
Inductive leading : list string -> nat -> Prop :=
| le_end : leading [] 0
| le_data l ls : (forall s, l <> String "%" s) -> leading (l :: ls) 0
| le_head s ls n : leading ls n -> leading (String "%" s :: ls) (S n).
Definition VIIRS_NAMES : list string :=
  ["M1"; "M2"; "M3"; "M4"; "M5"; "M6"; "M7"; "M8"; "M9"; "M10"; "M11"; "M12"; "M13"; "M14"; "M15"; "M16"; "I1"; "I2"; "I3"; "I4"; "I5"; "DNB"].
(** a table of real numbers *)
Definition table (rows : list (R * R * Z)) : list (XRN * XRN * Z) := map (fun q => (Fin (fst (fst q)), Fin (snd (fst q)), snd q)) rows.
(** the table in the file of a band *)
Definition in_file (exists_ : string -> bool) (readlines : string -> res (list string)) (viirs_rows : string -> nat -> string -> res (list (XRN * XRN * Z)))
    (viirs_file : string -> string -> res string) (p b : string) (rows : list (R * R * Z)) : Prop :=
  exists f lines n, viirs_file p b = Ok f /\ exists_ f = true /\ readlines f = Ok lines /\ leading lines n /\ viirs_rows f n p = Ok (table rows).
