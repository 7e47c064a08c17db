(** Concrete configurations, tables and work books for T_Raw. *)
From Coq Require Import String Ascii List Bool ZArith Lia Reals Lra Sorted.
From Verif Require Import Base NumSig XR M_Tables M_Utils M_World M_Hdf5 M_Raw S_Raw S_Hdf5 P_Raw P_Raw2 P_Raw3 P_Raw4 P_Raw5.
Import ListNotations.
Local Open Scope string_scope.

(** a file of its own for every band *)
Definition own_files (platform instrument : string) (bands : list string) : dict cfg :=
  [(platform ++ "-" ++ instrument, CMap (("path", Leaf (LStr "/raw")) :: map (fun b => (b, Leaf (LStr (b ++ ".txt")))) bands))].
Definition all_there (_ : string) : bool := true.
Definition none_there (_ : string) : bool := false.
(** three columns *)
Definition table3 (f : string) (_ : nat) : res (list (list XRN)) :=
  if String.eqb f "/raw/ch2.txt" then Ok [[Fin 600; Fin 610; Fin 620]; [Fin 0; Fin 50; Fin 80]; [Fin 1; Fin 2; Fin 3]]
  else Ok [[Fin 1]; [Fin 1]; [Fin 1]].
Definition wavenumber_table (f : string) (_ : nat) : res (list (list XRN)) := Ok [[Fin 800; Fin 900; Fin 1000]; [Fin (1/10); Fin (9/10); Fin (2/10)]].
Definition fraction_table (f : string) (_ : nat) : res (list (list XRN)) := Ok [[Fin 450; Fin 460; Fin 470]; [Fin (1/2); Fin (101/100); Fin 0]].
Definition mersi_table (f : string) (_ : nat) : res (list (list XRN)) :=
  Ok [[Fin 400; Fin 410]; [Fin 0; Fin 1]; [Fin 1; Fin 0]; [Fin 1; Fin 1]; [Fin (1/2); Fin 1]; [Fin 1; Fin (1/4)]].
Definition one_mersi_file : dict cfg :=
  [("FY-3B-mersi-1", CMap (("path", Leaf (LStr "/raw")) :: map (fun b => (b, Leaf (LStr "fy3b.txt"))) MERSI1_FY3B_BAND_NAMES))].

Definition abi_opts : dict cfg := own_files "GOES-16" "abi" (channels 1 16).
Definition ami_opts : dict cfg := own_files "GEO-KOMPSAT-2A" "ami" (channels 1 16).
Definition agri_opts : dict cfg := own_files "FY-4A" "agri" (channels 1 14).

Lemma abi_case : exists o r, make Abi abi_opts all_there table3 "ch2" "GOES-16" = Ok o /\ ir_rsr o = Some r /\
  rw_response r = [Fin 1; Fin 2; Fin 3] /\ layout Abi "GOES-16" "ch2" 2 2 1.
Proof. eexists _, _. repeat split. constructor. Qed.
Lemma cocts_case : exists o r, make Cocts (own_files "HY-1C" "cocts" (channels 1 8)) all_there table3 "ch2" "HY-1C" = Ok o /\ ir_rsr o = Some r /\
  rw_response r = [Fin 1; Fin 2; Fin 3] /\ layout Cocts "HY-1C" "ch2" 0 2 1000.
Proof. eexists _, _. repeat split. now apply l_cocts. Qed.
Lemma avhrr_missing : exists o, make Avhrr (own_files "NOAA-19" "avhrr/3" ["ch1"; "ch2"; "ch3a"; "ch3b"; "ch4"; "ch5"]) none_there table3 "ch2" "NOAA-19" = Ok o /\ ir_rsr o = None.
Proof. eexists. split; reflexivity. Qed.
Lemma ami_case : exists o r, make Ami ami_opts all_there wavenumber_table "ch9" "GEO-KOMPSAT-2A" = Ok o /\ ir_rsr o = Some r.
Proof. eexists _, _. split; reflexivity. Qed.
Lemma agri_case : exists o r, make Agri agri_opts all_there table3 "ch2" "FY-4A" = Ok o /\ ir_rsr o = Some r.
Proof. eexists _, _. unfold make, AgriRSR, text_rsr. split; [reflexivity|]. reflexivity. Qed.

Local Open Scope R_scope.
(** a curve of fractions whose peak is 1.01 ends up a hundred times too small *)
Lemma fractions_divided : exists options ex cols o r l l', @make XRN Agri options ex cols "ch2" "FY-4A" = Ok o /\ ir_rsr o = Some r /\
  (forall f n, cols f n = Ok [map (fun p => Fin (fst p)) l; map (fun p => Fin (snd p)) l]) /\
  Forall (fun p => 0 <= snd p <= 102 / 100) l /\ Exists (fun p => 1 <= snd p) l /\ curve r l' /\ Forall (fun p => snd p <= 2 / 100) l'.
Proof.
  assert (E : exists o r, @make XRN Agri agri_opts all_there fraction_table "ch2" "FY-4A" = Ok o /\ ir_rsr o = Some r) by (eexists _, _; split; reflexivity).
  destruct E as (o & r & H & Hr). destruct (geo_curves _ _ _ _ _ _ _ _ (or_introl eq_refl) H Hr) as (f & u & w & y & rest & _ & U & T & L).
  injection T as <- <- <-. set (l := [(450, 1/2); (460, 101/100); (470, 0)]). destruct (L l eq_refl eq_refl) as (_ & L2).
  destruct L2 as (l' & T & C); [right; left; cbn; lra|].
  exists agri_opts, all_there, fraction_table, o, r, l, l'. split; [easy|]. split; [easy|]. split; [reflexivity|].
  split; [repeat constructor; cbn; lra|]. split; [right; left; cbn; lra|]. split; [easy|].
  unfold l in T. cbn [map fst snd] in T.
  assert (G : forall a b, trimmed a b -> Forall (fun p => snd p <= 2 / 100) a -> Forall (fun p : R * R => snd p <= 2 / 100) b).
  { induction 1; intros F; auto; inversion F; subst; auto. }
  apply (G _ _ T). repeat constructor; cbn; lra.
Qed.

Lemma twins : exists o o' file, configured one_mersi_file "FY-3B" "mersi-1" "ch4" file /\ configured one_mersi_file "FY-3B" "mersi-1" "ch8" file /\
  make Mersi1 one_mersi_file all_there mersi_table "ch4" "FY-3B" = Ok o /\ make Mersi1 one_mersi_file all_there mersi_table "ch8" "FY-3B" = Ok o'.
Proof.
  eexists _, _, "/raw/fy3b.txt". split; [|split; [|split; reflexivity]].
  - eexists _, _, _. repeat split.
  - eexists _, _, _. repeat split.
Qed.

(** ** SEVIRI *)
Definition header (k : nat) : list XRN := repeat (Fin 0) k.
Definition ir_sheet : sheet XRN := {| sh_name := " IR10.8 "; sh_columns :=
  map (fun c : XR => (header 13 ++ [c; Fin 1])%list) [Fin 10; Fin 0; Fin 1; Fin 2; Fin 3; Fin 4; Fin 5; Fin 6; Fin 7] |}.
Definition vis_sheet : sheet XRN := {| sh_name := "VIS0.6"; sh_columns := map (fun c : XR => (header 12 ++ [c; Fin 1])%list) [Fin (1/2); Fin 0; Fin 1; Fin 2; Fin 3] |}.
Definition info_sheet : sheet XRN := {| sh_name := "Info"; sh_columns := [] |}.
Definition fine {A} (r : res A) : bool := match r with Ok _ => true | Err _ => false end.
Lemma fine_ok {A} (r : res A) : fine r = true -> exists a, r = Ok a.
Proof. destruct r as [a|]; [intros _; now exists a|discriminate]. Qed.
Lemma seviri_case : exists s, Seviri [info_sheet; ir_sheet; vis_sheet] "wavelength" = Ok s.
Proof. apply fine_ok. vm_compute. reflexivity. Qed.
Lemma seviri_ir_case : exists s, Seviri [info_sheet; ir_sheet] "wavelength" = Ok s.
Proof. apply fine_ok. vm_compute. reflexivity. Qed.
Definition hrv_sheet : sheet XRN := {| sh_name := "HRV "; sh_columns :=
  map (fun c : XR => (header 37 ++ [c; Fin 1])%list) [Fin (1/2); Fin 0; Fin 2; Fin 3; Fin 4; Fin 5; Fin 6] |}.
Lemma hrv_case : (exists s, Seviri [info_sheet; hrv_sheet; vis_sheet] "wavelength" = Ok s) /\ exists row col, sheet_layout (strip (sh_name hrv_sheet)) row col false /\ block hrv_sheet row (col 2%nat) [Fin 5; Fin 1].
Proof. split; [apply fine_ok; vm_compute; reflexivity|]. do 2 eexists. split; [now eapply (lay_hrv _ "")|]. eexists. split; reflexivity. Qed.
Lemma seviri_wn_case : exists s, Seviri [info_sheet; ir_sheet; vis_sheet] "wavenumber" = Ok s.
Proof. apply fine_ok. vm_compute. reflexivity. Qed.
