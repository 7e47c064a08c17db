(** Sample data for the scripts (T_Scripts). *)
From Coq Require Import String List Bool Reals Lra Lia.
From Verif Require Import Base NumSig XR M_Tables M_Utils M_Rsr M_Scripts S_Utils S_Scripts P_Utils2.
Import ListNotations.
Local Open Scope string_scope.
Local Open Scope R_scope.

(** three bands; the second has detectors whose dictionary order is not their number *)
Definition cam_rsr : rsrdata XRN :=
  [("ch1", [("det-1", det3 (62/100))]); ("ch2", [("det-1", det3 (65/100)); ("det-2", det3 (66/100)); ("det-10", det3 (67/100))]);
   ("ch3b", [("det-1", det3 (37/10))])].
Definition cam (p : string) : robj XRN := {| so_platform := p; so_instrument := "avhrr/3"; so_bands := ["ch1"; "ch2"; "ch3b"]; so_rsr := cam_rsr |}.
(** data of all satellites for the one instrument, except NOAA-17's *)
Definition cam_make (p s : string) : res (robj XRN) :=
  if (String.eqb s "avhrr/3" || String.eqb s "avhrr-3")%bool then
    if String.eqb p "NOAA-17" then Err FileNotFoundError else Ok (cam p)
  else Err FileNotFoundError.
Lemma det3_arrays c : arrays (det3 c) [1; 2; 4] [1/10; 1; 2/10]. Proof. repeat split. Qed.
Lemma cam_nodup p : NoDup (dkeys (so_rsr (cam p))).
Proof. repeat constructor; cbn; intuition discriminate. Qed.
Lemma cam_cws p : Forall (fun kb => first_cw (snd kb) <> None) (so_rsr (cam p)).
Proof. repeat constructor; discriminate. Qed.
Lemma cam_first p b : In b ["ch1"; "ch2"; "ch3b"] -> drawable (cam p) b.
Proof.
  intros [<-|[<-|[<-|[]]]]; eexists _, _, _, _; (split; [reflexivity|]); (split; [|apply det3_arrays]); exists "det-1"; (split; [reflexivity|]);
  cbn; unfold not_after; intros e H; repeat (destruct H as [<-|H]; [reflexivity|]); destruct H.
Qed.
Lemma cam_names p b : In b (dkeys (so_rsr (cam p))) -> b <> "" /\ translate_band (so_instrument (cam p)) b = b /\ drawable (cam p) b.
Proof.
  intros H. split; [|split].
  - destruct H as [<-|[<-|[<-|[]]]]; discriminate.
  - destruct H as [<-|[<-|[<-|[]]]]; reflexivity.
  - apply cam_first. exact H.
Qed.
Definition cam_args (platforms sensors : list string) (b : option string) : plot_args XRN :=
  {| ca_platforms := platforms; ca_sensors := sensors; ca_minimum := Fin (15/1000); ca_no_name := false; ca_resolution := Fin (5/1000);
     ca_filename := None; ca_bandname := b; ca_wavelength := None; ca_range := None; ca_exclude := [] |}.
Lemma cam_curve p m : plot_band (Fin m : XRN) true (cam p) "ch1" =
  Ok {| pl_label := p ++ " - ch1"; pl_points := map (fun p => (Fin (fst p), Fin (snd p))) (filter (fun p => Rltb m (snd p)) (combine [1; 2; 4] [1/10; 1; 2/10])) |}.
Proof.
  unfold plot_band. cbn [so_band RSRDict_getitem cam so_rsr cam_rsr dget String.eqb Ascii.eqb Bool.eqb bind].
  change (first_sorted (dkeys [("det-1", det3 (62 / 100))])) with (Ok "det-1"). cbn [bind dget String.eqb Ascii.eqb Bool.eqb of_option].
  unfold unmasked. change (get_arr "response" (det3 (62/100))) with (@Ok (list XRN) (map Fin [1/10; 1; 2/10])).
  change (get_arr "wavelength" (det3 (62/100))) with (@Ok (list XRN) (map Fin [1; 2; 4])). cbn [bind]. f_equal. f_equal.
  assert (E : forall r, negb (nleb XRN (Fin r) (Fin m)) = Rltb m r).
  { intros r. cbn. unfold Rltb, Rleb. destruct (Rle_dec r m), (Rlt_dec m r); try reflexivity; lra. }
  cbn [map combine filter snd]. rewrite !E. destruct (Rltb m (1/10)), (Rltb m 1), (Rltb m (2/10)); reflexivity.
Qed.
Lemma cam_shows p : p <> "NOAA-17" -> dget p INSTRUMENTS = Some (IOne "avhrr/3") -> shows cam_make ["modis"; "avhrr/3"] p [cam p].
Proof.
  intros Hp Hi. left. exists (cam p). split; [reflexivity|]. apply found_skip; [unfold skipped; now rewrite Hi|].
  apply found_here; [unfold skipped; now rewrite Hi|]. unfold cam_make. cbn [String.eqb orb]. apply String.eqb_neq in Hp. now rewrite Hp.
Qed.
Lemma cam_range p det b : In (b, det) [("ch1", "det-1"); ("ch2", "det-1"); ("ch3b", "det-1"); ("ch2", "det-10")] -> has_range (cam p) det (15/100) b.
Proof.
  intros H. repeat (destruct H as [[= <- <-]|H]; [eexists _, _, [1; 2; 4], [1/10; 1; 2/10]; split; [reflexivity|]; split; [reflexivity|]; split; [apply det3_arrays|];
    apply Exists_cons_tl, Exists_cons_hd; lra|]). destruct H.
Qed.
(** a plot by wavelength *)
Definition cam_at (x : R) : plot_args XRN :=
  {| ca_platforms := ["NOAA-19"]; ca_sensors := ["avhrr/3"]; ca_minimum := Fin (15/1000); ca_no_name := false; ca_resolution := Fin (5/1000);
     ca_filename := None; ca_bandname := None; ca_wavelength := Some (Fin x); ca_range := None; ca_exclude := [] |}.
Lemma cam_near p : map fst (filter (near (8/10) (1/4)) (so_rsr (cam p))) = ["ch1"; "ch2"].
Proof.
  unfold cam, cam_rsr, so_rsr, filter, near, first_cw, snd.
  cbn [dget String.eqb Ascii.eqb Bool.eqb det3]. unfold Rltb.
  repeat match goal with |- context [Rlt_dec ?a ?b] => destruct (Rlt_dec a b) as [?|Hn] end; try reflexivity;
  exfalso; unfold Rabs in *; repeat match goal with H : context [Rcase_abs ?a] |- _ => destruct (Rcase_abs a) end; lra.
Qed.
(** a plot of a range *)
Definition cam_scan (res : R) (excluded : list string) : plot_args XRN :=
  {| ca_platforms := ["NOAA-19"]; ca_sensors := ["avhrr/3"]; ca_minimum := Fin (15/1000); ca_no_name := false; ca_resolution := Fin res;
     ca_filename := None; ca_bandname := None; ca_wavelength := None; ca_range := None; ca_exclude := excluded |}.
