(** Concrete cases and corollaries for T_Rsr. *)
From Coq Require Import Reals Lra ZArith String List Bool Lia Sorting.Sorted.
From Verif Require Import Base NumSig XR M_Tables M_Utils M_Rsr S_Rsr S_Names S_Convert
     P_Names P_Convert P_Convert2 Samples.
Import ListNotations.
Local Open Scope string_scope.
Open Scope R_scope.

Lemma get_raises : exists (d : dict nat) l key, In (IList l) (map snd INSTRUMENTS) /\
  RSRDict_get (Some (IList l)) d key 0%nat = Err TypeError.
Proof.
  exists [], ["virr"; "mersi-1"], "1". split; [|reflexivity].
  assert (E : dget "FY-3A" INSTRUMENTS = Some (IList ["virr"; "mersi-1"])) by (vm_compute; reflexivity).
  apply dget_Some_in in E. now apply (in_map snd) in E.
Qed.

Lemma contains_no_alias : exists i (d : dict nat) key v,
  RSRDict_getitem i d key = Ok v /\ RSRDict_contains d key = false.
Proof.
  exists (Some (IOne "seviri")), [("IR10.8", 1%nat)], "IR_108", 1%nat. split; vm_compute; reflexivity.
Qed.

Lemma combine_app {A B} (a a' : list A) (b b' : list B) : List.length a = List.length b ->
  combine (a ++ a')%list (b ++ b')%list = (combine a b ++ combine a' b')%list.
Proof.
  revert b; induction a as [|x a IH]; intros [|y b] H; try discriminate; cbn; auto. f_equal. apply IH. now injection H.
Qed.

Lemma wavenumber_pairs : forall (ws rs : list R) w r, List.length rs = List.length ws ->
  In (w, r) (combine ws rs) -> In (10000 / w, r) (combine (wavenumbers ws) (rev rs)).
Proof.
  unfold wavenumbers. induction ws as [|w0 ws IH]; intros [|r0 rs] w r Hl Hin; try discriminate; [contradiction|].
  cbn [map rev]. rewrite combine_app by (rewrite !rev_length, map_length; injection Hl; auto).
  apply in_or_app. cbn in Hin. destruct Hin as [[= <- <-]|Hin]; [right; now left|left].
  apply IH; auto.
Qed.

Definition mixed_wn_data : rsrdata XRN :=
  [("1", [("det-1", [("wavelength", VArr (map Fin [2; 4])); ("response", VArr [Fin 8; Fin 9]);
                     ("central_wavelength", VNum (Fin 3))]);
          ("det-2", [("wavenumber", VArr (map Fin [2500; 5000])); ("response", VArr [Fin 8; Fin 9]);
                     ("central_wavelength", VNum (Fin 3))])])].

Lemma mixed_wn_typed : typed_data mixed_wn_data.
Proof.
  split; [repeat constructor; auto|]. unfold mixed_wn_data. repeat constructor; cbn.
  - intros [H|[]]; discriminate.
  - auto.
  - intros v [= <-]. eauto.
  - intros x. discriminate.
  - intros v H. discriminate.
  - intros x. discriminate.
Qed.

Lemma wn_case : typed_data mixed_wn_data /\
  exists d' dd1 dd2, convert2wavenumber mixed_wn_data = Ok (d', ("cm-1", Fin 100)) /\
    det_at d' "1" "det-1" = Some dd1 /\ dget "wavenumber" dd1 = Some (VArr (map Fin [10000 / 4; 10000 / 2])) /\
    dget "response" dd1 = Some (VArr [Fin 9; Fin 8]) /\ dget "central_wavelength" dd1 = None /\
    det_at d' "1" "det-2" = Some dd2 /\ dget "central_wavelength" dd2 = Some (VNum (Fin 3)).
Proof.
  split; [apply mixed_wn_typed|].
  destruct (convert_data _ mixed_wn_typed) as (d' & E & _ & _ & H). exists d'.
  destruct (H "1" "det-1" _ eq_refl) as (dd1 & E1 & W1 & W2 & W3 & W4).
  destruct (H "1" "det-2" _ eq_refl) as (dd2 & E2 & V). cbn in V. subst dd2.
  exists dd1. eexists. split; [exact E|]. split; [exact E1|]. split; [|split; [|split; [|split; [exact E2|reflexivity]]]].
  - apply (W1 [2; 4]); [reflexivity|]. repeat constructor; lra.
  - cbn in W3. destruct W3 as (v' & -> & Hv). destruct v'; cbn in Hv; try contradiction. now subst l.
  - apply W4; discriminate.
Qed.

Lemma sample_convertible : rs_wavespace sample_state = WAVE_LENGTH /\ reader_shaped (rs_rsr sample_state) /\
  all_dets same_length (rs_rsr sample_state) /\ (exists d, det_at (rs_rsr sample_state) "ch4" "det-1" = Some d).
Proof.
  split; [reflexivity|]. split; [apply sample_shaped|]. split; [|eexists; reflexivity].
  repeat constructor; cbn; intros r w [= <-] [= <-]; reflexivity.
Qed.
