(** Cases for the theorems about selecting a band by its wavelength. *)
From Coq Require Import Reals Lra ZArith String List Bool Lia.
From Verif Require Import Base NumSig XR M_Tables M_Utils M_Rsr M_Blackbody M_RadTb M_Solar M_World M_Download M_Nir M_Rsr
     S_RadTb S_Rsr S_Utils S_Nir S_Nir2 S_Select P_Central P_Nir5 P_Nir6 P_Tight P_Tight2 Samples Samples2 Samples3.
Import ListNotations.
Local Open Scope R_scope.

Definition twin_data : rsrdata XRN := [("ch4"%string, [("det-1"%string, sample_det)]); ("ch5"%string, [("det-1"%string, sample_det2)])].
Definition twin_load (p i : string) : res (rsr_state XRN) := Ok (rsr_init (Some (IOne "avhrr-3")) twin_data).

Lemma sample_centred : well_centred sample_data.
Proof.
  split; [repeat constructor; cbn; intuition discriminate|].
  intros k b [[= <- <-]|[[= <- <-]|[]]]; eexists; eexists; eexists; (split; [now left|]); split; reflexivity.
Qed.
Lemma twin_centred : well_centred twin_data.
Proof.
  split; [repeat constructor; cbn; intuition discriminate|].
  intros k b [[= <- <-]|[[= <- <-]|[]]]; eexists; eexists; eexists; (split; [now left|]); split; reflexivity.
Qed.
Lemma sample_only k c : centred sample_data k c -> (k = "ch4"%string /\ c = 11) \/ (k = "ch3b"%string /\ c = 37 / 10).
Proof.
  intros (b & d & [[= <- <-]|[[= <- <-]|[]]] & D & W); cbn in D; injection D as <-; cbn in W; injection W as <-; auto.
Qed.
Ltac ab := match goal with |- context [Rabs ?x] => unfold Rabs; destruct (Rcase_abs x); lra | H : context [Rabs ?x] |- _ => unfold Rabs in H; destruct (Rcase_abs x); lra end.
Lemma only_ch3b x : 36 / 10 < x < 38 / 10 -> centred sample_data "ch3b" (37 / 10) /\ Rabs (37 / 10 - x) < 1 / 10 /\
  forall k' c', centred sample_data k' c' -> Rabs (c' - x) < 1 / 10 -> k' = "ch3b"%string.
Proof.
  intros Hx. split; [|split].
  - eexists. eexists. split; [now right; left|]. split; reflexivity.
  - ab.
  - intros k' c' H A. apply sample_only in H as [[-> ->]|[-> _]]; [ab|reflexivity].
Qed.
Lemma ch3b_converter : exists cv, RadTbConverter sample_load "NOAA-19" "avhrr-3" (BStr "ch3b"%string) "det-1" WAVE_LENGTH (Fin (1 / 10)) = Ok cv.
Proof.
  unfold RadTbConverter. change (check_wavespace WAVE_LENGTH) with (Ok tt). cbn [bind]. rewrite n0_fin. cbn [neqb XRN xeqb].
  replace (Reqb (1 / 10) 0) with false by (symmetry; apply Reqb_false_iff; lra).
  cbn -[trapezoid Rdiv IZR]. eexists. reflexivity.
Qed.
Lemma select_case :
  well_centred sample_data /\ centred sample_data "ch3b" (37 / 10) /\
  (exists cv, RadTbConverter sample_load "NOAA-19" "avhrr-3" (BNumber (Fin (378 / 100))) "det-1" WAVE_LENGTH (Fin (1 / 10)) = Ok cv) /\
  RadTbConverter sample_load "NOAA-19" "avhrr-3" (BNumber (Fin (39 / 10))) "det-1" WAVE_LENGTH (Fin (1 / 10)) = Err KeyError /\
  RadTbConverter twin_load "NOAA-19" "avhrr-3" (BNumber (Fin (1095 / 100))) "det-1" WAVE_LENGTH (Fin (1 / 10)) = Err AttributeError.
Proof.
  destruct (only_ch3b (378 / 100) ltac:(lra)) as (C & X & U).
  split; [exact sample_centred|]. split; [exact C|]. split; [|split].
  - pose proof (by_number_one sample_load "NOAA-19" "avhrr-3" "det-1" (378 / 100) (Fin (1 / 10)) sample_state "ch3b" _ eq_refl sample_centred
      ltac:(intros [= K]; lra) C X U) as S.
    destruct ch3b_converter as [cv E]. rewrite E in S. destruct (RadTbConverter _ _ _ (BNumber _) _ _ _) as [c'|]; [eauto|destruct S].
  - apply (by_number_none sample_load "NOAA-19" "avhrr-3" "det-1" (39 / 10) (Fin (1 / 10)) sample_state eq_refl sample_centred); [intros [= K]; lra|].
    intros k c H. apply sample_only in H as [[-> ->]|[-> ->]]; ab.
  - apply (by_number_several twin_load "NOAA-19" "avhrr-3" "det-1" (1095 / 100) (Fin (1 / 10)) (rsr_init (Some (IOne "avhrr-3"%string)) twin_data)
      "ch4" 11 "ch5" (109 / 10) eq_refl twin_centred); [intros [= K]; lra|discriminate| | | |].
    + eexists. eexists. split; [now left|]. split; reflexivity.
    + eexists. eexists. split; [now right; left|]. split; reflexivity.
    + ab.
    + ab.
Qed.
Lemma alias_converter load p i a b det tbr cv : translate_band i a = translate_band i b ->
  RadTbConverter load p i (BStr a) det WAVE_LENGTH tbr = Ok cv -> RadTbConverter load p i (BStr b) det WAVE_LENGTH tbr = Ok (relabel (BStr b) None cv).
Proof.
  unfold RadTbConverter. change (check_wavespace WAVE_LENGTH) with (Ok tt). cbn [bind resolve_band]. intros <-.
  destruct (neqb XRN tbr n0); [discriminate|]. cbn [bind]. destruct (load p i) as [s|]; [|discriminate]. cbn [bind].
  destruct (rsr_in_space s WAVE_LENGTH) as [[r [u si]]|]; [|discriminate]. cbn [bind].
  destruct (band_entry r _) as [e|]; [|discriminate]. cbn [bind].
  destruct (of_option KeyError (dget det e)) as [d|]; [|discriminate]. cbn [bind].
  destruct (get_arr WAVE_LENGTH d) as [w|]; [|discriminate]. cbn [bind].
  destruct (get_arr "response" d) as [rs|]; [|discriminate]. cbn [bind].
  destruct (trapezoid rs _) as [t|]; [|discriminate]. cbn [bind]. intros [= <-]. reflexivity.
Qed.
Lemma alias_calculator (E : nir_env XRN) p i a b det fl sz ml w w' cl : translate_band i a = translate_band i b ->
  Calculator E p i (BStr a) det WAVE_LENGTH fl sz ml w = (w', Ok cl) ->
  exists cl', Calculator E p i (BStr b) det WAVE_LENGTH fl sz ml w = (w', Ok cl').
Proof.
  intros T H. unfold Calculator, M_Download.lift, iobind, ret in *.
  destruct (RadTbConverter (nx_load E) p i (BStr a) det WAVE_LENGTH (nlit XRN 1 10)) as [cv|] eqn:CV; [|discriminate].
  rewrite (alias_converter _ _ _ _ _ _ _ _ T CV).
  replace (nir_band (relabel (BStr b) None cv) i (BStr b)) with (nir_band cv i (BStr a)) by (unfold nir_band; cbn [cv_rsr relabel]; now rewrite T).
  destruct (nir_band cv i (BStr a)) as [nb|]; [|discriminate].
  change (get_solarflux E (relabel (BStr b) None cv) (fst nb)) with (get_solarflux E cv (fst nb)).
  destruct (match fl with Some f => Ok f | None => get_solarflux E cv (fst nb) end) as [fx|]; [|discriminate].
  destruct (set_lutfile E p i (fst nb) w) as [w1 [f|]]; [|discriminate].
  change (set_lut E (relabel (BStr b) None cv) f w1) with (set_lut E cv f w1).
  destruct (set_lut E cv f w1) as [w2 [t|]]; [|discriminate]. injection H as <- <-. eexists. reflexivity.
Qed.
Lemma select_calculator_case : exists w' cl, Calculator nir_E "NOAA-19" "avhrr-3" (BStr "ch3b"%string) "det-1" WAVE_LENGTH (Some (Fin 10)) None None nir_w0 = (w', Ok cl) /\
  exists cl', Calculator nir_E "NOAA-19" "avhrr-3" (BNumber (Fin (363 / 100))) "det-1" WAVE_LENGTH (Some (Fin 10)) None None nir_w0 = (w', Ok cl').
Proof.
  destruct nir_table as (t & Ht & _). pose proof (nir_build 10 None nir_w0 t Ht (or_introl eq_refl)) as B. unfold build in B.
  apply (other_limits _ _ _ _ _ _ _ _ _ None None) in B.
  apply (alias_calculator _ _ _ _ "ch3b"%string) in B as [cl B]; [|reflexivity].
  exists nir_w1, cl. split; [exact B|].
  destruct (only_ch3b (363 / 100) ltac:(lra)) as (C & X & U).
  destruct (by_number_calculator nir_E "NOAA-19" "avhrr-3" "det-1" (Some (Fin 10)) None None nir_w0 nir_w1 (363 / 100) sample_state "ch3b" _ cl eq_refl sample_centred C X U ltac:(lra) B) as (cl' & H & _).
  eauto.
Qed.
