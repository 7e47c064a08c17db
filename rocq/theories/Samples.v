(** Concrete data used by the examples beside the theorems: a band at 10-12 um
    of an invented sensor, read in the shape the reader produces. *)
From Coq Require Import Reals Lra ZArith String List Sorting.Sorted.
From Verif Require Import Base NumSig XR M_Tables M_Utils M_Rsr M_RadTb S_RadTb S_Rsr.
Import ListNotations.
Open Scope R_scope.

Definition sample_det : detector XRN :=
  [("response"%string, VArr [Fin (2/10); Fin 1; Fin (3/10)]);
   ("wavelength"%string, VArr [Fin 10; Fin 11; Fin 12]);
   ("central_wavelength"%string, VNum (Fin 11))].
Definition sample_det2 : detector XRN :=
  [("response"%string, VArr [Fin (1/10); Fin 1; Fin (4/10)]);
   ("wavelength"%string, VArr [Fin 10; Fin (21/2); Fin 12]);
   ("central_wavelength"%string, VNum (Fin (109/10)))].
Definition sample_nir : detector XRN :=
  [("response"%string, VArr [Fin (1/2); Fin 1; Fin (1/2)]);
   ("wavelength"%string, VArr [Fin (36/10); Fin (37/10); Fin (38/10)]);
   ("central_wavelength"%string, VNum (Fin (37/10)))].
(** a dead detector *)
Definition sample_dead : detector XRN :=
  [("response"%string, VArr [Fin 0; Fin 0; Fin 0]);
   ("wavelength"%string, VArr [Fin (36/10); Fin (37/10); Fin (38/10)]);
   ("central_wavelength"%string, VNum (Fin (37/10)))].
Definition sample_data : rsrdata XRN :=
  [("ch4"%string, [("det-1"%string, sample_det); ("det-2"%string, sample_det2)]);
   ("ch3b"%string, [("det-1"%string, sample_nir); ("det-2"%string, sample_dead)])].
Definition sample_state : rsr_state XRN := rsr_init (Some (IOne "avhrr-3")) sample_data.
Definition sample_load (p i : string) : res (rsr_state XRN) := Ok sample_state.

Lemma sample_shaped : reader_shaped sample_data.
Proof.
  split.
  - repeat constructor; simpl; intuition discriminate.
  - repeat constructor; simpl; try (intuition discriminate);
      unfold reader_det, sample_det, sample_det2, sample_nir, sample_dead; eauto.
Qed.

Definition ws_sample : list R := [10 / 1000000; 11 / 1000000; 12 / 1000000].
Definition rs_sample : list R := [2/10; 1; 3/10].

Lemma good_sample : good_curve ws_sample rs_sample.
Proof.
  unfold good_curve, ws_sample, rs_sample. repeat split; simpl; auto with arith.
  - repeat constructor; lra.
  - repeat constructor; lra.
  - repeat constructor; lra.
  - apply Exists_cons_hd. lra.
Qed.

Lemma sample_converter tbr : tbr <> 0 ->
  exists c, RadTbConverter sample_load "NOAA-19" "avhrr-3" (BStr "4"%string) "det-1" WAVE_LENGTH (Fin tbr) = Ok c /\
    cv_waves c = map Fin ws_sample /\ cv_response c = map Fin rs_sample.
Proof.
  intros H. unfold RadTbConverter. change (check_wavespace WAVE_LENGTH) with (Ok tt). cbn [bind].
  rewrite n0_fin. cbn [neqb XRN xeqb]. replace (Reqb tbr 0) with false
    by (symmetry; apply Reqb_false_iff; auto).
  cbn -[trapezoid Rdiv IZR]. eexists. split; [reflexivity|]. split.
  - cbn -[Rdiv IZR]. unfold xlit, ws_sample. cbn -[Rdiv IZR].
    repeat (f_equal; try lra).
  - reflexivity.
Qed.

(** A sensor with one band "b" and one detector. *)
Definition one_band_load (w r : list XR) (p i : string) : res (rsr_state XRN) :=
  Ok (rsr_init None [("b"%string, [("det-1"%string,
        [("response"%string, VArr r); ("wavelength"%string, VArr w);
         ("central_wavelength"%string, VNum (Fin 11))])])]).
