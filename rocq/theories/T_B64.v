(** Property C13: the table look-up as the machine computes it. *)
From Coq Require Import ZArith Reals Lra List String SpecFloat.
From Flocq Require Import Core BinarySingleNaN.
From Verif Require Import Base NumSig XR B64 M_Tables M_Rsr M_Utils M_RadTb S_RadTb S_B64 P_B642 P_B643 Samples.
Import ListNotations.
Local Open Scope R_scope.

(** [lib] is the platform's mathematical library (exp, log), [oob] its cast of
    floats outside the 16-bit range. *)

(** Every multiple of 0.1 K from 150.0 to 359.9 (the double nearest to it) hits
    its own row. *)
Theorem C13_multiples_hit_their_row : forall lib oob load platform instrument band det wavespace (c : converter (B64N lib)) norm norm' lut k,
  RadTbConverter load platform instrument band det wavespace (nlit (B64N lib) 1 10) = Ok c -> make_tb2rad_lut c norm = Ok lut ->
  (k < 2100)%nat ->
  exists r, tb2radiance oob c [nlit (B64N lib) (1500 + Z.of_nat k) 10] (Some lut) norm' = Ok [r] /\ nth_error (lut_radiance lut) k = Some r.
Proof. exact multiples_hit. Qed.
Print Assumptions C13_multiples_hit_their_row.

(** The temperatures stored in the table: all but the first three are looked up
    one row too low. *)
Theorem C13_stored_temperatures_off_by_one : forall lib oob load platform instrument band det wavespace (c : converter (B64N lib)) norm norm' lut k t,
  RadTbConverter load platform instrument band det wavespace (nlit (B64N lib) 1 10) = Ok c -> make_tb2rad_lut c norm = Ok lut ->
  nth_error (lut_tb lut) k = Some t ->
  exists r, tb2radiance oob c [t] (Some lut) norm' = Ok [r] /\
    nth_error (lut_radiance lut) (if Nat.ltb k 3 then k else k - 1) = Some r.
Proof. exact stored_rows. Qed.
Print Assumptions C13_stored_temperatures_off_by_one.

(** Every double from 0 to 3276.7: the result is the radiance that the direct
    calculation gives for a table temperature at most 0.1 K (and rounding) below;
    outside the table, for its first or last temperature. *)
Theorem C13_every_double : forall lib oob load platform instrument band det wavespace (c : converter (B64N lib)) norm norm' lut t,
  RadTbConverter load platform instrument band det wavespace (nlit (B64N lib) 1 10) = Ok c -> make_tb2rad_lut c norm = Ok lut ->
  is_double t -> 0 <= to_R t <= 32767 / 10 ->
  exists r i ti, tb2radiance oob c [t : B64N lib] (Some lut) norm' = Ok [r] /\
    nth_error (lut_radiance lut) i = Some r /\ nth_error (lut_tb lut) i = Some ti /\
    tb2radiance oob c [ti] None norm = Ok [r] /\
    (150 <= to_R t < 360 -> to_R ti - 1 / 10000000000 < to_R t < to_R ti + 1/10 + 1 / 10000000000) /\
    (to_R t < 150 -> i = 0%nat) /\ (360 <= to_R t -> S i = List.length (lut_radiance lut)).
Proof. exact every_double. Qed.
Print Assumptions C13_every_double.

Example C13_case : forall lib, exists c lut,
  RadTbConverter (load64 lib) "NOAA-19" "avhrr-3" (BStr "b"%string) "det-1" WAVE_LENGTH (nlit (B64N lib) 1 10) = Ok c /\
  make_tb2rad_lut c true = Ok lut.
Proof. exact case64. Qed.
Example C13_case_double : is_double (b64_ratio 300 1) /\ to_R (b64_ratio 300 1) = 300.
Proof. split; [split; reflexivity|]. vm_compute (b64_ratio 300 1). cbn -[IZR]. unfold F2R. simpl. lra. Qed.

(** Where casts drop the high bits: from 360 K up to 3426.8 K the last row is
    used, from there up to 6703.6 K the first one. *)
Theorem C13_wraparound : forall load platform instrument band det wavespace (c : converter XRN) norm norm' lut t,
  RadTbConverter load platform instrument band det wavespace (Fin (1/10)) = Ok c -> make_tb2rad_lut c norm = Ok lut ->
  exists r, tb2radiance low_bits c [Fin t] (Some lut) norm' = Ok [r] /\
    (360 <= t < 34268 / 10 -> nth_error (lut_radiance lut) 2099 = Some r) /\
    (34268 / 10 <= t < 67036 / 10 -> nth_error (lut_radiance lut) 0 = Some r).
Proof. exact wraparound. Qed.
Print Assumptions C13_wraparound.
(** So radiance need not grow with temperature. *)
Theorem C13_monotone_refuted : exists c lut t t' r r',
  RadTbConverter sample_load "NOAA-19" "avhrr-3" (BStr "4"%string) "det-1" WAVE_LENGTH (Fin (1/10)) = Ok c /\
  make_tb2rad_lut c true = Ok lut /\ t < t' /\
  tb2radiance low_bits c [Fin t; Fin t'] (Some lut) true = Ok [Fin r; Fin r'] /\ r' < r.
Proof. exact not_monotone. Qed.
Print Assumptions C13_monotone_refuted.
