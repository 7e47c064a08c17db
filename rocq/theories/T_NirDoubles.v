(** Property C109: the 3.x um reflectance computed in IEEE doubles. *)
From Coq Require Import Reals Lra Lia ZArith String List Bool SpecFloat Sorting.Sorted.
From Flocq Require Import Core BinarySingleNaN.
From Verif Require Import Base NumSig B64 M_Tables M_Utils M_Blackbody M_RadTb M_Nir M_Rsr S_B64 S_Nir S_NirDoubles P_B642 P_B64lib P_NirDoubles2 P_NirDoubles3.
Import ListNotations.
Local Open Scope R_scope.

(** Which pixels are NaN: those without 3.x um temperature, those with the sun
    outside the range, and those with a contrast below 0.005; rounding may only
    decide otherwise within 10^-9 of that limit.  Every other pixel is a number,
    never an infinity. *)
Theorem C109_masked : forall lib (E : nir_env (B64N lib)) c s sun nir therm co2 lut st st' r k z tn L T F S,
  reflectance_from_tbs E c sun nir therm co2 lut st = (st', Ok r) -> one_image s sun nir therm co2 lut -> floats nir therm ->
  (k < size s)%nat -> pix k (get_as_array sun) = Some z -> pix k (get_as_array nir) = Some tn -> attributes st' k L T F S ->
  ordinary (cv_rsr_integral (cl_conv c)) L T F S -> is_double z -> limit_like (cl_masking_limit c) ->
  let gap := contrast (cv_rsr_integral (cl_conv c)) T F S in
  exists v, pix k r = Some v /\ (v = S754_nan \/ is_double v) /\
    (tn = S754_nan \/ sun_out64 (cl_masking_limit c) z \/ gap < 5 / 1000 - 1 / 10 ^ 9 -> v = S754_nan) /\
    (tn <> S754_nan -> ~ sun_out64 (cl_masking_limit c) z -> 5 / 1000 + 1 / 10 ^ 9 <= gap -> v <> S754_nan).
Proof. exact masked64. Qed.
Print Assumptions C109_masked.

(** The call of the Examples: 300 K, 310 K, no temperature, and the sun at 100
    degrees, with the table of a sensor and a correctly rounding library. *)
Example C109_case : exists c t, sensor rounded_lib c /\ make_tb2rad_lut c true = Ok t /\
  forall st, exists st' r L0 L1 T S v0 v1,
  reflectance_from_tbs (E64 _) (calc64 _ c t) (sun64 _) (tb64 _) (therm64 _) None None st = (st', Ok r) /\
  attributes st' 0 L0 T (b64_ratio 1 1) S /\ attributes st' 1 L1 T (b64_ratio 1 1) S /\
  ordinary (cv_rsr_integral c) L0 T (b64_ratio 1 1) S /\ ordinary (cv_rsr_integral c) L1 T (b64_ratio 1 1) S /\
  pix 0 r = Some v0 /\ v0 <> S754_nan /\ pix 1 r = Some v1 /\ v1 <> S754_nan /\ pix 2 r = Some S754_nan /\ pix 3 r = Some S754_nan.
Proof. exact case_call64. Qed.
Example C109_case_image : one_image [4%nat] (sun64 rounded_lib) (tb64 rounded_lib) (therm64 rounded_lib) None None /\ floats (tb64 rounded_lib) (therm64 rounded_lib).
Proof. exact (image64_ok rounded_lib). Qed.

(** What comes out is the quotient of the formula, to a relative error of 10^-15
    times the cancellation in the denominator; the stored attributes are what it
    is computed from. *)
Theorem C109_accuracy : forall lib (E : nir_env (B64N lib)) c s sun nir therm co2 lut st st' r k z tn L T F S v,
  reflectance_from_tbs E c sun nir therm co2 lut st = (st', Ok r) -> one_image s sun nir therm co2 lut -> floats nir therm ->
  (k < size s)%nat -> pix k (get_as_array sun) = Some z -> pix k (get_as_array nir) = Some tn -> attributes st' k L T F S ->
  ordinary (cv_rsr_integral (cl_conv c)) L T F S -> is_double z -> limit_like (cl_masking_limit c) ->
  pix k r = Some v -> v <> S754_nan ->
  let I := cv_rsr_integral (cl_conv c) in let x := exact_reflectance I L T F S in
  is_double v /\ 39 / 10000 <= contrast I T F S /\
  Rabs (to_R v - x) <= 1 / 10 ^ 15 * (1 + Rabs x) * amplification I L T F S.
Proof. exact accuracy64. Qed.
Print Assumptions C109_accuracy.

(** The signs and the bounds of exact arithmetic survive rounding. *)
Theorem C109_range : forall lib (E : nir_env (B64N lib)) c s sun nir therm co2 lut st st' r k z tn L T F S v,
  reflectance_from_tbs E c sun nir therm co2 lut st = (st', Ok r) -> one_image s sun nir therm co2 lut -> floats nir therm ->
  (k < size s)%nat -> pix k (get_as_array sun) = Some z -> pix k (get_as_array nir) = Some tn -> attributes st' k L T F S ->
  ordinary (cv_rsr_integral (cl_conv c)) L T F S -> is_double z -> limit_like (cl_masking_limit c) ->
  pix k r = Some v -> v <> S754_nan ->
  let energy := to_R L * to_R (cv_rsr_integral (cl_conv c)) in
  (to_R F <= 1 -> to_R T <= to_R L -> 0 <= to_R v) /\ (1 <= to_R F -> to_R L <= to_R T -> to_R v <= 0) /\
  (energy <= to_R S -> to_R v <= 1) /\ (to_R S <= energy -> 1 <= to_R v).
Proof. exact range64. Qed.
Print Assumptions C109_range.

(** More measured radiance never gives a smaller reflectance, *)
Theorem C109_order : forall lib (E : nir_env (B64N lib)) c s sun nir therm co2 lut st st1 r k z tn s' sun' nir' therm' co2' lut' st' st1' r' k' z' tn' L L' T F S v v',
  reflectance_from_tbs E c sun nir therm co2 lut st = (st1, Ok r) -> one_image s sun nir therm co2 lut -> floats nir therm ->
  reflectance_from_tbs E c sun' nir' therm' co2' lut' st' = (st1', Ok r') -> one_image s' sun' nir' therm' co2' lut' -> floats nir' therm' ->
  (k < size s)%nat -> pix k (get_as_array sun) = Some z -> pix k (get_as_array nir) = Some tn -> attributes st1 k L T F S ->
  (k' < size s')%nat -> pix k' (get_as_array sun') = Some z' -> pix k' (get_as_array nir') = Some tn' -> attributes st1' k' L' T F S ->
  ordinary (cv_rsr_integral (cl_conv c)) L T F S -> ordinary (cv_rsr_integral (cl_conv c)) L' T F S ->
  is_double z -> is_double z' -> limit_like (cl_masking_limit c) ->
  pix k r = Some v -> v <> S754_nan -> pix k' r' = Some v' -> v' <> S754_nan -> to_R L <= to_R L' -> to_R v <= to_R v'.
Proof. exact order64. Qed.
Print Assumptions C109_order.

(** nor does a higher 3.x um temperature, looked up in the table of the band. *)
Theorem C109_temperature_order : forall lib (E : nir_env (B64N lib)) load platform instrument band det wavespace c norm t
    s sun nir therm lut st st1 r k s' sun' nir' therm' lut' st' st1' r' k' z tn tn' tt L T F S L' T' F' S' v v',
  monotone_exp (m_exp lib) -> accurate_exp (1 / 10 ^ 13) (m_exp lib) ->
  RadTbConverter load platform instrument band det wavespace (nlit (B64N lib) 1 10) = Ok (cl_conv c) -> make_tb2rad_lut (cl_conv c) norm = Ok t ->
  Forall (wave_like (String.eqb (cv_wavespace (cl_conv c)) WAVE_NUMBER)) (cv_waves (cl_conv c)) -> Sorted Rle (map to_R (cv_waves (cl_conv c))) ->
  Forall response_like (cv_response (cl_conv c)) -> double_between (1 / 10 ^ 12) (10 ^ 6) (cv_rsr_integral (cl_conv c)) ->
  table_of c lut = Some t -> table_of c lut' = Some t ->
  reflectance_from_tbs E c sun nir therm None lut st = (st1, Ok r) -> one_image s sun nir therm None lut -> floats nir therm ->
  reflectance_from_tbs E c sun' nir' therm' None lut' st' = (st1', Ok r') -> one_image s' sun' nir' therm' None lut' -> floats nir' therm' ->
  (k < size s)%nat -> pix k (get_as_array sun) = Some z -> pix k (get_as_array nir) = Some tn -> pix k (get_as_array therm) = Some tt ->
  (k' < size s')%nat -> pix k' (get_as_array sun') = Some z -> pix k' (get_as_array nir') = Some tn' -> pix k' (get_as_array therm') = Some tt ->
  attributes st1 k L T F S -> attributes st1' k' L' T' F' S' ->
  ordinary (cv_rsr_integral (cl_conv c)) L T F S -> ordinary (cv_rsr_integral (cl_conv c)) L' T' F' S' -> is_double z -> limit_like (cl_masking_limit c) ->
  double_between 0 (32767 / 10) tn -> double_between 0 (32767 / 10) tn' -> to_R tn <= to_R tn' ->
  pix k r = Some v -> v <> S754_nan -> pix k' r' = Some v' -> v' <> S754_nan -> to_R v <= to_R v'.
Proof. exact temperature_order64. Qed.
Print Assumptions C109_temperature_order.

(** the first two pixels of the call *)
Example C109_case_order : exists c t, forall st, exists st' r v0 v1,
  reflectance_from_tbs (E64 _) (calc64 _ c t) (sun64 rounded_lib) (tb64 _) (therm64 _) None None st = (st', Ok r) /\
  pix 0 r = Some v0 /\ pix 1 r = Some v1 /\ is_double v0 /\ is_double v1 /\ to_R v0 <= to_R v1.
Proof.
  destruct C109_case as (c & t & Hs & Ht & H). exists c, t. intros st. destruct (H st) as (st' & r & L0 & L1 & T & S & v0 & v1 & E & A0 & A1 & O0 & O1 & P0 & N0 & P1 & N1 & _).
  exists st', r, v0, v1. split; [exact E|]. split; [exact P0|]. split; [exact P1|].
  destruct C109_case_image as [Im Fl]. destruct (sensor_conditions c Hs) as (W & SW & RW & HI).
  assert (D60 : is_double (b64_ratio 60 1)) by (split; vm_compute; reflexivity).
  assert (D85 : limit_like (cl_masking_limit (calc64 rounded_lib c t))) by (split; vm_compute; reflexivity).
  destruct (C109_accuracy _ _ _ _ _ _ _ _ _ _ _ _ 0%nat _ _ _ _ _ _ v0 E Im Fl ltac:(cbn; lia) eq_refl eq_refl A0 O0 D60 D85 P0 N0) as (D0 & _).
  destruct (C109_accuracy _ _ _ _ _ _ _ _ _ _ _ _ 1%nat _ _ _ _ _ _ v1 E Im Fl ltac:(cbn; lia) eq_refl eq_refl A1 O1 D60 D85 P1 N1) as (D1 & _).
  split; [exact D0|]. split; [exact D1|].
  assert (B : forall z, (0 <= z <= 3276)%Z -> double_between 0 (32767 / 10) (b64_ratio z 1) /\ to_R (b64_ratio z 1) = IZR z) by exact ints_between.
  destruct (B 300%Z ltac:(lia)) as [B0 V0]. destruct (B 310%Z ltac:(lia)) as [B1 V1].
  apply (C109_temperature_order rounded_lib _ (load64 rounded_lib) "NOAA-19"%string "avhrr-3"%string (BStr "b"%string) "det-1"%string WAVE_LENGTH (calc64 rounded_lib c t) true t
    [4%nat] _ _ _ None st st' r 0%nat [4%nat] _ _ _ None st st' r 1%nat (b64_ratio 60 1) (b64_ratio 300 1) (b64_ratio 310 1) (b64_ratio 280 1) L0 T _ S L1 T _ S v0 v1
    exp_rounded_monotone exp_rounded_accurate13 Hs Ht W SW RW HI eq_refl eq_refl E Im Fl E Im Fl ltac:(cbn; lia) eq_refl eq_refl eq_refl ltac:(cbn; lia) eq_refl eq_refl eq_refl
    A0 A1 O0 O1 D60 D85 B0 B1); auto. rewrite V0, V1. lra.
Qed.
