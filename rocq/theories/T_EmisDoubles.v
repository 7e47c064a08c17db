(** Property C115: the emissive part of the 3.x um radiance in IEEE doubles. *)
From Coq Require Import Reals Lra Lia ZArith String List Bool SpecFloat.
From Flocq Require Import Core BinarySingleNaN.
From Verif Require Import Base NumSig B64 M_Tables M_Utils M_Blackbody M_RadTb M_Nir M_Rsr S_B64 S_Nir S_NirDoubles P_B642 P_B64lib P_B64planck P_NirDoubles2 P_NirDoubles3 P_EmisDoubles P_EmisDoubles2.
Import ListNotations.
Local Open Scope R_scope.

(** After a call of reflectance_from_tbs, pixel by pixel: the measured radiance
    where the reflectance is NaN, elsewhere the thermal radiance times one minus
    the reflectance, right to 3 parts in 10^16 and with the signs and bounds of
    exact arithmetic.  Asked for temperatures, the method converts these values. *)
Theorem C115_pixels : forall lib (E : nir_env (B64N lib)) c s sun nir therm co2 lut st st' r,
  reflectance_from_tbs E c sun nir therm co2 lut st = (st', Ok r) -> one_image s sun nir therm co2 lut -> floats nir therm -> limit_like (cl_masking_limit c) ->
  forall tb, exists a, snd (emissive_part_3x c tb st') =
      (if tb then q <- converter_radiance2tb (cl_conv c) (NpArray (a_data a)) ;; Ok (Some (arg_values q)) else Ok (Some (a_data a))) /\
    forall k z tn L T F S, (k < size s)%nat -> pix k (get_as_array sun) = Some z -> pix k (get_as_array nir) = Some tn -> attributes st' k L T F S ->
    ordinary (cv_rsr_integral (cl_conv c)) L T F S -> is_double z -> exists v e, pix k r = Some v /\ pix k a = Some e /\
      (v = S754_nan -> e = L) /\
      (v <> S754_nan -> is_double e /\
         Rabs (to_R e - to_R T * (1 - to_R v)) <= 3 / 10 ^ 16 * Rabs (to_R T * (1 - to_R v)) + / 10 ^ 100 /\
         (to_R v <= 1 -> 0 <= to_R e) /\ (1 <= to_R v -> to_R e <= 0) /\ (0 <= to_R v -> to_R e <= to_R T) /\ (to_R v <= 0 -> to_R T <= to_R e)).
Proof. exact emissive64. Qed.
Print Assumptions C115_pixels.
Example C115_case : exists c t, sensor rounded_lib c /\ make_tb2rad_lut c true = Ok t /\
  forall st, exists st' r L T S v,
  reflectance_from_tbs (E64 _) (calc64 _ c t) (sun64 _) (tb64 _) (therm64 _) None None st = (st', Ok r) /\
  attributes st' 0 L T (b64_ratio 1 1) S /\ ordinary (cv_rsr_integral c) L T (b64_ratio 1 1) S /\
  to_R T <= to_R L /\ to_R L * to_R (cv_rsr_integral c) <= to_R S /\ pix 0 r = Some v /\ v <> S754_nan.
Proof. exact case_balance64. Qed.
Example C115_case_image : one_image [4%nat] (sun64 rounded_lib) (tb64 rounded_lib) (therm64 rounded_lib) None None /\ floats (tb64 rounded_lib) (therm64 rounded_lib).
Proof. exact (image64_ok rounded_lib). Qed.
(** at the pixel of 300 K over 280 K *)
Example C115_case_pixels : exists c t, forall st, exists st' r T v a e,
  reflectance_from_tbs (E64 _) (calc64 _ c t) (sun64 rounded_lib) (tb64 _) (therm64 _) None None st = (st', Ok r) /\
  snd (emissive_part_3x (calc64 _ c t) false st') = Ok (Some (a_data a)) /\ pix 0 r = Some v /\ pix 0 a = Some e /\
  Rabs (to_R e - to_R T * (1 - to_R v)) <= 3 / 10 ^ 16 * Rabs (to_R T * (1 - to_R v)) + / 10 ^ 100.
Proof.
  destruct C115_case as (c & t & _ & _ & H). exists c, t. intros st. destruct (H st) as (st' & r & L & T & S & v & E & A & O & _ & _ & Pv & Nv).
  destruct C115_case_image as [Im Fl].
  assert (D60 : is_double (b64_ratio 60 1)) by (split; vm_compute; reflexivity).
  assert (D85 : limit_like (cl_masking_limit (calc64 rounded_lib c t))) by (split; vm_compute; reflexivity).
  destruct (C115_pixels _ _ _ _ _ _ _ _ _ _ _ _ E Im Fl D85 false) as (a & Ha & K).
  destruct (K 0%nat _ _ _ _ _ _ ltac:(cbn; lia) eq_refl eq_refl A O D60) as (v' & e & Pv' & Pe & _ & B).
  rewrite Pv in Pv'. assert (v' = v) as -> by congruence.
  exists st', r, T, v, a, e. repeat (split; [assumption|]). apply (B Nv).
Qed.

(** Without CO2 correction, where more is measured than emitted thermally and
    no more than the sun sends: the reflectance is from 0 to 1, the emissive part
    from 0 to the thermal radiance, and reflected and emitted energy add up to
    the measured one, to 3 parts in 10^15 of the energies involved. *)
Theorem C115_balance : forall lib (E : nir_env (B64N lib)) c s sun nir therm co2 lut st st' r,
  reflectance_from_tbs E c sun nir therm co2 lut st = (st', Ok r) -> one_image s sun nir therm co2 lut -> floats nir therm -> limit_like (cl_masking_limit c) ->
  exists a, snd (emissive_part_3x c false st') = Ok (Some (a_data a)) /\
    forall k z tn L T F S, (k < size s)%nat -> pix k (get_as_array sun) = Some z -> pix k (get_as_array nir) = Some tn -> attributes st' k L T F S ->
    ordinary (cv_rsr_integral (cl_conv c)) L T F S -> is_double z -> let I := cv_rsr_integral (cl_conv c) in
    to_R F = 1 -> to_R T <= to_R L -> to_R L * to_R I <= to_R S -> exists v e, pix k r = Some v /\ pix k a = Some e /\
      (v <> S754_nan -> 0 <= to_R v <= 1 /\ 0 <= to_R e <= to_R T /\
         Rabs (to_R v * to_R S + to_R e * to_R I - to_R L * to_R I) <= 3 / 10 ^ 15 * (to_R L * to_R I + to_R T * to_R I + to_R S)).
Proof. exact balance64. Qed.
Print Assumptions C115_balance.
Example C115_case_balance : exists c t, forall st, exists st' r v a e L T S,
  reflectance_from_tbs (E64 _) (calc64 _ c t) (sun64 rounded_lib) (tb64 _) (therm64 _) None None st = (st', Ok r) /\
  snd (emissive_part_3x (calc64 _ c t) false st') = Ok (Some (a_data a)) /\ pix 0 r = Some v /\ pix 0 a = Some e /\
  attributes st' 0 L T (b64_ratio 1 1) S /\ 0 <= to_R v <= 1 /\ 0 <= to_R e <= to_R T /\ let I := cv_rsr_integral c in
  Rabs (to_R v * to_R S + to_R e * to_R I - to_R L * to_R I) <= 3 / 10 ^ 15 * (to_R L * to_R I + to_R T * to_R I + to_R S).
Proof.
  destruct C115_case as (c & t & _ & _ & H). exists c, t. intros st. destruct (H st) as (st' & r & L & T & S & v & E & A & O & B1 & B2 & Pv & Nv).
  destruct C115_case_image as [Im Fl].
  assert (D60 : is_double (b64_ratio 60 1)) by (split; vm_compute; reflexivity).
  assert (D85 : limit_like (cl_masking_limit (calc64 rounded_lib c t))) by (split; vm_compute; reflexivity).
  destruct (C115_balance _ _ _ _ _ _ _ _ _ _ _ _ E Im Fl D85) as (a & Ha & K).
  destruct (K 0%nat _ _ _ _ _ _ ltac:(cbn; lia) eq_refl eq_refl A O D60 one_R B1 B2) as (v' & e & Pv' & Pe & B).
  rewrite Pv in Pv'. assert (v' = v) as -> by congruence.
  exists st', r, v, a, e, L, T, S. repeat (split; [assumption|]). apply (B Nv).
Qed.
