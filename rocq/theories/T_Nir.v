(** Near-infrared reflectance: properties C16 (calculator), C17-C27, C71, C87. *)
From Coq Require Import Reals Lra ZArith String List Bool Lia.
From Verif Require Import Base NumSig XR M_Tables M_Utils M_Rsr M_Blackbody M_RadTb M_Solar M_World M_Config M_Download M_Nir
     S_Planck S_RadTb S_Rsr S_Solar S_Download S_Nir S_Nir2 P_Arr P_Nir P_Nir2 P_Nir3 P_Nir4 P_Nir5 P_Nir6 P_Tight P_Tight2 Samples Samples2 Samples3.
Import ListNotations.
Local Open Scope R_scope.

(** ** The call used in the examples: sun at 60 degrees with solar radiance 1,
    four pixels; see Samples3. *)
(** C17.  [pixel] says what the inputs of pixel [k] are: finite sun angle, radiances and CO2 factor, any 3.x um temperature. *)
Theorem C17_masked_exactly : forall (E : nir_env XRN) c s sun nir therm co2 lut st st' r I flux thr lim,
  reflectance_from_tbs E c sun nir therm co2 lut st = (st', Ok r) -> one_image s sun nir therm co2 lut -> floats nir therm ->
  settings c I flux thr lim ->
  forall k z tn L T F, (k < size s)%nat -> pixel E c sun nir therm co2 lut k z tn L T F ->
  let masked := tn = NaN \/ solar_term flux thr z - T * I * F < 5 / 1000 \/ sun_out lim z in
  exists v, pix k r = Some v /\ (v = NaN <-> masked) /\ (~ masked -> exists x, v = Fin x).
Proof. intros E c s sun nir therm co2 lut st st' r I flux thr lim H Him Hf Hs k z tn L T F Hk Hp. exact (masked_exactly E c s sun nir therm co2 lut st st' r I flux thr lim k z tn L T F H Him Hf Hs Hk Hp). Qed.
Print Assumptions C17_masked_exactly.

(** over any numbers, also floats *)
Theorem C17_pixels_are_independent : forall (N : Num) (E : nir_env N) c s s' sun nir therm co2 sun' nir' therm' co2' lut st st1 st' st1' r r' k k',
  reflectance_from_tbs E c sun nir therm co2 lut st = (st1, Ok r) -> one_image s sun nir therm co2 lut ->
  reflectance_from_tbs E c sun' nir' therm' co2' lut st' = (st1', Ok r') -> one_image s' sun' nir' therm' co2' lut ->
  a_dtype (get_as_array nir) = a_dtype (get_as_array nir') -> a_dtype (get_as_array therm) = a_dtype (get_as_array therm') ->
  (k < size s)%nat -> (k' < size s')%nat ->
  pix k (get_as_array sun) = pix k' (get_as_array sun') -> pix k (get_as_array nir) = pix k' (get_as_array nir') ->
  pix k (get_as_array therm) = pix k' (get_as_array therm') ->
  option_map (fun a => pix k (get_as_array a)) co2 = option_map (fun a => pix k' (get_as_array a)) co2' ->
  pix k r = pix k' r' /\ exists v, pix k r = Some v.
Proof. exact pixel_independence. Qed.
Print Assumptions C17_pixels_are_independent.

(** A call on an image succeeds as soon as its temperatures can be converted. *)
Theorem C17_call_succeeds : forall (N : Num) (E : nir_env N) c s sun nir therm co2 lut st rad11 rad3x, rsr_data (cv_rsr (cl_conv c)) <> [] ->
  one_image s sun nir therm co2 lut ->
  tb2rad E (cl_conv c) (get_as_array therm) (table_of c lut) = Ok rad11 ->
  tb2rad E (cl_conv c) (get_as_array nir) (table_of c lut) = Ok rad3x ->
  exists st' r, reflectance_from_tbs E c sun nir therm co2 lut st = (st', Ok r).
Proof. exact @reflectance_ok. Qed.
Print Assumptions C17_call_succeeds.

(** pixel 0 is a number, pixel 1 has no temperature, pixel 2 is on the night
    side if a limit is set *)
Example C17_case : forall t st, exists st' r x,
  reflectance_from_tbs nir_E (nir_calc (2 * PI) (Some 88) t) nir_sun nir_tb nir_therm None (Some (Some nir_lut)) st = (st', Ok r) /\
  pix 0 r = Some (Fin x) /\ pix 1 r = Some NaN /\ pix 2 r = Some NaN.
Proof.
  intros t st. destruct (nir_call (2 * PI) (Some 88) t st) as (st' & r & H). pose proof PI_RGT_0 as HPI.
  pose proof (C17_masked_exactly _ _ _ _ _ _ _ _ _ _ _ _ _ _ _ H nir_image nir_floats (nir_settings _ _ _)) as C.
  destruct (C 0%nat 60 _ _ _ 1 ltac:(cbn; lia) (nir_pixel (2 * PI) (Some 88) t 0 _ _ _ _ eq_refl)) as (v0 & P0 & _ & F0).
  destruct (C 1%nat 60 _ _ _ 1 ltac:(cbn; lia) (nir_pixel (2 * PI) (Some 88) t 1 _ _ _ _ eq_refl)) as (v1 & P1 & N1 & _).
  destruct (C 2%nat (-10) _ _ _ 1 ltac:(cbn; lia) (nir_pixel (2 * PI) (Some 88) t 2 _ _ _ _ eq_refl)) as (v2 & P2 & N2 & _).
  destruct F0 as [x ->].
  { rewrite nir_sun60. replace (2 * PI / 2 / PI) with 1 by (field; lra). intros [A|[A|A]]; [discriminate|lra|]. cbn in A. lra. }
  exists st', r, x. split; [exact H|]. split; [exact P0|].
  rewrite P1, P2. rewrite (proj2 N1) by auto. rewrite (proj2 N2) by (right; right; cbn; lra). auto.
Qed.

(** With the default arguments the limit is at 85 degrees; up to there the sun
    is not clipped. *)
Theorem C17_default_limits : forall (E : nir_env XRN) p i b w w' c s sun nir therm co2 lut st st' r I flux,
  Calculator_defaults E p i b w = (w', Ok c) -> cv_rsr_integral (cl_conv c) = Fin I -> cl_solar_flux c = Fin flux ->
  reflectance_from_tbs E c sun nir therm co2 lut st = (st', Ok r) -> one_image s sun nir therm co2 lut -> floats nir therm ->
  forall k z tn L T F, (k < size s)%nat -> pixel E c sun nir therm co2 lut k z tn L T F ->
  (z < 0 \/ 85 < z -> pix k r = Some NaN) /\
  (0 <= z <= 85 -> exists v, pix k r = Some v /\
     (v = NaN <-> tn = NaN \/ flux * cos (z * PI / 180) / PI - T * I * F < 5 / 1000)).
Proof. exact default_night. Qed.
Print Assumptions C17_default_limits.

Example C17_default_case : exists c I flux, Calculator_defaults sun_E "NOAA-19" "avhrr-3" (BStr "3b"%string) nir_w0 = (nir_w1, Ok c) /\
  cv_rsr_integral (cl_conv c) = Fin I /\ cl_solar_flux c = Fin flux /\
  forall st, exists st' r, reflectance_from_tbs sun_E c nir_sun nir_tb nir_therm None (Some (Some nir_lut)) st = (st', Ok r) /\
    pix 2 r = Some NaN.
Proof. exact default_case. Qed.

(** C18 *)
Theorem C18_energy_closure : forall (E : nir_env XRN) c s sun nir therm co2 lut st st' r I flux thr lim,
  reflectance_from_tbs E c sun nir therm co2 lut st = (st', Ok r) -> one_image s sun nir therm co2 lut -> floats nir therm ->
  settings c I flux thr lim ->
  forall k z tn L T F, (k < size s)%nat -> pixel E c sun nir therm co2 lut k z tn L T F ->
  forall v, pix k r = Some (Fin v) ->
  L * I = v * solar_term flux thr z + (1 - v) * (T * I * F).
Proof. intros E c s sun nir therm co2 lut st st' r I flux thr lim H Him Hf Hs k z tn L T F Hk Hp v. exact (closure E c s sun nir therm co2 lut st st' r I flux thr lim k z tn L T F v H Him Hf Hs Hk Hp). Qed.
Print Assumptions C18_energy_closure.

(** measured 0.45, thermal 0.15, solar 1: the reflectance is 0.3/0.85 *)
Example C18_case : forall t st, exists st' r x,
  reflectance_from_tbs nir_E (nir_calc (2 * PI) (Some 88) t) nir_sun nir_tb nir_therm None (Some (Some nir_lut)) st = (st', Ok r) /\
  pix 0 r = Some (Fin x) /\ x = 30 / 85.
Proof.
  intros t st. destruct (C17_case t st) as (st' & r & x & H & P & _). exists st', r, x. split; [exact H|]. split; [exact P|].
  pose proof (C18_energy_closure _ _ _ _ _ _ _ _ _ _ _ _ _ _ _ H nir_image nir_floats (nir_settings _ _ _)
     0%nat 60 _ _ _ 1 ltac:(cbn; lia) (nir_pixel (2 * PI) (Some 88) t 0 _ _ _ _ eq_refl) x P) as C.
  rewrite nir_sun60 in C. pose proof PI_RGT_0. replace (2 * PI / 2 / PI) with 1 in C by (field; lra). lra.
Qed.

(** C19 *)
Theorem C19_range : forall (E : nir_env XRN) c s sun nir therm co2 lut st st' r I flux thr lim,
  reflectance_from_tbs E c sun nir therm co2 lut st = (st', Ok r) -> one_image s sun nir therm co2 lut -> floats nir therm ->
  settings c I flux thr lim ->
  forall k z tn L T F, (k < size s)%nat -> pixel E c sun nir therm co2 lut k z tn L T F ->
  forall v, pix k r = Some (Fin v) ->
  (0 <= v <-> T * I * F <= L * I) /\ (v <= 1 <-> L * I <= solar_term flux thr z).
Proof. intros E c s sun nir therm co2 lut st st' r I flux thr lim H Him Hf Hs k z tn L T F Hk Hp v. exact (range E c s sun nir therm co2 lut st st' r I flux thr lim k z tn L T F v H Him Hf Hs Hk Hp). Qed.
Print Assumptions C19_range.

(** Without table: a 3.x um temperature below the thermal one always gives a negative reflectance, if any. *)
Theorem C19_negative_when_colder : forall (E : nir_env XRN) c n sun nir therm st st' r I flux thr lim k z tn tt L T v ws rs,
  reflectance_from_tbs E c sun nir therm None (Some None) st = (st', Ok r) -> one_image [n] sun nir therm None (Some None) -> floats nir therm ->
  settings c I flux thr lim -> 0 < I -> cv_waves (cl_conv c) = map Fin ws -> cv_response (cl_conv c) = map Fin rs -> good_curve ws rs ->
  (k < n)%nat -> pixel E c sun nir therm None (Some None) k z (Fin tn) L T 1 -> pix k (get_as_array therm) = Some (Fin tt) ->
  T_cut < tn -> tn < tt -> pix k r = Some (Fin v) -> v < 0.
Proof. exact negative_when_colder. Qed.
Print Assumptions C19_negative_when_colder.

(** The documented promise "should be between 0 and 1" does not hold: values
    below 0 and above 1 occur. *)
Theorem C19_between_0_and_1_refuted : exists (E : nir_env XRN) c s sun nir therm lut st st' r v c' st1' r' v',
  reflectance_from_tbs E c sun nir therm None lut st = (st', Ok r) /\ one_image s sun nir therm None lut /\
  pix 3 r = Some (Fin v) /\ v < 0 /\
  reflectance_from_tbs E c' sun nir therm None lut st = (st1', Ok r') /\ pix 0 r' = Some (Fin v') /\ 1 < v'.
Proof. exact outside_0_1. Qed.
Print Assumptions C19_between_0_and_1_refuted.

(** C20: two calls, the same sun *)
Theorem C20_monotone : forall (E : nir_env XRN) c s s' sun nir therm co2 lut st st1 r sun' nir' therm' co2' lut' st' st1' r' I flux thr lim k k' z tn tn' L L' T T' F F' v v',
  reflectance_from_tbs E c sun nir therm co2 lut st = (st1, Ok r) -> one_image s sun nir therm co2 lut -> floats nir therm ->
  reflectance_from_tbs E c sun' nir' therm' co2' lut' st' = (st1', Ok r') -> one_image s' sun' nir' therm' co2' lut' -> floats nir' therm' ->
  settings c I flux thr lim -> 0 < I -> (k < size s)%nat -> (k' < size s')%nat ->
  pixel E c sun nir therm co2 lut k z tn L T F -> pixel E c sun' nir' therm' co2' lut' k' z tn' L' T' F' ->
  pix k r = Some (Fin v) -> pix k' r' = Some (Fin v') ->
  (T * F = T' * F' -> L < L' -> v < v') /\
  (L = L' -> T * F <= T' * F' -> L * I <= solar_term flux thr z -> v' <= v).
Proof. exact monotone. Qed.
Print Assumptions C20_monotone.

(** two pairs of pixels: 0 and 1 differ in the measured radiance, 1 and 2 in the thermal one *)
Example C20_case : forall t st, exists st' r x y z,
  reflectance_from_tbs nir_E (nir_calc (2 * PI) (Some 88) t) (image [Fin 60; Fin 60; Fin 60]) (image [Fin (1502 / 10); Fin 150; Fin 150])
     (image [Fin 150; Fin 150; Fin (1501 / 10)]) None (Some (Some nir_lut)) st = (st', Ok r) /\
  pix 0 r = Some (Fin x) /\ pix 1 r = Some (Fin y) /\ pix 2 r = Some (Fin z) /\ y < x /\ z <= y.
Proof.
  intros t st.
  assert (Fb : Forall2 nir_val [Fin (1502 / 10); Fin 150; Fin 150] [3000000; 1000000; 1000000]) by repeat constructor.
  assert (Fc : Forall2 nir_val [Fin 150; Fin 150; Fin (1501 / 10)] [1000000; 1000000; 2000000]) by repeat constructor.
  destruct (nir_calls (2 * PI) (Some 88) t st 3 [Fin 60; Fin 60; Fin 60] [Fin (1502 / 10); Fin 150; Fin 150] [Fin 150; Fin 150; Fin (1501 / 10)] None _ _ ltac:(lia) eq_refl eq_refl eq_refl ltac:(discriminate) Fb Fc) as (st' & r & H).
  cbn [option_map] in H.
  assert (Im : one_image [3%nat] (image [Fin 60; Fin 60; Fin 60]) (image [Fin (1502 / 10); Fin 150; Fin 150])
     (image [Fin 150; Fin 150; Fin (1501 / 10)]) None (Some (Some nir_lut))) by now apply (nir_oneimage 3 _ _ _ None).
  pose proof (fun k z tn L T => nir_pixels (2 * PI) (Some 88) t 3 [Fin 60; Fin 60; Fin 60] [Fin (1502 / 10); Fin 150; Fin 150] [Fin 150; Fin 150; Fin (1501 / 10)] _ _ k z tn L T ltac:(lia) eq_refl eq_refl eq_refl Fb Fc) as Px.
  pose proof (Px 0%nat 60 _ _ _ eq_refl eq_refl eq_refl eq_refl) as P0. pose proof (Px 1%nat 60 _ _ _ eq_refl eq_refl eq_refl eq_refl) as P1.
  pose proof (Px 2%nat 60 _ _ _ eq_refl eq_refl eq_refl eq_refl) as P2.
  pose proof (C17_masked_exactly _ _ _ _ _ _ _ _ _ _ _ _ _ _ _ H Im (nir_fl _ _) (nir_settings _ _ _)) as C.
  destruct (C 0%nat _ _ _ _ _ ltac:(cbn; lia) P0) as (v0 & Q0 & _ & F0). destruct F0 as [x ->]; [rewrite nir_one; cbn; intros [A|[A|A]]; [discriminate|lra|lra]|].
  destruct (C 1%nat _ _ _ _ _ ltac:(cbn; lia) P1) as (v1 & Q1 & _ & F1). destruct F1 as [y ->]; [rewrite nir_one; cbn; intros [A|[A|A]]; [discriminate|lra|lra]|].
  destruct (C 2%nat _ _ _ _ _ ltac:(cbn; lia) P2) as (v2 & Q2 & _ & F2). destruct F2 as [z ->]; [rewrite nir_one; cbn; intros [A|[A|A]]; [discriminate|lra|lra]|].
  exists st', r, x, y, z. repeat (split; [assumption|]). split.
  - eapply (C20_monotone _ _ _ _ _ _ _ _ _ _ _ _ _ _ _ _ _ _ _ _ _ _ _ _ 1%nat 0%nat _ _ _ _ _ _ _ _ _ _ _ H Im (nir_fl _ _) H Im (nir_fl _ _) (nir_settings _ _ _)
       ltac:(lra) ltac:(cbn; lia) ltac:(cbn; lia) P1 P0 Q1 Q0); lra.
  - eapply (C20_monotone _ _ _ _ _ _ _ _ _ _ _ _ _ _ _ _ _ _ _ _ _ _ _ _ 1%nat 2%nat _ _ _ _ _ _ _ _ _ _ _ H Im (nir_fl _ _) H Im (nir_fl _ _) (nir_settings _ _ _)
       ltac:(lra) ltac:(cbn; lia) ltac:(cbn; lia) P1 P2 Q1 Q2); rewrite ?nir_one; lra.
Qed.

(** C21.  [ns_solar] is the attribute _solar_radiance after the call. *)
Theorem C21_solar_radiance : forall (E : nir_env XRN) c s sun nir therm co2 lut st st' r I flux thr lim k z tn L T F,
  reflectance_from_tbs E c sun nir therm co2 lut st = (st', Ok r) -> one_image s sun nir therm co2 lut -> floats nir therm ->
  settings c I flux (Some thr) lim -> 0 <= flux -> 0 <= thr <= 90 -> (k < size s)%nat -> pixel E c sun nir therm co2 lut k z tn L T F ->
  exists a S, ns_solar st' = Some a /\ pix k a = Some (Fin S) /\ 0 <= S <= flux / PI /\
    (0 <= z <= thr -> S = flux * cos (z * PI / 180) / PI) /\
    (z <= 0 -> S = flux / PI) /\
    (thr <= z -> S = flux * cos (thr * PI / 180) / PI) /\
    (lim = None -> tn <> NaN -> 5 / 1000 <= S - T * I * F -> exists v, pix k r = Some (Fin v)).
Proof. exact sun_clipping. Qed.
Print Assumptions C21_solar_radiance.

Theorem C21_decreasing_in_zenith : forall (E : nir_env XRN) c s s' sun nir therm co2 lut st st1 r sun' nir' therm' co2' lut' st' st1' r' I flux thr lim k k' z z' tn tn' L L' T T' F F',
  reflectance_from_tbs E c sun nir therm co2 lut st = (st1, Ok r) -> one_image s sun nir therm co2 lut -> floats nir therm ->
  reflectance_from_tbs E c sun' nir' therm' co2' lut' st' = (st1', Ok r') -> one_image s' sun' nir' therm' co2' lut' -> floats nir' therm' ->
  settings c I flux (Some thr) lim -> 0 <= flux -> 0 <= thr <= 90 -> (k < size s)%nat -> (k' < size s')%nat ->
  pixel E c sun nir therm co2 lut k z tn L T F -> pixel E c sun' nir' therm' co2' lut' k' z' tn' L' T' F' -> z <= z' ->
  exists a a' S S', ns_solar st1 = Some a /\ pix k a = Some (Fin S) /\ ns_solar st1' = Some a' /\ pix k' a' = Some (Fin S') /\ S' <= S.
Proof. exact sun_decreasing. Qed.
Print Assumptions C21_decreasing_in_zenith.

(** pixel 2: the sun at -10 degrees counts as overhead and is not masked *)
Example C21_case : forall t st, exists st' r a x,
  reflectance_from_tbs nir_E (nir_calc (2 * PI) None t) nir_sun nir_tb nir_therm None (Some (Some nir_lut)) st = (st', Ok r) /\
  ns_solar st' = Some a /\ pix 2 a = Some (Fin (2 * PI / PI)) /\ pix 2 r = Some (Fin x).
Proof.
  intros t st. destruct (nir_call (2 * PI) None t st) as (st' & r & H). pose proof PI_RGT_0 as HPI.
  destruct (C21_solar_radiance _ _ _ _ _ _ _ _ _ _ _ _ _ _ _ 2%nat _ _ _ _ _ H nir_image nir_floats (nir_settings _ _ _) ltac:(lra) ltac:(lra) ltac:(cbn; lia)
     (nir_pixel (2 * PI) None t 2 _ _ _ _ eq_refl)) as (a & S & A & B & _ & _ & Z & _ & M).
  rewrite Z in * by lra. destruct (M eq_refl ltac:(discriminate)) as [x X]; [|eauto 9].
  replace (2 * PI / PI) with 2 by (field; lra). lra.
Qed.

(** C22 *)
Theorem C22_correction : forall (s : nirstate XRN) sh bt11 bt13 method k t11 t13,
  fits sh bt11 -> fits sh bt13 -> (k < size sh)%nat -> pix k bt11 = Some (Fin t11) -> pix k bt13 = Some (Fin t13) -> 0 < t13 -> t13 <= t11 ->
  let (s', o) := m_derive_rad39_corr bt11 bt13 method s in
  (method = "rosenfeld"%string -> o = Ok tt /\ exists F, pix k (ns_correction s') = Some (Fin F) /\ F = rosenfeld t11 t13 /\
      (3 / 4) ^ 4 < F <= 1 /\ (F = 1 <-> t13 = t11)) /\
  (method <> "rosenfeld"%string -> s' = s /\ o = Err AttributeError).
Proof. exact correction_method. Qed.
Print Assumptions C22_correction.

Theorem C22_increasing : forall t11 t13 t13',
  0 < t11 -> 0 < t13 -> t13 < t13' -> rosenfeld t11 t13 < rosenfeld t11 t13'.
Proof. exact rosenfeld_incr. Qed.
Print Assumptions C22_increasing.

Theorem C22_factor_used : forall (E : nir_env XRN) c s sun nir therm co2 lut st st' r I flux thr lim k z tn L T F,
  reflectance_from_tbs E c sun nir therm co2 lut st = (st', Ok r) -> one_image s sun nir therm co2 lut -> floats nir therm ->
  settings c I flux thr lim -> (k < size s)%nat -> pixel E c sun nir therm co2 lut k z tn L T F ->
  pix k (ns_correction st') = Some (Fin F) /\ (co2 = None -> F = 1) /\
  (forall a t11 t13, co2 = Some a -> pix k (get_as_array therm) = Some (Fin t11) -> pix k (get_as_array a) = Some (Fin t13) -> F = rosenfeld t11 t13).
Proof. exact factor_used. Qed.
Print Assumptions C22_factor_used.

Example C22_case : forall s,
  (exists s' F, m_derive_rad39_corr (get_as_array (image [Fin 300; Fin 300])) (get_as_array (image [Fin 280; Fin 300])) "rosenfeld" s = (s', Ok tt) /\
     pix 0 (ns_correction s') = Some (Fin F) /\ F < 1 /\ pix 1 (ns_correction s') = Some (Fin 1)) /\
  m_derive_rad39_corr (get_as_array (image [Fin 300; Fin 300])) (get_as_array (image [Fin 280; Fin 300])) "other" s = (s, Err AttributeError).
Proof.
  intros s. split; [|reflexivity].
  assert (Im : forall a b, @fits XRN [2%nat] (get_as_array (image [a; b]))) by (intros; left; split; reflexivity).
  pose proof (C22_correction s [2%nat] _ _ "rosenfeld" 0 300 280 (Im (Fin 300) (Fin 300)) (Im (Fin 280) (Fin 300)) ltac:(cbn; lia) eq_refl eq_refl ltac:(lra) ltac:(lra)) as A.
  pose proof (C22_correction s [2%nat] _ _ "rosenfeld" 1 300 300 (Im (Fin 300) (Fin 300)) (Im (Fin 280) (Fin 300)) ltac:(cbn; lia) eq_refl eq_refl ltac:(lra) ltac:(lra)) as B.
  destruct (m_derive_rad39_corr _ _ _ _) as [s' o]. destruct A as [A _], B as [B _].
  destruct (A eq_refl) as (-> & F & P & _ & R & I). destruct (B eq_refl) as (_ & F1 & P1 & _ & _ & I1).
  exists s', F. split; [reflexivity|]. split; [exact P|]. split; [|now rewrite P1, (proj2 I1 eq_refl)].
  destruct (Req_dec F 1) as [E|E]; [apply I in E|]; lra.
Qed.

(** C23, over any numbers *)
Theorem C23_history_free : forall (N : Num) (E : nir_env N) c ks sun nir therm co2 lut,
  let (s1, o1) := reflectance_from_tbs E c sun nir therm co2 lut (run_calls E c ks fresh_state) in
    let (s2, o2) := reflectance_from_tbs E c sun nir therm co2 lut fresh_state in
    o1 = o2 /\
    (is_ok o1 = true -> ns_solar s1 = ns_solar s2 /\ ns_correction s1 = ns_correction s2 /\
       forall tb, snd (emissive_part_3x c tb s1) = snd (emissive_part_3x c tb s2)).
Proof. exact @history_free. Qed.
Print Assumptions C23_history_free.

Example C23_case : forall t, exists s1 s2 r,
  reflectance_from_tbs nir_E (nir_calc (2 * PI) None t) nir_sun nir_tb nir_therm None (Some (Some nir_lut))
    (run_calls nir_E (nir_calc (2 * PI) None t)
       [CallReflectance nir_sun nir_tb nir_therm (Some nir_therm) (Some (Some nir_lut)); CallEmissive true;
        CallReflectance nir_sun nir_tb nir_therm (Some nir_co2_bad) (Some (Some nir_lut));
        CallCorrection (get_as_array nir_therm) (get_as_array nir_tb) "rosenfeld"] fresh_state) = (s1, Ok r) /\
  reflectance_from_tbs nir_E (nir_calc (2 * PI) None t) nir_sun nir_tb nir_therm None (Some (Some nir_lut)) fresh_state = (s2, Ok r).
Proof.
  intros t. destruct (nir_call (2 * PI) None t fresh_state) as (s2 & r & H2).
  match goal with |- exists s1 s2 r, reflectance_from_tbs _ _ _ _ _ _ _ (run_calls _ _ ?ks _) = _ /\ _ =>
    pose proof (C23_history_free _ nir_E (nir_calc (2 * PI) None t) ks nir_sun nir_tb nir_therm None (Some (Some nir_lut))) as C;
    destruct (nir_call (2 * PI) None t (run_calls nir_E (nir_calc (2 * PI) None t) ks fresh_state)) as (s1 & r1 & H1) end.
  rewrite H1, H2 in C. destruct C as [C _]. injection C as <-. eauto.
Qed.

(** C24.  With [tb] the radiances are converted to temperatures. *)
Theorem C24_after_a_call : forall (E : nir_env XRN) c s sun nir therm co2 lut st st' r I flux thr lim,
  reflectance_from_tbs E c sun nir therm co2 lut st = (st', Ok r) -> one_image s sun nir therm co2 lut -> floats nir therm ->
  settings c I flux thr lim -> forall tb,
  exists a, snd (emissive_part_3x c tb st') =
      (if tb then q <- converter_radiance2tb (cl_conv c) (NpArray (a_data a)) ;; Ok (Some (arg_values q)) else Ok (Some (a_data a))) /\
    forall k z tn L T F, (k < size s)%nat -> pixel E c sun nir therm co2 lut k z tn L T F ->
      (pix k r = Some NaN -> pix k a = Some (Fin L)) /\ (forall x, pix k r = Some (Fin x) -> pix k a = Some (Fin (T * (1 - x)))).
Proof. exact emissive_after. Qed.
Print Assumptions C24_after_a_call.

Theorem C24_without_a_call : forall (N : Num) (E : nir_env N) c ks,
  forallb no_reflectance ks = true ->
    let s := run_calls E c ks fresh_state in
    emissive_part_3x c false s = (s, Ok None) /\
    forall b d cw, band_entry (cv_rsr (cl_conv c)) (cv_bandname (cl_conv c)) = Ok b -> dget (cv_detector (cl_conv c)) b = Some d ->
      get_num "central_wavelength"%string d = Ok cw -> emissive_part_3x c true s = (s, Err AttributeError).
Proof. exact @emissive_without. Qed.
Print Assumptions C24_without_a_call.

(** A failed call: the new radiances meet the old reflectance. *)
Theorem C24_mixed_after_failure : forall (E : nir_env XRN) c s sun nir therm co2 lut st st' e r_old,
  reflectance_from_tbs E c sun nir therm co2 lut st = (st', Err e) ->
  rsr_data (cv_rsr (cl_conv c)) <> [] -> is_image s (get_as_array nir) -> is_image s (get_as_array therm) ->
  (lut = Some None -> exists n, s = [n]) -> ns_r3x st = Some r_old -> fits s r_old ->
  forall rad11 rad3x, tb2rad E (cl_conv c) (get_as_array therm) (table_of c lut) = Ok rad11 ->
  tb2rad E (cl_conv c) (get_as_array nir) (table_of c lut) = Ok rad3x ->
  exists a, snd (emissive_part_3x c false st') = Ok (Some (a_data a)) /\
    forall k L T v, (k < size s)%nat -> pix k rad3x = Some (Fin L) -> pix k rad11 = Some (Fin T) -> pix k r_old = Some v ->
      (v = NaN -> pix k a = Some (Fin L)) /\ (forall x, v = Fin x -> pix k a = Some (Fin (T * (1 - x)))).
Proof. exact emissive_mixed. Qed.
Print Assumptions C24_mixed_after_failure.

Example C24_case : forall t,
  snd (emissive_part_3x (nir_calc (2 * PI) None t) true fresh_state) = Err AttributeError /\
  exists s1 r x a s2 b,
  reflectance_from_tbs nir_E (nir_calc (2 * PI) None t) nir_sun nir_tb nir_therm None (Some (Some nir_lut)) fresh_state = (s1, Ok r) /\
  pix 0 r = Some (Fin x) /\
  snd (emissive_part_3x (nir_calc (2 * PI) None t) false s1) = Ok (Some (a_data a)) /\
  pix 0 a = Some (Fin (1000000 * (1 - x))) /\ pix 1 a = Some (Fin 1000000) /\
  reflectance_from_tbs nir_E (nir_calc (2 * PI) None t) nir_sun nir_tb nir_therm (Some nir_co2_bad) (Some (Some nir_lut)) s1 = (s2, Err ValueError) /\
  snd (emissive_part_3x (nir_calc (2 * PI) None t) false s2) = Ok (Some (a_data b)) /\ pix 0 b = Some (Fin (1000000 * (1 - x))).
Proof.
  intros t. split.
  { destruct (C24_without_a_call _ nir_E (nir_calc (2 * PI) None t) [] eq_refl) as [_ C].
    cbn [run_calls fold_left] in C. erewrite C; reflexivity. }
  destruct (nir_call (2 * PI) None t fresh_state) as (s1 & r & H). pose proof PI_RGT_0 as HPI.
  pose proof (C17_masked_exactly _ _ _ _ _ _ _ _ _ _ _ _ _ _ _ H nir_image nir_floats (nir_settings _ _ _)) as M.
  pose proof (nir_pixel (2 * PI) None t 0 _ _ _ _ eq_refl) as P0. pose proof (nir_pixel (2 * PI) None t 1 _ _ _ _ eq_refl) as P1.
  destruct (M 0%nat _ _ _ _ 1 ltac:(cbn; lia) P0) as (v0 & Q0 & _ & F0).
  destruct (M 1%nat _ _ _ _ 1 ltac:(cbn; lia) P1) as (v1 & Q1 & N1 & _).
  destruct F0 as [x ->]; [rewrite nir_one; cbn; intros [A|[A|A]]; [discriminate|lra|lra]|].
  rewrite (proj2 N1 (or_introl eq_refl)) in Q1.
  destruct (C24_after_a_call _ _ _ _ _ _ _ _ _ _ _ _ _ _ _ H nir_image nir_floats (nir_settings _ _ _) false) as (a & A & PA).
  destruct (nir_fail (2 * PI) None t s1) as [s2 H2].
  assert (Ir : fits [4%nat] r) by (destruct (nir_result _ _ _ _ _ _ _ _ _ _ _ _ _ _ _ H nir_image nir_floats (nir_settings _ _ _)) as [I _]; exact I).
  destruct (refl_sets _ _ _ _ _ _ _ _ _ _ H) as (r1 & r2 & R & _ & _).
  destruct (C24_mixed_after_failure _ _ [4%nat] _ _ _ _ _ _ _ _ _ H2 ltac:(discriminate) ltac:(split; reflexivity) ltac:(split; reflexivity) ltac:(discriminate)
     R Ir _ _ (nir_rads [Fin 150; Fin 150; Fin 150; Fin (1501 / 10)] _ ltac:(cbn; lia) nir_therm_val) (nir_rads [Fin (1502 / 10); NaN; Fin (1502 / 10); Fin 150] _ ltac:(cbn; lia) nir_tb_val)) as (b & B & PB).
  exists s1, r, x, a, s2, b. split; [exact H|]. split; [exact Q0|]. split; [exact A|].
  destruct (PA 0%nat _ _ _ _ 1 ltac:(cbn; lia) P0) as [_ A0]. destruct (PA 1%nat _ _ _ _ 1 ltac:(cbn; lia) P1) as [A1 _].
  split; [exact (A0 x Q0)|]. split; [exact (A1 Q1)|]. split; [exact H2|]. split; [exact B|].
  destruct (PB 0%nat 3000000 1000000 (Fin x) ltac:(cbn; lia) eq_refl eq_refl Q0) as [_ B0]. exact (B0 x eq_refl).
Qed.

(** C25.  [asks_for]: what the configuration names; [cache_file]: the resulting path. *)
Theorem C25_file_name : forall (N : Num) (E : nir_env N) platform instrument band w w1 options ask dir,
  get_config (nx_ext E) None w = (w1, Ok options) -> asks_for options platform instrument band ask ->
    table_dir options (nx_tempdir E) dir ->
    exists f, set_lutfile E platform instrument band w = (w1, Ok f) /\ cache_file w1 dir platform instrument band ask f.
Proof. exact @set_lutfile_spec. Qed.
Print Assumptions C25_file_name.

Theorem C25_calculator : forall (N : Num) (E : nir_env N) q w w' c w1 options ask dir,
  build E q w = (w', Ok c) -> get_config (nx_ext E) None w = (w1, Ok options) ->
    asks_for options (rq_platform q) (rq_instrument q) (cl_bandname c) ask -> table_dir options (nx_tempdir E) dir ->
    cache_file w1 dir (rq_platform q) (rq_instrument q) (cl_bandname c) ask (cl_lutfile c).
Proof. exact @cache_of_calculator. Qed.
Print Assumptions C25_calculator.

(** the default name; a name with two slashes; a per-band name in a missing directory *)
Example C25_case : forall flux lim t, make_tb2rad_lut nir_conv true = Ok t ->
  build nir_E (nir_request flux lim) nir_w0 = (nir_w1, Ok (nir_calc flux lim t)) /\
  cache_file nir_w0 "/lut" "NOAA-19" "avhrr-3" "ch3b" None nir_path /\
  (exists f, set_lutfile named_E "NOAA-19" "avhrr-3" "ch3b" nir_w0 = (nir_w0, Ok f) /\
             cache_file nir_w0 "/lut" "NOAA-19" "avhrr-3" "ch3b" (Some "/lut//avhrr.npz"%string) f /\ f = "/lut//avhrr.npz"%string) /\
  (exists f, set_lutfile named_E "NOAA-18" "avhrr-3" "Ch3B" nir_w0 = (nir_w0, Ok f) /\
             cache_file nir_w0 "/lut" "NOAA-18" "avhrr-3" "Ch3B" (Some "/nowhere/mine"%string) f /\ f = "/lut/mine.npz"%string).
Proof.
  intros flux lim t Ht. split; [apply nir_build; auto|]. split; [|split].
  - refine (C25_calculator _ nir_E (nir_request flux lim) nir_w0 nir_w1 (nir_calc flux lim t) nir_w0 _ None "/lut" _ _ _ _).
    + apply nir_build; auto.
    + vm_compute. reflexivity.
    + apply ask_no_section. reflexivity.
    + right. split; reflexivity.
  - destruct (C25_file_name _ named_E "NOAA-19" "avhrr-3" "ch3b" nir_w0 nir_w0 _ (Some "/lut//avhrr.npz"%string) "/lut" eq_refl) as (f & H & C).
    + eapply ask_name; [reflexivity|reflexivity|discriminate].
    + left. reflexivity.
    + exists f. split; [exact H|]. split; [exact C|]. vm_compute in H. congruence.
  - destruct (C25_file_name _ named_E "NOAA-18" "avhrr-3" "Ch3B" nir_w0 nir_w0 _ (Some "/nowhere/mine"%string) "/lut" eq_refl) as (f & H & C).
    + eapply ask_band with (before := [("ch3a"%string, Leaf (LStr "x"))]) (k := "ch3b"%string); [reflexivity|reflexivity|now right| |discriminate].
      intros k v [[= <- <-]|[]]. split; discriminate.
    + left. reflexivity.
    + exists f. split; [exact H|]. split; [exact C|]. vm_compute in H. congruence.
Qed.

(** C26.  If all calls that write this file generate the same table, each calculator has its own table. *)
Theorem C26_own_table : forall (N : Num) (E : nir_env N) P t qs q w w1 w2 c,
  history E qs w w1 -> build E q w1 = (w2, Ok c) -> cl_lutfile c = P ->
    (forall q' t', In q' (qs ++ [q])%list -> generates E q' P t' -> t' = t) ->
    (forall s, dget P (w_files w) = Some s -> s = nx_enc E t) -> nx_dec E (nx_enc E t) = Ok t ->
    cl_lut c = t /\ forall t', make_tb2rad_lut (cl_conv c) true = Ok t' -> cl_lut c = t'.
Proof. exact @own_table. Qed.
Print Assumptions C26_own_table.

(** Calculators that share a file have the table of the first. *)
Theorem C26_first_come : forall (N : Num) (E : nir_env N) q1 q2 qs w w1 w2 w3 c1 c2,
  build E q1 w = (w1, Ok c1) -> history E qs w1 w2 ->
    build E q2 w2 = (w3, Ok c2) -> cl_lutfile c2 = cl_lutfile c1 -> cl_lutfile c1 <> ".npz"%string -> cl_lutfile c1 <> ""%string ->
    cl_lut c2 = cl_lut c1.
Proof. exact @first_come. Qed.
Print Assumptions C26_first_come.

(** A crash while the table is written: the partial file stays; a later calculator is only built if it can be decoded. *)
Theorem C26_after_crash : forall (N : Num) (E : nir_env N) q P l w w',
  crashed E q P l w w' -> l <> [] -> P <> ".npz"%string -> P <> ""%string ->
    exists t s, generates E q P t /\ String.prefix s (nx_enc E t) = true /\ dget P (w_files w') = Some s /\
    forall qs w2, history E qs w' w2 -> dget P (w_files w2) = Some s /\
      forall q' w3 o c, build E q' w2 = (w3, o) -> o = Ok c -> cl_lutfile c = P -> nx_dec E s = Ok (cl_lut c).
Proof. exact @after_crash. Qed.
Print Assumptions C26_after_crash.

(** two runs for the same detector; then the dead detector, which silently gets
    the table of the first although its own would be all NaN *)
Example C26_case : exists t td c1 c2 c3 w2 w3,
  build nir_E (nir_request 10 None) nir_w0 = (nir_w1, Ok c1) /\ build nir_E (nir_request 10 None) nir_w1 = (w2, Ok c2) /\ cl_lut c2 = t /\
  build nir_E dead_request w2 = (w3, Ok c3) /\ cl_lut c3 = cl_lut c1 /\ make_tb2rad_lut (cl_conv c3) true = Ok td /\ cl_lut c3 <> td.
Proof.
  destruct nir_table as (t & Ht & x & Hx). destruct dead_table as (td & Htd & Hd).
  pose proof (nir_build 10 None nir_w0 t Ht (or_introl eq_refl)) as B1. pose proof (nir_build 10 None nir_w1 t Ht (or_intror eq_refl)) as B2.
  pose proof (dead_build t Ht) as B3.
  exists t, td, (nir_calc 10 None t), (nir_calc 10 None t), (dead_calc t), nir_w1, nir_w1.
  split; [exact B1|]. split; [exact B2|]. split.
  { refine (proj1 (C26_own_table _ nir_E nir_path t [nir_request 10 None] (nir_request 10 None) nir_w0 nir_w1 nir_w1 (nir_calc 10 None t) _ _ _ _ _ _)).
    - econstructor; [exact B1|constructor].
    - exact B2.
    - reflexivity.
    - intros q' t' Hq (c & nb & w & w1 & f & Hc & _ & _ & _ & Ht').
      assert (q' = nir_request 10 None) as -> by (destruct Hq as [<-|[<-|[]]]; reflexivity).
      assert (Ok c = Ok nir_conv) as [= ->] by (rewrite <- Hc; exact nir_conv_ok).
      assert (Ok t' = Ok t) as [= ->] by (rewrite <- Ht'; exact Ht). reflexivity.
    - intros s Hs. vm_compute in Hs. discriminate.
    - cbn [nir_E nx_enc nx_dec]. rewrite String.eqb_refl. exact Ht. }
  split; [exact B3|]. split.
  { apply (C26_first_come _ nir_E (nir_request 10 None) dead_request [nir_request 10 None] nir_w0 nir_w1 nir_w1 nir_w1 (nir_calc 10 None t) (dead_calc t));
      [exact B1|econstructor; [exact B2|constructor]|exact B3|reflexivity|discriminate|discriminate]. }
  split; [exact Htd|]. cbn [cl_lut dead_calc]. intros ->. rewrite Hx in Hd. discriminate.
Qed.
(** crash right after the file was created: no calculator using that file can be
    built any more *)
Example C26_crash_case : exists w', crashed nir_E (nir_request 10 None) nir_path [ECreate nir_path] nir_w0 w' /\
  forall qs w2 q' w3 c, history nir_E qs w' w2 -> build nir_E q' w2 = (w3, Ok c) -> cl_lutfile c <> nir_path.
Proof.
  destruct nir_table as (t & Ht & _).
  assert (C : crashed nir_E (nir_request 10 None) nir_path [ECreate nir_path] nir_w0 (run_evs [ECreate nir_path] nir_w0)).
  { exists nir_conv, ("ch3b"%string, Fin (37 / 10)), nir_w0, t. split; [exact nir_conv_ok|]. split; [exact nir_band_ok|].
    split; [apply nir_lutfile; auto|]. split; [reflexivity|]. split; [exact Ht|]. split; [reflexivity|]. split; [|reflexivity].
    cbn. repeat constructor. }
  exists (run_evs [ECreate nir_path] nir_w0). split; [exact C|].
  destruct (C26_after_crash _ _ _ _ _ _ _ C ltac:(discriminate) ltac:(discriminate) ltac:(discriminate)) as (t' & s & _ & _ & S & K).
  assert (s = ""%string) as -> by (vm_compute in S; congruence).
  intros qs w2 q' w3 c Hh Hb Hp. destruct (K qs w2 Hh) as [_ K2]. pose proof (K2 q' w3 _ c Hb eq_refl Hp) as D. discriminate.
Qed.

(** C27 *)
Theorem C27_accepted_band : forall (E : nir_env XRN) q w w' c,
  build E q w = (w', Ok c) ->
  in_band (cl_bandwavelength c) /\
  match rq_band q with
  | BNumber x => cl_bandwavelength c = x
  | BStr s => exists b d, rsr_getitem (cv_rsr (cl_conv c)) (cl_bandname c) = Ok b /\ dget "det-1"%string b = Some d /\
                          get_num "central_wavelength"%string d = Ok (cl_bandwavelength c)
  | BOther => False
  end.
Proof. exact accepted_band. Qed.
Print Assumptions C27_accepted_band.

(** [w] unchanged: no cache file is written *)
Theorem C27_refused_band : forall (E : nir_env XRN) q cv w,
  RadTbConverter (nx_load E) (rq_platform q) (rq_instrument q) (rq_band q) (rq_detector q) (rq_wavespace q) (Fin (1 / 10)) = Ok cv ->
  match rq_band q with
  | BNumber x => ~ in_band x
  | BStr s => exists b d x, rsr_getitem (cv_rsr cv) (translate_band (rq_instrument q) s) = Ok b /\ dget "det-1"%string b = Some d /\
                            get_num "central_wavelength"%string d = Ok x /\ ~ in_band x
  | BOther => False
  end ->
  build E q w = (w, Err NotImplementedError).
Proof. exact refused_band. Qed.
Print Assumptions C27_refused_band.

Theorem C27_shape_mismatch : forall (N : Num) (E : nir_env N) c sun nir therm co2 lut st,
  rsr_data (cv_rsr (cl_conv c)) <> [] ->
    a_shape (get_as_array therm) <> a_shape (get_as_array nir) ->
    reflectance_from_tbs E c sun nir therm co2 lut st = (st, Err ValueError).
Proof. exact @shape_mismatch. Qed.
Print Assumptions C27_shape_mismatch.

(** A sun zenith or CO2 array that numpy cannot combine with the image: the
    reflectance of the last call stays. *)
Theorem C27_sun_shape : forall (N : Num) (E : nir_env N) c s sun nir therm co2 lut st rad11 rad3x, rsr_data (cv_rsr (cl_conv c)) <> [] ->
  is_image s (get_as_array nir) -> is_image s (get_as_array therm) -> (forall a, co2 = Some a -> fits s (get_as_array a)) ->
  (lut = Some None -> exists n, s = [n]) -> clash s (a_shape (get_as_array sun)) ->
  tb2rad E (cl_conv c) (get_as_array therm) (table_of c lut) = Ok rad11 ->
  tb2rad E (cl_conv c) (get_as_array nir) (table_of c lut) = Ok rad3x ->
  exists st', reflectance_from_tbs E c sun nir therm co2 lut st = (st', Err ValueError) /\ ns_r3x st' = ns_r3x st.
Proof. exact @sun_clash. Qed.
Print Assumptions C27_sun_shape.

Theorem C27_co2_shape : forall (N : Num) (E : nir_env N) c s sun nir therm a lut st rad11 rad3x, rsr_data (cv_rsr (cl_conv c)) <> [] ->
  is_image s (get_as_array nir) -> is_image s (get_as_array therm) -> clash s (a_shape (get_as_array a)) ->
  tb2rad E (cl_conv c) (get_as_array therm) (table_of c lut) = Ok rad11 ->
  tb2rad E (cl_conv c) (get_as_array nir) (table_of c lut) = Ok rad3x ->
  exists st', reflectance_from_tbs E c sun nir therm (Some a) lut st = (st', Err ValueError) /\ ns_r3x st' = ns_r3x st /\
    ns_correction st' = ns_correction st.
Proof. exact @co2_clash. Qed.
Print Assumptions C27_co2_shape.

Example C27_shape_case : forall t st,
  (exists st', reflectance_from_tbs nir_E (nir_calc 10 None t) (image [Fin 60; Fin 60; Fin 60]) nir_tb nir_therm None (Some (Some nir_lut)) st = (st', Err ValueError)) /\
  (exists st', reflectance_from_tbs nir_E (nir_calc 10 None t) nir_sun nir_tb nir_therm (Some (image [Fin 260; Fin 260; Fin 260])) (Some (Some nir_lut)) st = (st', Err ValueError)).
Proof. exact clash_case. Qed.

Example C27_case : forall t st,
  build nir_E {| rq_platform := "NOAA-19"; rq_instrument := "avhrr-3"; rq_band := BStr "4"; rq_detector := "det-1"; rq_wavespace := WAVE_LENGTH;
                 rq_solar_flux := Some (Fin 10); rq_sunz_threshold := None; rq_masking_limit := None |} nir_w0 = (nir_w0, Err NotImplementedError) /\
  reflectance_from_tbs nir_E (nir_calc 10 None t) nir_sun (image [Fin 150; Fin 150]) nir_therm None None st = (st, Err ValueError).
Proof.
  intros t st. split.
  - destruct (sample_converter (1 / 10) ltac:(lra)) as (c & Hc & _). apply C27_refused_band with c; [exact Hc|].
    cbn [rq_band rq_instrument].
    assert (R : cv_rsr c = RsrDict (Some (IOne "avhrr-3")) sample_data).
    { unfold RadTbConverter in Hc. change (check_wavespace WAVE_LENGTH) with (Ok tt) in Hc. cbn [bind] in Hc.
      rewrite n0_fin in Hc. cbn [neqb XRN xeqb] in Hc. replace (Reqb (1 / 10) 0) with false in Hc by (symmetry; apply Reqb_false_iff; lra).
      cbn -[trapezoid Rdiv IZR] in Hc. injection Hc as <-. reflexivity. }
    rewrite R. eexists. eexists. eexists. split; [reflexivity|]. split; [reflexivity|]. split; [reflexivity|].
    cbn. lra.
  - apply C27_shape_mismatch; discriminate.
Qed.

(** C16, calculators: none can be built in wavenumber space, KeyError if the converter could be built or the band is a number. *)
Theorem C16_no_calculator_in_wavenumber : forall (N : Num) (E : nir_env N) p i b det fl sz ml w (s : rsr_state N),
  nx_load E p i = Ok s -> reader_shaped (rs_rsr s) -> neqb N (nlit N 1 10) n0 = false ->
    exists e, Calculator E p i b det WAVE_NUMBER fl sz ml w = (w, Err e) /\
      ((exists c, RadTbConverter (nx_load E) p i b det WAVE_NUMBER (nlit N 1 10) = Ok c) \/ (exists x, b = BNumber x) -> e = KeyError).
Proof. exact @nir_wavenumber. Qed.
Print Assumptions C16_no_calculator_in_wavenumber.

Example C16_calculator_case : forall w,
  Calculator nir_E "NOAA-19" "avhrr-3" (BNumber (Fin (37 / 10))) "det-1" WAVE_NUMBER (Some (Fin 10)) None None w = (w, Err KeyError).
Proof.
  intros w. destruct (C16_no_calculator_in_wavenumber XRN nir_E "NOAA-19" "avhrr-3" (BNumber (Fin (37 / 10))) "det-1" (Some (Fin 10)) None None w _ eq_refl sample_shaped) as (e & H & K).
  { rewrite n0_fin. cbn. unfold xlit. cbn. apply Reqb_false_iff. lra. }
  rewrite H, K; [reflexivity|]. right. eauto.
Qed.

(** C71: both temperature arrays of integers: the result is NaN or 0 whatever the temperatures. *)
Theorem C71_integer_temperatures : forall (E : nir_env XRN) c s sun nir therm co2 lut st st' r I,
  reflectance_from_tbs E c sun nir therm co2 lut st = (st', Ok r) -> one_image s sun nir therm co2 lut ->
  value_type nir = Int64 -> value_type therm = Int64 ->
  cv_rsr_integral (cl_conv c) = Fin I -> -1 < I < 1 ->
  forall k L T, (k < size s)%nat ->
  (exists a, tb2rad E (cl_conv c) (get_as_array nir) (table_of c lut) = Ok a /\ pix k a = Some (Fin L)) ->
  (exists a, tb2rad E (cl_conv c) (get_as_array therm) (table_of c lut) = Ok a /\ pix k a = Some (Fin T)) ->
  pix k r = Some NaN \/ pix k r = Some (Fin 0).
Proof. exact integer_values. Qed.
Print Assumptions C71_integer_temperatures.

Example C71_case : forall t st, exists st' r,
  reflectance_from_tbs nir_E (nir_calc (2 * PI) None t) (image [Fin 60; Fin 60]) (int_image [Fin 150; Fin 150]) (int_image [Fin 150; Fin 150]) None (Some (Some nir_lut)) st = (st', Ok r) /\
  (pix 0 r = Some NaN \/ pix 0 r = Some (Fin 0)).
Proof. exact int_case. Qed.

(** C87: the solar flux *)
Theorem C87_given_flux : forall (N : Num) (E : nir_env N) q w w' c f,
  build E q w = (w', Ok c) -> rq_solar_flux q = Some f -> cl_solar_flux c = f.
Proof. exact flux_given. Qed.
Print Assumptions C87_given_flux.

(** [g] and [h] interpolate the response of det-1 and the solar spectrum; the
    grid has steps of about 0.0005 um. *)
Theorem C87_derived_flux : forall (E : nir_env XRN) q w w' c b d ws rs g h,
  build E q w = (w', Ok c) -> rq_solar_flux q = None -> rq_wavespace q = WAVE_LENGTH ->
  rsr_getitem (cv_rsr (cl_conv c)) (cl_bandname c) = Ok b ->
  dget "response"%string b = None -> dget "det-1"%string b = Some d -> curve_of d ws rs -> hd 0 ws < last ws 0 ->
  spline_is (nx_spline E) (map Fin ws) (map Fin rs) g -> spline_is (nx_spline E) (fst (nx_sun E)) (snd (nx_sun E)) h ->
  exists n, nearest ((last ws 0 - hd 0 ws) / (5 / 10000)) n /\
    let grid := even_grid (hd 0 ws) (last ws 0) n in
    cl_solar_flux c = Fin (Rtrapz (map (fun t => h t * g t) grid) grid).
Proof. exact flux_derived. Qed.
Print Assumptions C87_derived_flux.

(** Finding: the flux of the calculator's own detector is not used; calculators
    that differ in the detector have the same flux. *)
Theorem C87_own_detector_refuted : forall (N : Num) (E : nir_env N) q1 q2 w1 w1' w2 w2' c1 c2,
  build E q1 w1 = (w1', Ok c1) -> build E q2 w2 = (w2', Ok c2) ->
  rq_platform q1 = rq_platform q2 -> rq_instrument q1 = rq_instrument q2 -> rq_band q1 = rq_band q2 -> rq_wavespace q1 = rq_wavespace q2 ->
  rq_solar_flux q1 = None -> rq_solar_flux q2 = None -> cl_solar_flux c1 = cl_solar_flux c2.
Proof. exact flux_detector. Qed.
Print Assumptions C87_own_detector_refuted.

Example C87_case : exists c, build sun_E sun_request nir_w0 = (nir_w1, Ok c) /\
  rsr_getitem (cv_rsr (cl_conv c)) (cl_bandname c) = Ok [("det-1"%string, sample_nir); ("det-2"%string, sample_dead)] /\
  curve_of sample_nir [36 / 10; 37 / 10; 38 / 10] [1 / 2; 1; 1 / 2] /\
  spline_is (nx_spline sun_E) (map Fin [36 / 10; 37 / 10; 38 / 10]) (map Fin [1 / 2; 1; 1 / 2]) (fun _ => 1 / 2) /\
  spline_is (nx_spline sun_E) (fst (nx_sun sun_E)) (snd (nx_sun sun_E)) (fun t => 24 - 4 * t).
Proof.
  destruct sun_case as (c & H & R). exists c. split; [exact H|]. split; [exact R|]. split; [exact sun_curve|]. exact sun_chords.
Qed.
