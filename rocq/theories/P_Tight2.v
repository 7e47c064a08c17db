(** Cases for the theorems about default arguments, shapes and integers. *)
From Coq Require Import Reals Lra ZArith String List Bool Lia.
From Verif Require Import Base NumSig XR M_Tables M_Utils M_Rsr M_Blackbody M_RadTb M_Solar M_World M_Config M_Download M_Nir
     S_RadTb S_Rsr S_Nir S_Nir2 P_Arr P_Nir P_Nir2 P_Nir3 P_Nir4 P_Nir5 P_Nir6 P_Tight Samples Samples2 Samples3.
Import ListNotations.
Local Open Scope R_scope.

Lemma integer_values : forall (E : nir_env XRN) c s sun nir therm co2 lut st st' r I,
  reflectance_from_tbs E c sun nir therm co2 lut st = (st', Ok r) -> one_image s sun nir therm co2 lut ->
  value_type nir = Int64 -> value_type therm = Int64 ->
  cv_rsr_integral (cl_conv c) = Fin I -> -1 < I < 1 ->
  forall k L T, (k < size s)%nat ->
  (exists a, tb2rad E (cl_conv c) (get_as_array nir) (table_of c lut) = Ok a /\ pix k a = Some (Fin L)) ->
  (exists a, tb2rad E (cl_conv c) (get_as_array therm) (table_of c lut) = Ok a /\ pix k a = Some (Fin T)) ->
  pix k r = Some NaN \/ pix k r = Some (Fin 0).
Proof. intros E c s sun nir therm co2 lut st st' r I H Im Vn Vt. rewrite value_type_eq in Vn, Vt. now apply (integer_temperatures E c s sun nir therm co2 lut st st' r I H Im Vn Vt). Qed.

Lemma other_limits {N : Num} (E : nir_env N) p i b det wsp fl sz ml sz' ml' w w' c : Calculator E p i b det wsp fl sz ml w = (w', Ok c) ->
  Calculator E p i b det wsp fl sz' ml' w = (w', Ok {| cl_conv := cl_conv c; cl_bandname := cl_bandname c; cl_bandwavelength := cl_bandwavelength c;
    cl_solar_flux := cl_solar_flux c; cl_sunz_threshold := sz'; cl_masking_limit := ml'; cl_lutfile := cl_lutfile c; cl_lut := cl_lut c |}).
Proof.
  unfold Calculator, M_Download.lift, iobind, ret. intros H.
  destruct (RadTbConverter _ _ _ _ _ _ _) as [cv|]; [|discriminate].
  destruct (nir_band _ _ _) as [nb|]; [|discriminate].
  destruct (match fl with Some f => Ok f | None => get_solarflux E cv (fst nb) end) as [fx|]; [|discriminate].
  destruct (set_lutfile E p i (fst nb) w) as [w1 [f|]]; [|discriminate].
  destruct (set_lut E cv f w1) as [w2 [t|]]; [|discriminate]. injection H as <- <-. reflexivity.
Qed.

Lemma sun_calc : exists bw fx t, build sun_E sun_request nir_w0 = (nir_w1, Ok {| cl_conv := nir_conv; cl_bandname := "ch3b"; cl_bandwavelength := Fin bw; cl_solar_flux := Fin fx;
     cl_sunz_threshold := Some (Fin 85); cl_masking_limit := None; cl_lutfile := nir_path; cl_lut := t |}).
Proof.
  destruct nir_table as (t & Ht & _). destruct sun_chords as [G H].
  destruct (flux_of sun_E nir_conv "ch3b" _ _ _ _ _ _ eq_refl eq_refl eq_refl eq_refl sun_curve ltac:(cbn; lra) G H) as (n & _ & F). cbv zeta in F.
  eexists (37 / 10), _, t.
  pose proof (nir_build 1 None nir_w0 t Ht (or_introl eq_refl)) as B.
  unfold build in *. rewrite calculator_cases in *. cbn [rq_platform rq_instrument rq_band rq_detector rq_wavespace rq_solar_flux rq_sunz_threshold rq_masking_limit nir_request sun_request] in *.
  change (nx_load sun_E) with (nx_load nir_E).
  match goal with |- context [@RadTbConverter ?n ?a ?b ?c ?d ?e ?f ?g] => change (@RadTbConverter n a b c d e f g) with (@RadTbConverter XRN (nx_load nir_E) "NOAA-19" "avhrr-3" (BStr "3b"%string) "det-1" WAVE_LENGTH (nlit XRN 1 10)) end.
  destruct (RadTbConverter _ _ _ _ _ _ _) as [cv|]; [|discriminate B]. destruct (nir_band _ _ _) as [nb|]; [|discriminate B].
  change (set_lutfile sun_E) with (set_lutfile nir_E). change (set_lut sun_E) with (set_lut nir_E).
  destruct (set_lutfile _ _ _ _ _) as [w1 [f|]]; [|discriminate B]. destruct (set_lut _ _ _ _) as [w2 [t'|]] eqn:EL; [|discriminate B].
  destruct nb as [nm x]. cbn [fst snd] in *. injection B. intros. subst. rewrite F. reflexivity.
Qed.


Lemma default_case : exists c I flux, Calculator_defaults sun_E "NOAA-19" "avhrr-3" (BStr "3b"%string) nir_w0 = (nir_w1, Ok c) /\
  cv_rsr_integral (cl_conv c) = Fin I /\ cl_solar_flux c = Fin flux /\
  forall st, exists st' r, reflectance_from_tbs sun_E c nir_sun nir_tb nir_therm None (Some (Some nir_lut)) st = (st', Ok r) /\
    pix 2 r = Some NaN.
Proof.
  destruct sun_calc as (bw & fx & t & B). unfold build in B.
  apply (other_limits _ _ _ _ _ _ _ _ _ (Some TERMINATOR_LIMIT) (Some TERMINATOR_LIMIT)) in B.
  cbn [cl_conv cl_bandname cl_bandwavelength cl_solar_flux cl_lutfile cl_lut] in B.
  match type of B with _ = (_, Ok ?c) => set (cl := c) in * end.
  assert (D : Calculator_defaults sun_E "NOAA-19" "avhrr-3" (BStr "3b"%string) nir_w0 = (nir_w1, Ok cl)) by exact B.
  exists cl, (15 / 100000000), fx. split; [exact D|]. split; [reflexivity|]. split; [reflexivity|].
  intros st.
  pose proof (nir_pixel fx None t 2 _ _ _ _ eq_refl) as P.
  assert (P' : pixel sun_E cl nir_sun nir_tb nir_therm None (Some (Some nir_lut)) 2 (-10) (Fin (1502 / 10)) 3000000 1000000 1) by exact P.
  assert (E11 : exists a, tb2rad sun_E (cl_conv cl) (get_as_array nir_therm) (table_of cl (Some (Some nir_lut))) = Ok a) by (destruct P' as (_ & _ & _ & (a & A & _) & _); eauto).
  assert (E3 : exists a, tb2rad sun_E (cl_conv cl) (get_as_array nir_tb) (table_of cl (Some (Some nir_lut))) = Ok a) by (destruct P' as (_ & _ & (a & A & _) & _); eauto).
  destruct E11 as [a11 E11]. destruct E3 as [a3 E3].
  destruct (reflectance_ok sun_E cl [4%nat] nir_sun nir_tb nir_therm None (Some (Some nir_lut)) st _ _ ltac:(discriminate) nir_image E11 E3) as (st' & r & H).
  exists st', r. split; [exact H|].
  apply (proj1 (default_night sun_E _ _ _ _ _ cl [4%nat] _ _ _ _ _ _ _ _ _ _ D eq_refl eq_refl H nir_image nir_floats 2%nat (-10) _ _ _ _ ltac:(cbn; lia) P')). lra.
Qed.

Lemma clash_case : forall t st,
  (exists st', reflectance_from_tbs nir_E (nir_calc 10 None t) (image [Fin 60; Fin 60; Fin 60]) nir_tb nir_therm None (Some (Some nir_lut)) st = (st', Err ValueError)) /\
  (exists st', reflectance_from_tbs nir_E (nir_calc 10 None t) nir_sun nir_tb nir_therm (Some (image [Fin 260; Fin 260; Fin 260])) (Some (Some nir_lut)) st = (st', Err ValueError)).
Proof.
  intros t st.
  assert (I4 : forall a b c d, is_image [4%nat] (get_as_array (image [a; b; c; d]))) by (intros; split; reflexivity).
  assert (C : clash [4%nat] (a_shape (get_as_array (image [Fin 60; Fin 60; Fin 60])))) by (exists 0%nat, 4%nat, 3%nat; repeat split; discriminate).
  assert (C' : clash [4%nat] (a_shape (get_as_array (image [Fin 260; Fin 260; Fin 260])))) by (exists 0%nat, 4%nat, 3%nat; repeat split; discriminate).
  pose proof (nir_rads [Fin 150; Fin 150; Fin 150; Fin (1501 / 10)] _ ltac:(cbn; lia) nir_therm_val) as R1.
  pose proof (nir_rads [Fin (1502 / 10); NaN; Fin (1502 / 10); Fin 150] _ ltac:(cbn; lia) nir_tb_val) as R2.
  split.
  - destruct (sun_clash nir_E (nir_calc 10 None t) [4%nat] (image [Fin 60; Fin 60; Fin 60]) nir_tb nir_therm None (Some (Some nir_lut)) st _ _
      ltac:(discriminate) (I4 _ _ _ _) (I4 _ _ _ _) ltac:(discriminate) ltac:(discriminate) C R1 R2) as (st' & H & _). eauto.
  - destruct (co2_clash nir_E (nir_calc 10 None t) [4%nat] nir_sun nir_tb nir_therm _ (Some (Some nir_lut)) st _ _
      ltac:(discriminate) (I4 _ _ _ _) (I4 _ _ _ _) C' R1 R2) as (st' & H & _). eauto.
Qed.
