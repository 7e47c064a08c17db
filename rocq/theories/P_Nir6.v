(** The solar flux of a calculator (C87). *)
From Coq Require Import Reals Lra ZArith String List Lia.
From Verif Require Import Base NumSig XR P_Trapz M_Tables M_Utils M_Rsr M_Blackbody M_RadTb M_Solar M_World M_Config M_Download M_Nir
     S_Planck S_RadTb S_Rsr S_Solar S_Nir S_Nir2 P_RadTb P_RadTb2 P_Solar P_Solar2 P_Nir P_Nir2 P_Nir3 P_Nir4 Samples Samples2 Samples3.
Import ListNotations.
Local Open Scope R_scope.

Lemma converter_wavespace (N : Num) load p i b det wsp (tbr : N) c : RadTbConverter load p i b det wsp tbr = Ok c -> cv_wavespace c = wsp.
Proof.
  intros Hc. unfold RadTbConverter in Hc.
  repeat match type of Hc with bind ?m _ = _ => let E := fresh in destruct m as [?|?] eqn:E; cbn [bind] in Hc; [|discriminate Hc]
         | (let (_, _) := ?x in _) = _ => destruct x as [? ?]
         | match ?x with (_, _) => _ end = _ => destruct x as [? ?] end.
  now injection Hc as <-.
Qed.

Lemma calculator_parts (N : Num) (E : nir_env N) q w w' c : build E q w = (w', Ok c) ->
  cv_wavespace (cl_conv c) = rq_wavespace q /\
  (match rq_solar_flux q with Some f => Ok f | None => get_solarflux E (cl_conv c) (cl_bandname c) end) = Ok (cl_solar_flux c).
Proof.
  unfold build. rewrite calculator_cases. intros H.
  destruct (RadTbConverter _ _ _ _ _ _ _) as [cv|] eqn:E1; [|discriminate H].
  destruct (nir_band _ _ _) as [nb|]; [|discriminate H].
  destruct (match rq_solar_flux q with Some f => _ | None => _ end) as [fl|] eqn:E2; [|discriminate H].
  destruct (set_lutfile _ _ _ _ _) as [w1 [f|]]; [|discriminate H]. destruct (set_lut _ _ _ _) as [w2 [t|]]; [|discriminate H].
  injection H as <- <-. cbn [cl_conv cl_bandname cl_solar_flux]. split; [|exact E2]. now apply converter_wavespace in E1.
Qed.

Lemma flux_given : forall (N : Num) (E : nir_env N) q w w' c f,
  build E q w = (w', Ok c) -> rq_solar_flux q = Some f -> cl_solar_flux c = f.
Proof. intros N E q w w' c f H Hf. destruct (calculator_parts N E q w w' c H) as [_ K]. rewrite Hf in K. now injection K. Qed.

Lemma flux_of (E : nir_env XRN) cv name b d ws rs g h :
  cv_wavespace cv = WAVE_LENGTH -> rsr_getitem (cv_rsr cv) name = Ok b ->
  dget "response"%string b = None -> dget "det-1"%string b = Some d -> curve_of d ws rs -> hd 0 ws < last ws 0 ->
  spline_is (nx_spline E) (map Fin ws) (map Fin rs) g -> spline_is (nx_spline E) (fst (nx_sun E)) (snd (nx_sun E)) h ->
  exists n, nearest ((last ws 0 - hd 0 ws) / (5 / 10000)) n /\
    let grid := even_grid (hd 0 ws) (last ws 0) n in
    get_solarflux E cv name = Ok (Fin (Rtrapz (map (fun t => h t * g t) grid) grid)).
Proof.
  intros Hw Hb Hr Hd (W & R & L) Hlt Hg Hh. unfold get_solarflux. rewrite Hw.
  change (SolarIrradianceSpectrum (fst (nx_sun E)) (snd (nx_sun E)) (Some (nlit XRN 5 10000)) (Some WAVE_LENGTH)) with
    (Ok {| so_wavelength := Some (fst (nx_sun E)); so_wavenumber := None; so_irradiance := snd (nx_sun E); so_wavespace := "wavelength"%string;
           so_dlambda := nlit XRN 5 10000; so_ipol := None |} : res (spectrum XRN)). rewrite Hb. cbn [bind].
  set (s := {| so_wavelength := _ |}).
  assert (B : band_ok (nx_spline E) s d 1 ws rs (5 / 10000) g h).
  { exists "wavelength"%string, (fst (nx_sun E)). split; [left; repeat split|]. split; [cbn; rewrite nlit_fin; f_equal; lra|]. split; [lra|].
    split; [exact W|]. split; [exact R|]. split; [intros ->; cbn in Hlt; lra|]. split; [lra|]. split; [|exact Hh].
    replace (map (fun w => w * 1) ws) with ws; [exact Hg|]. rewrite <- (map_id ws) at 1. apply map_ext. intros; lra. }
  destruct (band_flux_irr (nx_spline E) s d 1 "det-1" ws rs (5 / 10000) g h B) as (n & Hn & HF & _).
  rewrite !Rmult_1_r in *. exists n. split; [exact Hn|]. cbv zeta.
  unfold inband_solarflux in *. rewrite (detector_choice (nx_spline E) s b d _ "det-1" true Hd Hr) by (unfold dhas; now rewrite R).
  replace (nlit XRN 1 1) with (Fin 1) by (rewrite nlit_fin; f_equal; lra). rewrite HF. do 3 f_equal. unfold Rvmul.
  set (l := even_grid _ _ _). clear. induction l; [reflexivity|]. cbn. now f_equal.
Qed.

Lemma flux_derived : forall (E : nir_env XRN) q w w' c b d ws rs g h,
  build E q w = (w', Ok c) -> rq_solar_flux q = None -> rq_wavespace q = WAVE_LENGTH ->
  rsr_getitem (cv_rsr (cl_conv c)) (cl_bandname c) = Ok b ->
  dget "response"%string b = None -> dget "det-1"%string b = Some d -> curve_of d ws rs -> hd 0 ws < last ws 0 ->
  spline_is (nx_spline E) (map Fin ws) (map Fin rs) g -> spline_is (nx_spline E) (fst (nx_sun E)) (snd (nx_sun E)) h ->
  exists n, nearest ((last ws 0 - hd 0 ws) / (5 / 10000)) n /\
    let grid := even_grid (hd 0 ws) (last ws 0) n in
    cl_solar_flux c = Fin (Rtrapz (map (fun t => h t * g t) grid) grid).
Proof.
  intros E q w w' c b d ws rs g h H Hf Hw Hb Hr Hd HC Hlt Hg Hh.
  destruct (calculator_parts _ _ _ _ _ _ H) as [Ew K]. rewrite Hf in K.
  destruct (flux_of E (cl_conv c) (cl_bandname c) b d ws rs g h ltac:(congruence) Hb Hr Hd HC Hlt Hg Hh) as (n & Hn & F).
  exists n. split; [exact Hn|]. cbv zeta in *. rewrite F in K. now injection K as <-.
Qed.

(** the detector the calculator is for does not matter *)
Lemma flux_detector : forall (N : Num) (E : nir_env N) q1 q2 w1 w1' w2 w2' c1 c2,
  build E q1 w1 = (w1', Ok c1) -> build E q2 w2 = (w2', Ok c2) ->
  rq_platform q1 = rq_platform q2 -> rq_instrument q1 = rq_instrument q2 -> rq_band q1 = rq_band q2 -> rq_wavespace q1 = rq_wavespace q2 ->
  rq_solar_flux q1 = None -> rq_solar_flux q2 = None -> cl_solar_flux c1 = cl_solar_flux c2.
Proof.
  intros N E q1 q2 w1 w1' w2 w2' c1 c2 H1 H2 Ep Ei Eb Ew F1 F2.
  unfold build in H1, H2. rewrite calculator_cases in H1, H2. rewrite F1 in H1. rewrite F2 in H2. rewrite Ep, Ei, Eb, Ew in H1.
  destruct (RadTbConverter (nx_load E) (rq_platform q2) (rq_instrument q2) (rq_band q2) (rq_detector q1) _ _) as [cv1|] eqn:C1; [|discriminate H1].
  destruct (RadTbConverter (nx_load E) (rq_platform q2) (rq_instrument q2) (rq_band q2) (rq_detector q2) _ _) as [cv2|] eqn:C2; [|discriminate H2].
  assert (K : forall det cv, RadTbConverter (nx_load E) (rq_platform q2) (rq_instrument q2) (rq_band q2) det (rq_wavespace q2) (nlit N 1 10) = Ok cv ->
    exists sensor un bn bw, nx_load E (rq_platform q2) (rq_instrument q2) = Ok sensor /\ rsr_in_space sensor (rq_wavespace q2) = Ok (cv_rsr cv, un) /\
      resolve_band (rq_instrument q2) (rq_band q2) (cv_rsr cv) = Ok (bn, bw) /\ cv_bandname cv = bn /\ cv_bandwavelength cv = bw).
  { intros det cv Hc. unfold RadTbConverter in Hc.
    destruct (check_wavespace _); [|discriminate Hc]. cbn [bind] in Hc. destruct (neqb N _ _); [discriminate Hc|]. cbn [bind] in Hc.
    destruct (nx_load E _ _) as [sensor|] eqn:Es; [|discriminate Hc]. cbn [bind] in Hc.
    destruct (rsr_in_space sensor _) as [[rsr [un si]]|] eqn:Ex; [|discriminate Hc]. cbn [bind] in Hc.
    destruct (resolve_band _ _ rsr) as [[bn bw]|] eqn:Er; [|discriminate Hc]. cbn [bind] in Hc.
    repeat match type of Hc with bind ?m _ = _ => destruct m as [?|?]; cbn [bind] in Hc; [|discriminate Hc] end.
    injection Hc as <-. cbn. exists sensor, (un, si), bn, bw. repeat split; auto. }
  destruct (K _ _ C1) as (s1 & u1 & bn1 & bw1 & A1 & A2 & A3 & A4 & A5). destruct (K _ _ C2) as (s2 & u2 & bn2 & bw2 & B1 & B2 & B3 & B4 & B5).
  assert (s1 = s2) by congruence. subst s2. assert (Er : cv_rsr cv1 = cv_rsr cv2) by congruence. rewrite Er in A3.
  assert (En : cv_bandname cv1 = cv_bandname cv2 /\ cv_bandwavelength cv1 = cv_bandwavelength cv2) by (split; congruence). destruct En as [En El].
  assert (EB : nir_band cv1 (rq_instrument q2) (rq_band q2) = nir_band cv2 (rq_instrument q2) (rq_band q2)) by (unfold nir_band; now rewrite ?Er, ?En, ?El).
  rewrite EB in H1. destruct (nir_band cv2 _ _) as [nb|]; [|discriminate H1].
  assert (EG : get_solarflux E cv1 (fst nb) = get_solarflux E cv2 (fst nb)).
  { unfold get_solarflux. rewrite Er, (converter_wavespace _ _ _ _ _ _ _ _ _ C1), (converter_wavespace _ _ _ _ _ _ _ _ _ C2). reflexivity. }
  rewrite EG in H1. destruct (get_solarflux E cv2 (fst nb)) as [fl|]; [|discriminate H1].
  destruct (set_lutfile _ _ _ _ w1) as [u [f|]]; [|discriminate H1]. destruct (set_lut _ _ _ _) as [? [?|]]; [|discriminate H1].
  destruct (set_lutfile _ _ _ _ w2) as [u' [f'|]]; [|discriminate H2]. destruct (set_lut _ _ f' _) as [? [?|]]; [|discriminate H2].
  injection H1 as <- <-. injection H2 as <- <-. reflexivity.
Qed.

(** ** the sample calculator with a flat sun *)
Definition sun_E : nir_env XRN :=
  {| nx_ext := nx_ext nir_E; nx_tempdir := nx_tempdir nir_E; nx_load := nx_load nir_E; nx_enc := nx_enc nir_E; nx_dec := nx_dec nir_E;
     nx_spline := chord; nx_sun := (map Fin [3; 4], map Fin [12; 8]); nx_oob16 := nx_oob16 nir_E; nx_oob64 := nx_oob64 nir_E |}.
Definition sun_request : request XRN :=
  {| rq_platform := "NOAA-19"; rq_instrument := "avhrr-3"; rq_band := BStr "3b"; rq_detector := "det-1"; rq_wavespace := WAVE_LENGTH;
     rq_solar_flux := None; rq_sunz_threshold := Some (Fin 85); rq_masking_limit := None |}.
Lemma sun_curve : curve_of sample_nir [36 / 10; 37 / 10; 38 / 10] [1 / 2; 1; 1 / 2].
Proof. repeat split. Qed.
Lemma sun_chords :
  spline_is chord (map Fin [36 / 10; 37 / 10; 38 / 10]) (map Fin [1 / 2; 1; 1 / 2]) (fun _ => 1 / 2) /\
  spline_is chord (fst (nx_sun sun_E)) (snd (nx_sun sun_E)) (fun t => 24 - 4 * t).
Proof.
  unfold spline_is, chord. cbn [map hd last fst snd nx_sun sun_E]. split.
  - destruct (Req_EM_T (36 / 10) (38 / 10)) as [E|E]; [lra|]. eexists. split; [reflexivity|]. intros t. cbn. f_equal. lra.
  - destruct (Req_EM_T 3 4) as [E|E]; [lra|]. eexists. split; [reflexivity|]. intros t. cbn. f_equal. lra.
Qed.
Lemma sun_case : exists c, build sun_E sun_request nir_w0 = (nir_w1, Ok c) /\ rsr_getitem (cv_rsr (cl_conv c)) (cl_bandname c) = Ok [("det-1"%string, sample_nir); ("det-2"%string, sample_dead)].
Proof.
  destruct nir_table as (t & Ht & _). destruct sun_chords as [G H].
  destruct (flux_of sun_E nir_conv "ch3b" _ _ _ _ _ _ eq_refl eq_refl eq_refl eq_refl sun_curve ltac:(cbn; lra) G H) as (n & _ & F). cbv zeta in F.
  eexists {| cl_conv := nir_conv; cl_bandname := "ch3b"; cl_bandwavelength := Fin (37 / 10); cl_solar_flux := _;
     cl_sunz_threshold := Some (Fin 85); cl_masking_limit := None; cl_lutfile := nir_path; cl_lut := t |}. split; [|reflexivity].
  pose proof (nir_build 1 None nir_w0 t Ht (or_introl eq_refl)) as B.
  unfold build in *. rewrite calculator_cases in *. cbn [rq_platform rq_instrument rq_band rq_detector rq_wavespace rq_solar_flux rq_sunz_threshold rq_masking_limit nir_request sun_request] in *.
  change (nx_load sun_E) with (nx_load nir_E).
  match goal with |- context [@RadTbConverter ?n ?a ?b ?c ?d ?e ?f ?g] => change (@RadTbConverter n a b c d e f g) with (@RadTbConverter XRN (nx_load nir_E) "NOAA-19" "avhrr-3" (BStr "3b"%string) "det-1" WAVE_LENGTH (nlit XRN 1 10)) end.
  destruct (RadTbConverter _ _ _ _ _ _ _) as [cv|]; [|discriminate B]. destruct (nir_band _ _ _) as [nb|]; [|discriminate B].
  change (set_lutfile sun_E) with (set_lutfile nir_E). change (set_lut sun_E) with (set_lut nir_E).
  destruct (set_lutfile _ _ _ _ _) as [w1 [f|]]; [|discriminate B]. destruct (set_lut _ _ _ _) as [w2 [t'|]] eqn:EL; [|discriminate B].
  destruct nb as [nm x]. cbn [fst snd] in *. injection B. intros. subst. rewrite F. reflexivity.
Qed.
