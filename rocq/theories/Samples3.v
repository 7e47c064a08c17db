(** A calculator with concrete numbers for the Examples of T_Nir. *)
From Coq Require Import Reals Lra ZArith String List Lia.
From Verif Require Import Base NumSig XR P_Trapz M_Tables M_Utils M_Rsr M_Blackbody M_RadTb M_World M_Config M_Download M_Nir
     S_Planck S_RadTb S_Nir S_Nir2 P_RadTb P_RadTb2 P_Arr P_Nir P_Nir2 P_Nir3 P_Nir4 Samples Samples2.
Import ListNotations.
Local Open Scope R_scope.

(** ** The 3.7 um band of Samples *)
Definition nir_waves : list R := [36 / 10000000; 37 / 10000000; 38 / 10000000].
Definition nir_conv : converter XRN :=
  {| cv_platform := "NOAA-19"; cv_instrument := "avhrr-3"; cv_band := BStr "3b"; cv_wavespace := WAVE_LENGTH; cv_detector := "det-1";
     cv_tb_resolution := Fin (1 / 10); cv_tb_scale := Fin 10; cv_rsr := RsrDict (Some (IOne "avhrr-3")) sample_data;
     cv_unit := "1e-6 m"; cv_si_scale := Fin (1 / 1000000); cv_bandname := Some "ch3b"%string; cv_bandwavelength := None;
     cv_waves := map Fin nir_waves; cv_response := map Fin [1 / 2; 1; 1 / 2];
     cv_rsr_integral := Fin (15 / 100000000) |}.

Lemma nir_conv_ok : RadTbConverter sample_load "NOAA-19" "avhrr-3" (BStr "3b"%string) "det-1" WAVE_LENGTH (Fin (1 / 10)) = Ok nir_conv.
Proof.
  unfold RadTbConverter. change (check_wavespace WAVE_LENGTH) with (Ok tt). cbn [bind].
  rewrite n0_fin. cbn [neqb XRN xeqb]. replace (Reqb (1 / 10) 0) with false by (symmetry; apply Reqb_false_iff; lra).
  cbn -[trapezoid Rdiv IZR xdiv]. unfold nir_conv, nir_waves, trapezoid.
  cbn [length Nat.eqb bind map trapz]. rewrite ?n0_fin. 
  unfold xlit. rewrite xdiv_fin by lra. cbn -[IZR Rdiv]. rewrite ?nlit_fin, ?n0_fin. cbn -[IZR Rdiv].
  destruct (Req_EM_T (2 / 1) 0) as [H|_]; [exfalso; lra|]. cbn [xadd].
  replace (1 / 1 / (1 / 10)) with 10 by lra.
  replace (36 / 10 * (1 / 1000000)) with (36 / 10000000) by lra.
  replace (37 / 10 * (1 / 1000000)) with (37 / 10000000) by lra.
  replace (38 / 10 * (1 / 1000000)) with (38 / 10000000) by lra.
  do 2 f_equal. f_equal. lra.
Qed.

(** its table can be generated *)
Lemma nir_table : exists t, make_tb2rad_lut nir_conv true = Ok t /\ exists x, hd_error (lut_radiance t) = Some (Fin x).
Proof.
  unfold make_tb2rad_lut. change (cv_tb_resolution nir_conv) with (Fin (1 / 10)). rewrite arange_default.
  rewrite (planck_radiance_fin nir_conv nir_waves [1 / 2; 1; 1 / 2] (15 / 100000000)); try reflexivity.
  - cbn [bind]. eexists. split; [reflexivity|]. cbn [lut_radiance]. change (seq 0 2100) with (0 :: seq 1 2099)%nat.
    cbn [map hd_error]. eauto.
  - discriminate.
  - lra.
  - repeat constructor; lra.
  - change (seq 0 2100) with (0 :: seq 1 2099)%nat. discriminate.
  - apply Forall_forall. intros x Hx. apply in_map_iff in Hx as (k & <- & _). apply (tb_row_pos k).
Qed.

(** ** A machine for it: the file "table" holds the table *)
Definition nir_E : nir_env XRN :=
  {| nx_ext := dl_ext; nx_tempdir := "/lut"; nx_load := sample_load;
     nx_enc := fun _ => "table"%string;
     nx_dec := fun s => if String.eqb s "table" then make_tb2rad_lut nir_conv true else Err ValueError;
     nx_spline := fun _ _ => Err ValueError; nx_sun := ([], []); nx_oob16 := fun _ => 0%Z; nx_oob64 := fun _ => 0%Z |}.
Definition nir_request (flux : R) (lim : option R) : request XRN :=
  {| rq_platform := "NOAA-19"; rq_instrument := "avhrr-3"; rq_band := BStr "3b"; rq_detector := "det-1"; rq_wavespace := WAVE_LENGTH;
     rq_solar_flux := Some (Fin flux); rq_sunz_threshold := Some (Fin 85); rq_masking_limit := option_map Fin lim |}.
Definition nir_path : string := "/lut/tb2rad_lut_noaa-19_avhrr-3_ch3b.npz".
Definition nir_calc (flux : R) (lim : option R) (t : tblut XRN) : calculator XRN :=
  {| cl_conv := nir_conv; cl_bandname := "ch3b"; cl_bandwavelength := Fin (37 / 10); cl_solar_flux := Fin flux;
     cl_sunz_threshold := Some (Fin 85); cl_masking_limit := option_map Fin lim; cl_lutfile := nir_path; cl_lut := t |}.
(** the disk before and after *)
Definition nir_w0 : world := dl_world "off".
Definition nir_w1 : world := run_evs [ECreate nir_path; EAppend nir_path "table"] nir_w0.

Lemma nir_band_ok : nir_band nir_conv "avhrr-3" (BStr "3b"%string) = Ok ("ch3b"%string, Fin (37 / 10)).
Proof.
  unfold nir_band. cbn -[Rdiv IZR Rltb]. unfold xlit. cbn [xltb]. rewrite !Rltb_false by lra. reflexivity.
Qed.
Lemma nir_lutfile w : w = nir_w0 \/ w = nir_w1 -> set_lutfile nir_E "NOAA-19" "avhrr-3" "ch3b" w = (w, Ok nir_path).
Proof. intros [-> | ->]; vm_compute; reflexivity. Qed.

Lemma nir_build flux lim w t : make_tb2rad_lut nir_conv true = Ok t -> w = nir_w0 \/ w = nir_w1 ->
  build nir_E (nir_request flux lim) w = (nir_w1, Ok (nir_calc flux lim t)).
Proof.
  intros Ht Hw. unfold build. cbn [rq_platform rq_instrument rq_band rq_detector rq_wavespace rq_solar_flux rq_sunz_threshold rq_masking_limit nir_request].
  rewrite calculator_cases.
  match goal with |- context [@RadTbConverter ?n ?a ?b ?c ?d ?e ?f ?g] =>
    replace (@RadTbConverter n a b c d e f g) with (Ok nir_conv) by (symmetry; exact nir_conv_ok) end.
  rewrite nir_band_ok. cbn [fst snd]. rewrite nir_lutfile by exact Hw.
  assert (L : set_lut nir_E nir_conv nir_path w = (nir_w1, Ok t)).
  { unfold set_lut. destruct Hw as [-> | ->].
    - change (path_exists nir_w0 nir_path) with false. unfold iobind, M_Download.lift. rewrite Ht.
      change (savez nir_E nir_path t nir_w0) with (nir_w1, @Ok unit tt).
      unfold read_tb2rad_lut, look. change (read_file nir_w1 nir_path) with (@Ok string "table"). cbn [bind nir_E nx_dec].
      rewrite String.eqb_refl, Ht. reflexivity.
    - change (path_exists nir_w1 nir_path) with true.
      unfold read_tb2rad_lut, look. change (read_file nir_w1 nir_path) with (@Ok string "table"). cbn [bind nir_E nx_dec].
      rewrite String.eqb_refl, Ht. reflexivity. }
  rewrite L. reflexivity.
Qed.

(** ** An image of four pixels, looked up in a table of three rows *)
Definition nir_lut : tblut XRN :=
  {| lut_tb := [Fin 150; Fin (1501 / 10); Fin (1502 / 10)]; lut_radiance := [Fin 1000000; Fin 2000000; Fin 3000000] |}.
Definition image (l : list XR) : nirarg XRN := NArray {| a_dtype := Float64; a_shape := [List.length l]; a_data := l |}.
Definition nir_sun : nirarg XRN := image [Fin 60; Fin 60; Fin (-10); Fin 60].
Definition nir_tb : nirarg XRN := image [Fin (1502 / 10); NaN; Fin (1502 / 10); Fin 150].
Definition nir_therm : nirarg XRN := image [Fin 150; Fin 150; Fin 150; Fin (1501 / 10)].

Lemma nir_row t z : 0 <= t -> IZR z <= t * 10 < IZR z + 1 -> (1500 <= z <= 1502)%Z ->
  @lut_index XRN (nx_oob16 nir_E) (Fin 10) 1500 2 (Fin t) = (z - 1500)%Z.
Proof.
  intros Ht Hz Hr. unfold lut_index, cast_int16. cbn [nmul XRN xmul ntrunc xtrunc]. rewrite (Rtrunc_nonneg _ z) by lra.
  assert (in_int16 z = true) as -> by (unfold in_int16; rewrite Bool.andb_true_iff, !Z.leb_le; lia).
  rewrite wrap16_id by (unfold in_int16; rewrite Bool.andb_true_iff, !Z.leb_le; lia). unfold clipZ. lia.
Qed.
Lemma nir_look_nan : @lut_index XRN (nx_oob16 nir_E) (Fin 10) 1500 2 NaN = 0%Z.
Proof. vm_compute. reflexivity. Qed.

(** temperature -> radiance in that table *)
Inductive nir_val : XR -> R -> Prop :=
| nv0 : nir_val (Fin 150) 1000000
| nv1 : nir_val (Fin (1501 / 10)) 2000000
| nv2 : nir_val (Fin (1502 / 10)) 3000000
| nvn : nir_val NaN 1000000.

Lemma nir_rads l rs : (2 <= List.length l)%nat -> Forall2 nir_val l rs ->
  tb2rad nir_E nir_conv (get_as_array (image l)) (Some nir_lut) =
    Ok {| a_dtype := Float64; a_shape := [List.length l]; a_data := map Fin rs |}.
Proof.
  intros Hl HF. cbn [get_as_array image].
  set (f := fun t : XR => let i := @lut_index XRN (nx_oob16 nir_E) (Fin 10) 1500 2 t in
                   if (i <? 0)%Z then Err IndexError else idx [Fin 1000000; Fin 2000000; Fin 3000000] (Z.to_nat i)).
  assert (R : forall s l, tb2rad nir_E nir_conv {| a_dtype := Float64; a_shape := s; a_data := l |} (Some nir_lut) =
     (r <- mapM f l ;; Ok (@item XRN {| a_dtype := Float64; a_shape := s; a_data := r |}))).
  { intros s l0. unfold tb2rad, tb2radiance, lut_lookup. rewrite (lut_start_default _ [Fin (1501 / 10); Fin (1502 / 10)]) by reflexivity.
    reflexivity. }
  rewrite R.
  assert (F : forall x y, nir_val x y -> f x = Ok (Fin y)).
  { intros x y Hx. unfold f. destruct Hx; rewrite ?nir_look_nan, ?(nir_row (1502 / 10) 1502), ?(nir_row 150 1500), ?(nir_row (1501 / 10) 1501) by (lra || lia); reflexivity. }
  clearbody f.
  assert (M : mapM f l = Ok (map Fin rs)).
  { clear Hl. induction HF as [|x y l rs Hx HF IH]; [reflexivity|]. cbn [mapM map]. now rewrite IH, (F x y Hx). }
  rewrite M. cbn [bind].
  destruct HF as [|x y l rs Hx HF]; [cbn in Hl; lia|]. destruct HF; [cbn in Hl; lia|]. reflexivity.
Qed.

Lemma nir_settings flux lim t : settings (nir_calc flux lim t) (15 / 100000000) flux (Some 85) lim.
Proof. repeat split. Qed.
Lemma nir_oneimage n a b c co2 : List.length a = n -> List.length b = n -> List.length c = n ->
  (forall d, co2 = Some d -> List.length d = n) ->
  one_image [n] (image a) (image b) (image c) (option_map image co2) (Some (Some nir_lut)).
Proof.
  intros Ha Hb Hc Hd. unfold one_image, is_image, fits. cbn [get_as_array image a_shape a_data size].
  replace (size [n]) with n by (cbn; lia). rewrite Ha, Hb, Hc. repeat split; try discriminate; auto.
  intros x Hx. destruct co2 as [d|]; [|discriminate]. injection Hx as <-. cbn. left. rewrite (Hd d eq_refl). split; [reflexivity|lia].
Qed.
Lemma nir_fl b c : floats (image b) (image c).
Proof. split; reflexivity. Qed.

Lemma nir_calls flux lim t st n a b c co2 rb rc : (2 <= n)%nat -> List.length a = n -> List.length b = n -> List.length c = n ->
  (forall d, co2 = Some d -> List.length d = n) -> Forall2 nir_val b rb -> Forall2 nir_val c rc ->
  exists st' r, reflectance_from_tbs nir_E (nir_calc flux lim t) (image a) (image b) (image c) (option_map image co2) (Some (Some nir_lut)) st = (st', Ok r).
Proof.
  intros Hn Ha Hb Hc Hd Fb Fc.
  eapply (reflectance_ok nir_E (nir_calc flux lim t) _ _ _ _ _ (Some (Some nir_lut)) st _ _); [discriminate|now apply (nir_oneimage n)| |].
  - apply nir_rads; [lia|exact Fc].
  - apply nir_rads; [lia|exact Fb].
Qed.
Lemma nir_pixels flux lim t n a b c rb rc k z tn L T : (2 <= n)%nat -> List.length a = n -> List.length b = n -> List.length c = n ->
  Forall2 nir_val b rb -> Forall2 nir_val c rc ->
  nth_error a k = Some (Fin z) -> nth_error b k = Some tn -> nth_error rb k = Some L -> nth_error rc k = Some T ->
  pixel nir_E (nir_calc flux lim t) (image a) (image b) (image c) None (Some (Some nir_lut)) k z tn L T 1.
Proof.
  intros Hn Ha Hb Hc Fb Fc Pa Pb PL PT. unfold pixel. cbn [table_of].
  assert (G : forall d s (l : list XR), (2 <= List.length l)%nat -> forall k, @pix XRN k {| a_dtype := d; a_shape := s; a_data := l |} = nth_error l k).
  { intros d s [|x [|y l]] H j; cbn in H; try lia; reflexivity. }
  assert (LL : forall l rs, Forall2 nir_val l rs -> List.length rs = List.length l) by (induction 1; cbn; auto).
  split; [|split; [|split; [|split; [|reflexivity]]]].
  - cbn [get_as_array image]. rewrite G by lia. exact Pa.
  - cbn [get_as_array image]. rewrite G by lia. exact Pb.
  - eexists. split; [apply (nir_rads b rb); [lia|exact Fb]|]. rewrite G by (rewrite map_length, (LL _ _ Fb); lia).
    now rewrite nth_error_map, PL.
  - eexists. split; [apply (nir_rads c rc); [lia|exact Fc]|]. rewrite G by (rewrite map_length, (LL _ _ Fc); lia).
    now rewrite nth_error_map, PT.
Qed.

(** the image of the examples *)
Lemma nir_tb_val : Forall2 nir_val [Fin (1502 / 10); NaN; Fin (1502 / 10); Fin 150] [3000000; 1000000; 3000000; 1000000].
Proof. repeat constructor. Qed.
Lemma nir_therm_val : Forall2 nir_val [Fin 150; Fin 150; Fin 150; Fin (1501 / 10)] [1000000; 1000000; 1000000; 2000000].
Proof. repeat constructor. Qed.
Lemma nir_image : one_image [4%nat] nir_sun nir_tb nir_therm None (Some (Some nir_lut)).
Proof. now apply (nir_oneimage 4 _ _ _ None). Qed.
Lemma nir_floats : floats nir_tb nir_therm. Proof. apply nir_fl. Qed.
Lemma nir_call flux lim t st : exists st' r,
  reflectance_from_tbs nir_E (nir_calc flux lim t) nir_sun nir_tb nir_therm None (Some (Some nir_lut)) st = (st', Ok r).
Proof. eapply (nir_calls flux lim t st 4 _ _ _ None); [lia|reflexivity|reflexivity|reflexivity|discriminate|exact nir_tb_val|exact nir_therm_val]. Qed.
(** its pixels *)
Lemma nir_pixel flux lim t k z tn L T :
  nth_error [(60, Fin (1502 / 10), 3000000, 1000000); (60, NaN, 1000000, 1000000); (-10, Fin (1502 / 10), 3000000, 1000000);
             (60, Fin 150, 1000000, 2000000)] k = Some (z, tn, L, T) ->
  pixel nir_E (nir_calc flux lim t) nir_sun nir_tb nir_therm None (Some (Some nir_lut)) k z tn L T 1.
Proof.
  intros H. eapply (nir_pixels flux lim t 4); [lia|reflexivity|reflexivity|reflexivity|exact nir_tb_val|exact nir_therm_val| | | |];
    destruct k as [|[|[|[|k]]]]; try (destruct k; discriminate); injection H as <- <- <- <-; reflexivity.
Qed.
Lemma nir_sun60 flux : solar_term flux (Some 85) 60 = flux / 2 / PI.
Proof.
  unfold solar_term, clipped. rewrite Rmax_left by lra. rewrite Rmin_left by lra.
  replace (60 * PI / 180) with (PI / 3) by lra. rewrite cos_PI3. lra.
Qed.
Lemma nir_one : solar_term (2 * PI) (Some 85) 60 = 1.
Proof. rewrite nir_sun60. pose proof PI_RGT_0. field. lra. Qed.
Lemma nir_sunlow flux : solar_term flux (Some 85) (-10) = flux / PI.
Proof.
  unfold solar_term, clipped. rewrite Rmax_right by lra. rewrite Rmin_left by lra.
  replace (0 * PI / 180) with 0 by lra. rewrite cos_0. lra.
Qed.

(** ** Values outside [0, 1] *)
Lemma outside_0_1 : exists (E : nir_env XRN) c s sun nir therm lut st st' r v c' st1' r' v',
  reflectance_from_tbs E c sun nir therm None lut st = (st', Ok r) /\ one_image s sun nir therm None lut /\
  pix 3 r = Some (Fin v) /\ v < 0 /\
  reflectance_from_tbs E c' sun nir therm None lut st = (st1', Ok r') /\ pix 0 r' = Some (Fin v') /\ 1 < v'.
Proof.
  destruct (nir_call (2 * PI) None {| lut_tb := []; lut_radiance := [] |} fresh_state) as (st' & r & H).
  destruct (nir_call (6 / 10 * PI) None {| lut_tb := []; lut_radiance := [] |} fresh_state) as (st1' & r' & H').
  pose proof PI_RGT_0 as HPI.
  destruct (nir_result _ _ _ _ _ _ _ _ _ _ _ _ _ _ _ H nir_image nir_floats (nir_settings _ _ _)) as [_ P].
  destruct (nir_result _ _ _ _ _ _ _ _ _ _ _ _ _ _ _ H' nir_image nir_floats (nir_settings _ _ _)) as [_ P'].
  assert (H4 : (3 < size [4%nat])%nat) by (cbn; lia). assert (H0 : (0 < size [4%nat])%nat) by (cbn; lia).
  destruct (P 3%nat 60 _ _ _ 1 H4 (nir_pixel _ _ _ 3%nat _ _ _ _ eq_refl)) as (_ & _ & P3).
  destruct (P' 0%nat 60 _ _ _ 1 H0 (nir_pixel _ _ _ 0%nat _ _ _ _ eq_refl)) as (_ & _ & P0).
  rewrite nir_one in P3. rewrite nir_sun60 in P0. replace (6 / 10 * PI / 2 / PI) with (3 / 10) in P0 by (field; lra).
  unfold out_of_reach in P3, P0. cbn [xisnan orb] in P3, P0. rewrite !Rltb_false in P3, P0 by lra. cbn [orb] in P3, P0.
  exists nir_E, (nir_calc (2 * PI) None {| lut_tb := []; lut_radiance := [] |}), [4%nat], nir_sun, nir_tb, nir_therm, (Some (Some nir_lut)), fresh_state, st', r.
  eexists. exists (nir_calc (6 / 10 * PI) None {| lut_tb := []; lut_radiance := [] |}), st1', r'. eexists.
  split; [exact H|]. split; [exact nir_image|]. split; [exact P3|]. split; [lra|]. split; [exact H'|]. split; [exact P0|]. lra.
Qed.

(** ** The dead detector of the same band *)
Definition dead_conv : converter XRN :=
  {| cv_platform := "NOAA-19"; cv_instrument := "avhrr-3"; cv_band := BStr "3b"; cv_wavespace := WAVE_LENGTH; cv_detector := "det-2";
     cv_tb_resolution := Fin (1 / 10); cv_tb_scale := Fin 10; cv_rsr := RsrDict (Some (IOne "avhrr-3")) sample_data;
     cv_unit := "1e-6 m"; cv_si_scale := Fin (1 / 1000000); cv_bandname := Some "ch3b"%string; cv_bandwavelength := None;
     cv_waves := map Fin nir_waves; cv_response := map Fin [0; 0; 0];
     cv_rsr_integral := Fin 0 |}.
Lemma dead_conv_ok : RadTbConverter sample_load "NOAA-19" "avhrr-3" (BStr "3b"%string) "det-2" WAVE_LENGTH (Fin (1 / 10)) = Ok dead_conv.
Proof.
  unfold RadTbConverter. change (check_wavespace WAVE_LENGTH) with (Ok tt). cbn [bind].
  rewrite n0_fin. cbn [neqb XRN xeqb]. replace (Reqb (1 / 10) 0) with false by (symmetry; apply Reqb_false_iff; lra).
  cbn -[trapezoid Rdiv IZR xdiv]. unfold dead_conv, nir_waves, trapezoid.
  cbn [length Nat.eqb bind map trapz]. rewrite ?n0_fin. 
  unfold xlit. rewrite xdiv_fin by lra. cbn -[IZR Rdiv]. rewrite ?nlit_fin, ?n0_fin. cbn -[IZR Rdiv].
  destruct (Req_EM_T (2 / 1) 0) as [H|_]; [exfalso; lra|]. cbn [xadd].
  replace (1 / 1 / (1 / 10)) with 10 by lra.
  replace (36 / 10 * (1 / 1000000)) with (36 / 10000000) by lra.
  replace (37 / 10 * (1 / 1000000)) with (37 / 10000000) by lra.
  replace (38 / 10 * (1 / 1000000)) with (38 / 10000000) by lra.
  do 2 f_equal. f_equal. lra.
Qed.
Lemma dead_table : exists t, make_tb2rad_lut dead_conv true = Ok t /\ hd_error (lut_radiance t) = Some NaN.
Proof.
  unfold make_tb2rad_lut. change (cv_tb_resolution dead_conv) with (Fin (1 / 10)). rewrite arange_default.
  change (seq 0 2100) with (0 :: seq 1 2099)%nat. cbn [map].
  rewrite planck_radiance_rows by discriminate.
  assert (R : forall t, radiance1 dead_conv true t = Ok NaN).
  { intros t. unfold radiance1. cbn [dead_conv cv_waves cv_response cv_wavespace cv_rsr_integral nir_waves map].
    set (p := @planck1 XRN _). generalize (p (Fin (36 / 10000000)) t), (p (Fin (37 / 10000000)) t), (p (Fin (38 / 10000000)) t).
    intros a b c. unfold vmul, trapezoid. cbn [List.length Nat.eqb bind combine map fst snd trapz].
    assert (Z : forall x, nmul XRN x (Fin 0) = Fin 0 \/ nmul XRN x (Fin 0) = NaN).
    { intros [x| | |]; cbn; [left; f_equal; ring| | |now right]; right; unfold xinf_sign;
        repeat match goal with |- context [Rlt_dec ?a ?b] => destruct (Rlt_dec a b); try (exfalso; lra) end; reflexivity. }
    destruct (Z a) as [-> | ->], (Z b) as [-> | ->], (Z c) as [-> | ->]; rewrite ?nZ_fin; cbn -[IZR Rdiv];
      rewrite ?n0_fin; cbn -[IZR Rdiv]; try reflexivity; 
      destruct (Req_EM_T 2 0) as [|_]; try (exfalso; lra); cbn -[IZR Rdiv]; try reflexivity.
    destruct (Req_EM_T 0 0) as [_|]; [|congruence]. f_equal. unfold xinf_sign.
    repeat match goal with |- context [Rlt_dec ?a ?b] => destruct (Rlt_dec a b); try (exfalso; lra) end. reflexivity. }
  assert (M : forall l, mapM (radiance1 dead_conv true) l = Ok (map (fun _ => NaN) l)).
  { induction l as [|x l IH]; [reflexivity|]. cbn [mapM map]. now rewrite IH, R. }
  change (num XRN) with XR in *. rewrite M. cbn [bind]. eexists. split; [reflexivity|]. reflexivity.
Qed.

Definition dead_request : request XRN :=
  {| rq_platform := "NOAA-19"; rq_instrument := "avhrr-3"; rq_band := BStr "3b"; rq_detector := "det-2"; rq_wavespace := WAVE_LENGTH;
     rq_solar_flux := Some (Fin 10); rq_sunz_threshold := Some (Fin 85); rq_masking_limit := None |}.
Definition dead_calc (t : tblut XRN) : calculator XRN :=
  {| cl_conv := dead_conv; cl_bandname := "ch3b"; cl_bandwavelength := Fin (37 / 10); cl_solar_flux := Fin 10;
     cl_sunz_threshold := Some (Fin 85); cl_masking_limit := None; cl_lutfile := nir_path; cl_lut := t |}.
Lemma dead_build t : make_tb2rad_lut nir_conv true = Ok t -> build nir_E dead_request nir_w1 = (nir_w1, Ok (dead_calc t)).
Proof.
  intros Ht. unfold build. cbn [rq_platform rq_instrument rq_band rq_detector rq_wavespace rq_solar_flux rq_sunz_threshold rq_masking_limit dead_request].
  rewrite calculator_cases.
  match goal with |- context [@RadTbConverter ?n ?a ?b ?c ?d ?e ?f ?g] =>
    replace (@RadTbConverter n a b c d e f g) with (Ok dead_conv) by (symmetry; exact dead_conv_ok) end.
  replace (nir_band dead_conv "avhrr-3" (BStr "3b"%string)) with (@Ok (string * XR) ("ch3b"%string, Fin (37 / 10))) by (symmetry; exact nir_band_ok).
  cbn [fst snd]. rewrite nir_lutfile by auto.
  assert (L : set_lut nir_E dead_conv nir_path nir_w1 = (nir_w1, Ok t)).
  { unfold set_lut. change (path_exists nir_w1 nir_path) with true.
    unfold read_tb2rad_lut, look. change (read_file nir_w1 nir_path) with (@Ok string "table"). cbn [bind nir_E nx_dec].
    rewrite String.eqb_refl, Ht. reflexivity. }
  rewrite L. reflexivity.
Qed.

(** a call that fails after the radiances: the CO2 channel has another shape *)
Definition nir_co2_bad : nirarg XRN := image [Fin 140; Fin 140; Fin 140].
Lemma nir_fail flux lim t st : exists st',
  reflectance_from_tbs nir_E (nir_calc flux lim t) nir_sun nir_tb nir_therm (Some nir_co2_bad) (Some (Some nir_lut)) st = (st', Err ValueError).
Proof.
  unfold reflectance_from_tbs. change (rsr_data (cv_rsr (cl_conv (nir_calc flux lim t)))) with sample_data. cbv beta iota delta [sample_data].
  change (negb _) with false. cbv beta iota zeta. unfold mbind at 1. unfold mlift at 1.
  replace (tb2rad nir_E (cl_conv (nir_calc flux lim t)) (get_as_array nir_therm) (Some nir_lut)) with
    (@Ok (arr XRN) {| a_dtype := Float64; a_shape := [4%nat]; a_data := map Fin [1000000; 1000000; 1000000; 2000000] |})
    by (symmetry; apply nir_rads; [cbn; lia|exact nir_therm_val]).
  replace (tb2rad nir_E (cl_conv (nir_calc flux lim t)) (get_as_array nir_tb) (Some nir_lut)) with
    (@Ok (arr XRN) {| a_dtype := Float64; a_shape := [4%nat]; a_data := map Fin [3000000; 1000000; 3000000; 1000000] |})
    by (symmetry; apply nir_rads; [cbn; lia|exact nir_tb_val]).
  eexists. reflexivity.
Qed.

(** whole numbers of kelvin *)
Definition int_image (l : list XR) : nirarg XRN := NArray {| a_dtype := Int64; a_shape := [List.length l]; a_data := l |}.

(** configurations that name files *)
Definition named_yaml (s : string) : res cfg :=
  Ok (CMap [("rsr_dir"%string, Leaf (LStr "/rsr")); ("rayleigh_dir"%string, Leaf (LStr "/lut")); ("tb2rad_dir"%string, Leaf (LStr "/lut"));
            ("download_from_internet"%string, Leaf (LBool false));
            ("NOAA-19-avhrr-3"%string, CMap [("tb2rad_lut_filename"%string, Leaf (LStr "/lut//avhrr.npz"))]);
            ("NOAA-18-avhrr-3"%string, CMap [("tb2rad_lut_filename"%string, CMap [("ch3a"%string, Leaf (LStr "x")); ("ch3b"%string, Leaf (LStr "/nowhere/mine"))])])]).
Definition named_E : nir_env XRN :=
  {| nx_ext := {| x_yaml := named_yaml; x_expanduser := fun s => s; x_user_data_dir := "/data"; x_builtin_config := "/etc/psp.yaml";
                  x_mkdir_ok := fun _ => true; x_net := dl_net; x_untar := dl_untar |};
     nx_tempdir := "/tmp"; nx_load := sample_load; nx_enc := fun _ => "table"%string; nx_dec := fun _ => Err ValueError;
     nx_spline := fun _ _ => Err ValueError; nx_sun := ([], []); nx_oob16 := fun _ => 0%Z; nx_oob64 := fun _ => 0%Z |}.
Lemma int_rads : tb2rad nir_E nir_conv (get_as_array (int_image [Fin 150; Fin 150])) (Some nir_lut) =
  Ok {| a_dtype := Int64; a_shape := [2%nat]; a_data := [Fin 1000000; Fin 1000000] |}.
Proof.
  cbn [get_as_array int_image]. unfold tb2rad. cbv zeta. cbn [a_dtype a_shape a_data nir_lut lut_radiance lut_tb].
  assert (C : forall z, (0 <= z < 2 ^ 63)%Z -> @cast XRN nir_E Int64 (Fin (IZR z)) = Fin (IZR z)).
  { intros z Hz. unfold cast. cbn [ntrunc XRN xtrunc]. rewrite (Rtrunc_nonneg (IZR z) z) by (split; [apply Rle_refl|lra] || (apply IZR_le; lia)).
    assert (in_int64 z = true) as -> by (unfold in_int64; rewrite Bool.andb_true_iff, Z.leb_le, Z.ltb_lt; lia).
    rewrite nZ_fin. reflexivity. }
  cbn [map]. rewrite !C by lia.
  unfold tb2radiance, lut_lookup. rewrite (lut_start_default _ [Fin (1501 / 10); Fin (1502 / 10)]) by reflexivity.
  cbn [bind List.length lut_radiance]. change (Z.of_nat 3 - 1)%Z with 2%Z. change (2 >? 32767)%Z with false. cbv iota.
  cbn [mapM]. change (cv_tb_scale nir_conv) with (Fin 10). rewrite (nir_row 150 1500) by (lra || lia). reflexivity.
Qed.
Lemma int_case : forall t st, exists st' r,
  reflectance_from_tbs nir_E (nir_calc (2 * PI) None t) (image [Fin 60; Fin 60]) (int_image [Fin 150; Fin 150]) (int_image [Fin 150; Fin 150]) None (Some (Some nir_lut)) st = (st', Ok r) /\
  (pix 0 r = Some NaN \/ pix 0 r = Some (Fin 0)).
Proof.
  intros t st.
  assert (Im : one_image [2%nat] (image [Fin 60; Fin 60]) (int_image [Fin 150; Fin 150]) (int_image [Fin 150; Fin 150]) None (Some (Some nir_lut))).
  { repeat split; try discriminate. left. split; reflexivity. }
  destruct (reflectance_ok nir_E (nir_calc (2 * PI) None t) _ _ _ _ _ (Some (Some nir_lut)) st _ _ ltac:(discriminate) Im int_rads int_rads) as (st' & r & H).
  exists st', r. split; [exact H|].
  eapply (integer_temperatures _ _ _ _ _ _ _ _ _ _ _ (15 / 100000000) H Im eq_refl eq_refl eq_refl ltac:(lra) 0%nat 1000000 1000000 ltac:(cbn; lia));
    eexists; (split; [exact int_rads|reflexivity]).
Qed.
