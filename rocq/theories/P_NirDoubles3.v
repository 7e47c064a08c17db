(** The call of the Examples of C109: a table made in doubles, and four pixels. *)
From Coq Require Import Reals Lra ZArith String List Bool Lia SpecFloat Sorting.Sorted.
From Flocq Require Import Core BinarySingleNaN.
From Verif Require Import Base NumSig XR B64 M_Tables M_Utils M_Blackbody M_World M_Config M_Download M_RadTb M_Nir M_Rsr S_B64 S_Planck S_RadTb S_Nir S_NirDoubles P_B64 P_B64ops P_B642 P_B64lib P_B64planck P_B64band P_B64err3
     P_Arr P_Nir P_Nir3 P_NirDoubles P_NirDoubles2 Samples Samples3 Samples2.
Import ListNotations.
Local Open Scope R_scope.

Definition sensor lib (c : converter (B64N lib)) : Prop :=
  RadTbConverter (load64 lib) "NOAA-19" "avhrr-3" (BStr "b"%string) "det-1" WAVE_LENGTH (nlit (B64N lib) 1 10) = Ok c.

Lemma sensor_facts lib c : sensor lib c -> rsr_data (cv_rsr c) <> [] /\ chk (-20) (-19) (cv_rsr_integral c) = true /\
  Forall (mag (-17) (-16)) (cv_waves c) /\ exists w1 w2 w3 r1 r2 r3, cv_waves c = [w1; w2; w3] /\ cv_response c = [r1; r2; r3] /\ 0 <= to_R r1 /\ 0 <= to_R r2 /\ 0 <= to_R r3.
Proof.
  unfold sensor. match goal with |- ?x = Ok c -> _ => let v := eval vm_compute in x in change x with v end. intros H. apply Ok_inj in H. subst c. cbn [cv_rsr rsr_data cv_waves cv_response cv_rsr_integral].
  split; [discriminate|]. split; [reflexivity|]. split; [repeat (apply Forall_cons; [apply chk_mag; reflexivity|]); apply Forall_nil|].
  do 6 eexists. split; [reflexivity|]. split; [reflexivity|].
  assert (K : forall x, chk (-4) 1 x = true -> 0 <= to_R x) by (intros x Hx; apply chk_mag in Hx; left; exact (mag_pos _ _ _ Hx)).
  repeat split; apply K; reflexivity.
Qed.

Lemma photon_row w j : mag (-17) (-16) w -> (j < 2100)%nat -> 1 / 10 <= photon false (to_R w) (to_R (row64 j)) <= 100.
Proof.
  intros (_ & _ & A) Hj. pose proof (rows_close j Hj) as C.
  assert (B : 0 <= INR j <= 2100) by (split; [apply pos_INR|]; replace 2100 with (INR 2100) by (rewrite INR_IZR_INZ; reflexivity); apply le_INR; lia).
  set (u := to_R w) in *. set (t := to_R (row64 j)) in *. clearbody u t. assert (T : 128 <= t <= 512) by lra. clear C B. cbn in A.
  unfold photon, h_planck, c_light, k_boltz. assert (W : / 131072 * 128 <= u * t <= / 65536 * 512) by (split; apply Rmult_le_compat; lra).
  replace (u * (13806488 / 10 ^ 30) * t) with (u * t * (13806488 / 10 ^ 30)) by ring. apply div_range; [|split]; lra.
Qed.

Lemma planck_small w j : mag (-17) (-16) w -> (j < 2100)%nat -> 0 <= Planck false (to_R w) (to_R (row64 j)) <= 10 ^ 11.
Proof.
  intros A Hj. pose proof (photon_row w j A Hj) as P. destruct A as (_ & _ & A). cbn [Planck]. unfold B_lambda. unfold photon in P.
  set (x := h_planck * c_light / (to_R w * k_boltz * to_R (row64 j))) in *. set (u := to_R w) in *. cbn in A.
  assert (X : 1 / 10 <= exp x - 1) by (pose proof (exp_ineq1_le x); lra).
  assert (U : (/ 131072) ^ 5 <= u ^ 5) by (apply pow_incr; lra).
  assert (Q : 0 <= 2 * h_planck * c_light ^ 2 / u ^ 5 <= 10 ^ 10).
  { unfold h_planck, c_light. assert (0 < u ^ 5) by (apply pow_lt; lra). split.
    - apply Rmult_le_pos; [lra|left; now apply Rinv_0_lt_compat].
    - apply (Rmult_le_reg_r (u ^ 5)); auto. unfold Rdiv at 1. rewrite Rmult_assoc, Rinv_l by lra. nra. }
  set (q := 2 * h_planck * c_light ^ 2 / u ^ 5) in *. clearbody q. set (y := exp x - 1) in *. clearbody y. split.
  - apply Rmult_le_pos; [lra|left; apply Rinv_0_lt_compat; lra].
  - apply (Rmult_le_reg_r y); [lra|]. unfold Rdiv. rewrite Rmult_assoc, Rinv_l by lra. nra.
Qed.

(** every radiance looked up is an ordinary one *)
Lemma sensor_lookup lib oob c t x : accurate_exp (1 / 10 ^ 15) (m_exp lib) -> sensor lib c -> make_tb2rad_lut c true = Ok t ->
  exists r, tb2radiance oob c [x : B64N lib] (Some t) true = Ok [r] /\ double_between 0 (101 * 10 ^ 9) r.
Proof.
  intros AC Hs Ht. destruct (sensor_facts lib c Hs) as (_ & _ & Mw & w1 & w2 & w3 & r1 & r2 & r3 & Ew & Er & R1 & R2 & R3).
  pose proof Hs as Hs'. unfold sensor in Hs'. destruct (case_band lib) as (c' & Hc' & K1 & K2 & K3 & K4 & K5 & _).
  assert (c' = c) as -> by (rewrite Hs' in Hc'; apply Ok_inj in Hc'; auto).
  pose proof Hs' as Hg. apply constructor_gen in Hg as (Hr & Hsc).
  destruct (lut64 _ _ _ _ Hr Ht) as (HL & HT & HR). unfold tb2radiance at 1. rewrite Hsc.
  change (ndiv (B64N lib) (nlit (B64N lib) 1 1) (nlit (B64N lib) 1 10)) with scale64.
  destruct (lookup64 lib oob t x HL HT) as (r & Q1 & Q2). exists r. split; [exact Q1|].
  set (i := Z.to_nat _) in *. assert (Hi : (i < 2100)%nat) by (rewrite <- HL; apply nth_error_Some; congruence).
  pose proof (fun w M => planck_small w i M Hi) as PS. destruct (HR i Hi) as (r' & Q3 & Q4). assert (r' = r) as -> by congruence.
  destruct (band_accuracy lib oob _ _ _ _ _ _ _ c true [row64 i] AC Hs') as (rads & B1 & B2); auto; [discriminate| | |].
  - constructor; [|constructor]. destruct (row64_double i Hi) as [D B]. split; [exact D|]. lra.
  - intros w t0 Hw [<-|[]]. change (String.eqb WAVE_LENGTH WAVE_NUMBER) with false. apply photon_row; auto. rewrite Forall_forall in Mw. auto.
  - generalize dependent (row64 i). intros t0 PS Q4 B1 B2.
    assert (E0 : @tb2radiance (B64N lib) oob c [t0] None true = @planck_radiance (B64N lib) c [t0] true) by reflexivity.
    assert (E1 : @Ok (list b64) rads = Ok [r]) by (etransitivity; [symmetry; exact B1|]; etransitivity; [exact E0|exact Q4]). apply Ok_inj in E1. subst rads. 
    inversion B2 as [|? ? ? ? [D B] _]; subst. split; [exact D|].
    change (String.eqb WAVE_LENGTH WAVE_NUMBER) with false in B. unfold band_radiance in B. rewrite Ew, Er in *. cbn [map Rvmul combine fst snd Rtrapz] in *.
    inversion Mw as [|? ? M1 Mw1]; subst. inversion Mw1 as [|? ? M2 Mw2]; subst. inversion Mw2 as [|? ? M3 _]; subst.
    pose proof (PS _ M1) as P1. pose proof (PS _ M2) as P2. pose proof (PS _ M3) as P3.
    inversion K3 as [|? ? K3' HD]; subst. inversion K3' as [|? ? _ HD']; subst. inversion HD as [|? ? G1]; subst. inversion HD' as [|? ? G2]; subst.
    set (p1 := Planck false (to_R w1) _) in *. set (p2 := Planck false (to_R w2) _) in *. set (p3 := Planck false (to_R w3) _) in *.
    clearbody p1 p2 p3. match type of B with Rabs (_ - ?a / ?b) <= _ => set (n := a) in *; set (d := b) in * end.
    assert (N : 0 <= n <= 10 ^ 11 * d).
    { unfold n, d. cbn [combine map fst snd Rtrapz] in *.
      assert (0 <= p1 * to_R r1 <= 10 ^ 11 * to_R r1) by (split; [apply Rmult_le_pos; lra|apply Rmult_le_compat_r; lra]).
      assert (0 <= p2 * to_R r2 <= 10 ^ 11 * to_R r2) by (split; [apply Rmult_le_pos; lra|apply Rmult_le_compat_r; lra]).
      assert (0 <= p3 * to_R r3 <= 10 ^ 11 * to_R r3) by (split; [apply Rmult_le_pos; lra|apply Rmult_le_compat_r; lra]).
      set (a := to_R w2 - to_R w1). set (b := to_R w3 - to_R w2). assert (0 <= a /\ 0 <= b) as [Ha Hb] by (unfold a, b; lra).
      set (q1 := p1 * to_R r1) in *. set (q2 := p2 * to_R r2) in *. set (q3 := p3 * to_R r3) in *.
      assert (0 <= a * (q2 + q1) <= a * (10 ^ 11 * (to_R r2 + to_R r1))) by (split; [apply Rmult_le_pos; lra|apply Rmult_le_compat_l; lra]).
      assert (0 <= b * (q3 + q2) <= b * (10 ^ 11 * (to_R r3 + to_R r2))) by (split; [apply Rmult_le_pos; lra|apply Rmult_le_compat_l; lra]).
      lra. }
    assert (Y : 0 <= n / d <= 10 ^ 11).
    { clearbody n d. split; [apply Rmult_le_pos; [lra|left; now apply Rinv_0_lt_compat]|].
      apply (Rmult_le_reg_r d); auto. unfold Rdiv. rewrite Rmult_assoc, Rinv_l by lra. lra. }
    set (y := n / d) in *. clearbody y. apply Rabs_le_inv in B. lra.
Qed.

(** a calculator of that sensor, and the arrays of one call: 300 K, 310 K, a gap
    in the data, and 300 K with the sun at 100 degrees *)
Definition E64 lib : nir_env (B64N lib) :=
  {| nx_ext := dl_ext; nx_tempdir := "/lut"; nx_load := load64 lib; nx_enc := fun _ => "table"%string; nx_dec := fun _ => Err ValueError;
     nx_spline := fun _ _ => Err ValueError; nx_sun := ([], []); nx_oob16 := fun _ => 0%Z; nx_oob64 := fun _ => 0%Z |}.
Definition calc64 lib (c : converter (B64N lib)) (t : tblut (B64N lib)) : calculator (B64N lib) :=
  {| cl_conv := c; cl_bandname := "b"; cl_bandwavelength := b64_ratio 11 1; cl_solar_flux := b64_ratio 1000000 1;
     cl_sunz_threshold := Some (b64_ratio 85 1); cl_masking_limit := Some (b64_ratio 85 1); cl_lutfile := "/lut/b.npz"; cl_lut := t |}.
Definition image64 lib (l : list b64) : nirarg (B64N lib) := NArray {| a_dtype := Float64; a_shape := [4%nat]; a_data := (l : list (B64N lib)) |}.
Definition sun64 lib := image64 lib [b64_ratio 60 1; b64_ratio 60 1; b64_ratio 60 1; b64_ratio 100 1].
Definition tb64 lib := image64 lib [b64_ratio 300 1; b64_ratio 310 1; S754_nan; b64_ratio 300 1].
Definition therm64 lib := image64 lib [b64_ratio 280 1; b64_ratio 280 1; b64_ratio 280 1; b64_ratio 280 1].

Lemma image64_ok lib : one_image [4%nat] (sun64 lib) (tb64 lib) (therm64 lib) None None /\ floats (tb64 lib) (therm64 lib).
Proof. repeat split; cbn; try discriminate. left. split; reflexivity. Qed.

Lemma looked_up lib oob c t l : accurate_exp (1 / 10 ^ 15) (m_exp lib) -> sensor lib c -> make_tb2rad_lut c true = Ok t ->
  exists rs, tb2radiance oob c (l : list (B64N lib)) (Some t) true = Ok rs /\ Forall (double_between 0 (101 * 10 ^ 9)) rs /\ List.length rs = List.length l.
Proof.
  intros AC Hs Ht. cbn [tb2radiance]. unfold lut_lookup.
  assert (S : exists s0, lut_start t (cv_tb_scale c) = Ok s0 /\ (Z.of_nat (List.length (lut_radiance t)) - 1 >? 32767)%Z = false).
  { destruct (sensor_lookup lib oob c t (b64_ratio 1 1) AC Hs Ht) as (r & H & _). cbn [tb2radiance] in H. unfold lut_lookup in H.
    destruct (lut_start _ _) as [s0|]; [|discriminate]. cbn [bind] in H. exists s0. split; [reflexivity|]. destruct (_ >? _)%Z; [discriminate|reflexivity]. }
  destruct S as (s0 & E0 & E1). rewrite E0. cbn [bind]. rewrite E1.
  induction l as [|x l (rs & IH & F & Len)]; [exists []; repeat split; constructor|].
  destruct (sensor_lookup lib oob c t x AC Hs Ht) as (r & H & D). cbn [tb2radiance] in H. unfold lut_lookup in H. rewrite E0 in H. cbn [bind] in H. rewrite E1 in H.
  cbn [mapM] in *. match type of H with context [bind ?e _] => destruct e as [r0|] end; [|discriminate]. cbn [bind] in *.
  assert (r0 = r) as -> by (apply Ok_inj in H; congruence). rewrite IH. cbn [bind]. exists (r :: rs). repeat split; auto. cbn [List.length]. now rewrite Len.
Qed.

Lemma case_call64 : exists c t, sensor rounded_lib c /\ make_tb2rad_lut c true = Ok t /\
  forall st, exists st' r L0 L1 T S v0 v1,
  reflectance_from_tbs (E64 _) (calc64 _ c t) (sun64 _) (tb64 _) (therm64 _) None None st = (st', Ok r) /\
  attributes st' 0 L0 T (b64_ratio 1 1) S /\ attributes st' 1 L1 T (b64_ratio 1 1) S /\
  ordinary (cv_rsr_integral c) L0 T (b64_ratio 1 1) S /\ ordinary (cv_rsr_integral c) L1 T (b64_ratio 1 1) S /\
  pix 0 r = Some v0 /\ v0 <> S754_nan /\ pix 1 r = Some v1 /\ v1 <> S754_nan /\ pix 2 r = Some S754_nan /\ pix 3 r = Some S754_nan.
Proof.
  destruct (case_converter rounded_lib) as (c & t & Hs & Ht & _). exists c, t. split; [exact Hs|]. split; [exact Ht|]. intros st.
  destruct (sensor_facts _ c Hs) as (Hd & HI & _).
  destruct (looked_up rounded_lib (fun _ => 0%Z) c t (a_data (get_as_array (tb64 rounded_lib))) exp_rounded_accurate Hs Ht) as (Ls & EL & FL & NL).
  destruct (looked_up rounded_lib (fun _ => 0%Z) c t (a_data (get_as_array (therm64 rounded_lib))) exp_rounded_accurate Hs Ht) as (Ts & ET & FT & NT).
  destruct (image64_ok rounded_lib) as [Him Hf].
  assert (Et : {| lut_tb := lut_tb t; lut_radiance := map (fun x : b64 => x) (lut_radiance t) |} = t) by (rewrite map_id; now destruct t).
  assert (R3 : exists rad, tb2rad (E64 rounded_lib) c (get_as_array (tb64 rounded_lib)) (Some t) = Ok rad).
  { cbn [tb2rad]. change (map (cast (E64 rounded_lib) (a_dtype (get_as_array (tb64 rounded_lib)))) (lut_radiance t)) with (map (fun x : b64 => x) (lut_radiance t)). rewrite Et.
    cbn [nx_oob16 E64]. rewrite EL. cbn [bind]. eauto. }
  assert (R11 : exists rad, tb2rad (E64 rounded_lib) c (get_as_array (therm64 rounded_lib)) (Some t) = Ok rad).
  { cbn [tb2rad]. change (map (cast (E64 rounded_lib) (a_dtype (get_as_array (therm64 rounded_lib)))) (lut_radiance t)) with (map (fun x : b64 => x) (lut_radiance t)). rewrite Et.
    cbn [nx_oob16 E64]. rewrite ET. cbn [bind]. eauto. }
  destruct R3 as (rad3 & R3), R11 as (rad11 & R11).
  destruct (reflectance_ok (E64 rounded_lib) (calc64 rounded_lib c t) [4%nat] (sun64 _) (tb64 _) (therm64 _) None None st rad11 rad3 Hd Him R11 R3) as (st' & r & H).
  assert (Z : forall k z tn tt, (k < 4)%nat -> pix k (get_as_array (sun64 rounded_lib)) = Some z -> pix k (get_as_array (tb64 rounded_lib)) = Some tn ->
     pix k (get_as_array (therm64 rounded_lib)) = Some tt ->
     exists L T, attributes st' k L T (b64_ratio 1 1) (solar_raw (calc64 rounded_lib c t) z) /\ double_between 0 (101 * 10 ^ 9) L /\ double_between 0 (101 * 10 ^ 9) T /\
       tb2radiance (fun _ => 0%Z) c [tt : B64N rounded_lib] (Some t) true = Ok [T]).
  { intros k z tn tt Hk Pz Pn Pt.
    destruct (sensor_lookup rounded_lib (fun _ => 0%Z) c t tn exp_rounded_accurate Hs Ht) as (L & QL & DL).
    destruct (sensor_lookup rounded_lib (fun _ => 0%Z) c t tt exp_rounded_accurate Hs Ht) as (T & QT & DT).
    exists L, T. split; [|auto].
    destruct (reflectance_pixels _ _ _ _ _ _ _ _ _ _ _ H Him) as (rad11' & rad3x & solar & corr & E11 & E33 & -> & _ & _ & _ & _ & P).
    destruct (P k Hk) as (z' & tn' & L' & T' & F' & Qz & Qn & QL' & QT' & QF & QS & QC & _).
    assert (z' = z) as -> by congruence. destruct Him as (In & It & _).
    pose proof (radiance_of_pixel _ _ _ _ _ _ _ _ _ _ In eq_refl Hk Pn E33 QL) as K1.
    pose proof (radiance_of_pixel _ _ _ _ _ _ _ _ _ _ It eq_refl Hk Pt E11 QT) as K2.
    unfold attributes. cbn [ns_rad3x ns_rad3x_t11 ns_correction ns_solar]. cbn [factor_raw] in QF. injection QF as <-.
    split; [eauto|]. split; [eauto|]. split; [exact QC|]. eauto. }
  set (S := solar_raw (calc64 rounded_lib c t) (b64_ratio 60 1)) in *.
  destruct (Z 0%nat (b64_ratio 60 1) (b64_ratio 300 1) (b64_ratio 280 1) ltac:(lia) eq_refl eq_refl eq_refl) as (L0 & T & A0 & DL0 & DT & QT).
  destruct (Z 1%nat (b64_ratio 60 1) (b64_ratio 310 1) (b64_ratio 280 1) ltac:(lia) eq_refl eq_refl eq_refl) as (L1 & T1 & A1 & DL1 & _ & QT1).
  assert (T1 = T) as -> by (rewrite QT in QT1; apply Ok_inj in QT1; congruence).
  destruct (Z 2%nat (b64_ratio 60 1) S754_nan (b64_ratio 280 1) ltac:(lia) eq_refl eq_refl eq_refl) as (L2 & T2 & A2 & DL2 & DT2 & _).
  destruct (Z 3%nat (b64_ratio 100 1) (b64_ratio 300 1) (b64_ratio 280 1) ltac:(lia) eq_refl eq_refl eq_refl) as (L3 & T3 & A3 & DL3 & DT3 & _).
  clear Z. set (S3 := solar_raw (calc64 rounded_lib c t) (b64_ratio 100 1)) in *.
  assert (DS : double_between (26 * 10 ^ 4) (10 ^ 6) S) by (apply (chk_between 18 19); [vm_compute; reflexivity|cbn; lra|cbn; lra]).
  assert (DS3 : double_between 0 (10 ^ 6) S3) by (apply (chk_between 18 19); [vm_compute; reflexivity|cbn; lra|cbn; lra]).
  assert (DI : double_between 0 (191 / 10 ^ 8) (cv_rsr_integral c)) by (apply (chk_between (-20) (-19)); [exact HI|cbn; lra|cbn; lra]).
  assert (D1 : double_between 0 (10 ^ 3) (b64_ratio 1 1)) by (apply (chk_between 0 1); [vm_compute; reflexivity|cbn; lra|cbn; lra]).
  assert (O : forall L T', double_between 0 (101 * 10 ^ 9) L -> double_between 0 (101 * 10 ^ 9) T' -> ordinary (cv_rsr_integral c) L T' (b64_ratio 1 1) S).
  { intros L T' D D'. split; [destruct DI; split; [auto|lra]|]. split; [destruct D; split; [auto|lra]|]. split; [destruct D'; split; [auto|lra]|]. split; [auto|]. destruct DS; split; [auto|lra]. }
  assert (D60 : is_double (b64_ratio 60 1)) by (split; vm_compute; reflexivity). assert (D100 : is_double (b64_ratio 100 1)) by (split; vm_compute; reflexivity).
  assert (D85 : limit_like (cl_masking_limit (calc64 rounded_lib c t))) by (split; vm_compute; reflexivity).
  assert (V : to_R (b64_ratio 60 1) = 60 /\ to_R (b64_ratio 85 1) = 85 /\ to_R (b64_ratio 100 1) = 100 /\ to_R (b64_ratio 1 1) = 1).
  { repeat split; apply ratio_int; lia. }
  destruct V as (V60 & V85 & V100 & V1).
  assert (In60 : ~ sun_out64 (cl_masking_limit (calc64 rounded_lib c t)) (b64_ratio 60 1)) by (cbn [sun_out64 calc64 cl_masking_limit]; rewrite V60, V85; lra).
  assert (In100 : sun_out64 (cl_masking_limit (calc64 rounded_lib c t)) (b64_ratio 100 1)) by (cbn [sun_out64 calc64 cl_masking_limit]; rewrite V100, V85; lra).
  assert (G : 5 / 1000 + 1 / 10 ^ 9 <= contrast (cv_rsr_integral c) T (b64_ratio 1 1) S).
  { unfold contrast. rewrite V1, Rmult_1_r. destruct DS as [_ DS], DT as [_ DT], DI as [_ DI].
    assert (to_R T * to_R (cv_rsr_integral c) <= 101 * 10 ^ 9 * (191 / 10 ^ 8)) by (apply Rmult_le_compat; lra). lra. }
  destruct (masked64 _ _ _ _ _ _ _ _ _ _ _ _ 0%nat _ _ _ _ _ _ H Him Hf ltac:(cbn; lia) eq_refl eq_refl A0 (O _ _ DL0 DT) D60 D85) as (v0 & P0 & _ & _ & N0).
  destruct (masked64 _ _ _ _ _ _ _ _ _ _ _ _ 1%nat _ _ _ _ _ _ H Him Hf ltac:(cbn; lia) eq_refl eq_refl A1 (O _ _ DL1 DT) D60 D85) as (v1 & P1 & _ & _ & N1).
  destruct (masked64 _ _ _ _ _ _ _ _ _ _ _ _ 2%nat _ _ _ _ _ _ H Him Hf ltac:(cbn; lia) eq_refl eq_refl A2 (O _ _ DL2 DT2) D60 D85) as (v2 & P2 & _ & N2 & _).
  assert (O3 : ordinary (cv_rsr_integral c) L3 T3 (b64_ratio 1 1) S3).
  { split; [destruct DI; split; [auto|lra]|]. split; [destruct DL3; split; [auto|lra]|]. split; [destruct DT3; split; [auto|lra]|]. auto. }
  destruct (masked64 _ _ _ _ _ _ _ _ _ _ _ _ 3%nat _ _ _ _ _ _ H Him Hf ltac:(cbn; lia) eq_refl eq_refl A3 O3 D100 D85) as (v3 & P3 & _ & N3 & _).
  exists st', r, L0, L1, T, S, v0, v1. split; [exact H|]. split; [exact A0|]. split; [exact A1|]. split; [apply O; auto|]. split; [apply O; auto|].
  split; [exact P0|]. split; [apply N0; auto; discriminate|]. split; [exact P1|]. split; [apply N1; auto; discriminate|].
  rewrite N2 in P2 by auto. rewrite N3 in P3 by auto. auto.
Qed.

Lemma sensor_conditions c : sensor rounded_lib c ->
  Forall (wave_like (String.eqb (cv_wavespace c) WAVE_NUMBER)) (cv_waves c) /\ Sorted Rle (map to_R (cv_waves c)) /\
  Forall response_like (cv_response c) /\ double_between (1 / 10 ^ 12) (10 ^ 6) (cv_rsr_integral c).
Proof.
  intros Hs. destruct (case_converter rounded_lib) as (c' & t & Hs' & _ & A & B & C & _).
  assert (c' = c) as -> by (unfold sensor in Hs; rewrite Hs in Hs'; apply Ok_inj in Hs'; auto).
  split; [exact A|]. split; [exact B|]. split; [exact C|]. destruct (sensor_facts _ c Hs) as (_ & HI & _).
  apply (chk_between (-20) (-19)); [exact HI|cbn; lra|cbn; lra].
Qed.

Lemma ints_between z : (0 <= z <= 3276)%Z -> double_between 0 (32767 / 10) (b64_ratio z 1) /\ to_R (b64_ratio z 1) = IZR z.
Proof.
  intros H. destruct (ratio_int z) as (V & F & E); [lia|]. split; [|exact E]. split; [split; auto|]. rewrite E.
  assert (0 <= IZR z <= 3276) by (split; apply IZR_le; lia). lra.
Qed.
