(** Rayleigh correction: properties C33-C40. *)
From Coq Require Import Reals Lra ZArith String Ascii List Bool Lia.
From Verif Require Import Base NumSig XR M_Tables M_Utils M_Rsr M_RadTb M_Nir M_Rayleigh M_Download S_Nir S_Rayleigh
     P_Arr P_Rayleigh P_Rayleigh2 P_Rayleigh3 P_Rayleigh4 P_Rayleigh5 Samples Samples4.
Import ListNotations.
Local Open Scope R_scope.

(** C33.  Any angle, also NaN and infinities, against any largest secant [m]. *)
Theorem C33_angles_are_clipped : forall m, 1 <= m -> forall z : XR, exists a, @clip_angle XRN z (Fin m) = Fin a /\
  0 <= a <= max_angle m /\ 1 <= sec_deg a <= m /\
  (z = NaN -> a = 0) /\ (z = PInf -> a = max_angle m) /\ (z = NInf -> a = 0) /\
  (forall x, z = Fin x -> (0 <= x <= max_angle m -> a = x) /\ (x <= 0 -> a = 0) /\ (max_angle m <= x -> a = max_angle m)) /\
  clip_angle (Fin a) (Fin m) = Fin a /\
  (forall z' a', @clip_angle XRN z' (Fin m) = Fin a' -> nleb XRN z z' = true -> a <= a').
Proof. exact clipping. Qed.
Print Assumptions C33_angles_are_clipped.

Example C33_case : @clip_angle XRN (Fin 85) (Fin 2) = Fin 60 /\ @clip_angle XRN NaN (Fin 2) = Fin 0 /\ @clip_angle XRN (Fin 30) (Fin 2) = Fin 30.
Proof.
  assert (M : max_angle 2 = 60).
  { unfold max_angle. replace (1 / 2) with (cos (PI / 3)) by apply cos_PI3. pose proof PI_RGT_0. rewrite acos_cos by lra. field. lra. }
  destruct (C33_angles_are_clipped 2 ltac:(lra) (Fin 85)) as (a & -> & _ & _ & _ & _ & _ & Ha & _).
  destruct (C33_angles_are_clipped 2 ltac:(lra) NaN) as (b & -> & _ & _ & Hb & _).
  destruct (C33_angles_are_clipped 2 ltac:(lra) (Fin 30)) as (c & -> & _ & _ & _ & _ & _ & Hc & _).
  rewrite M in *. rewrite (proj2 (proj2 (Ha _ eq_refl))) by lra. rewrite (Hb eq_refl), (proj1 (Hc _ eq_refl)) by lra. auto.
Qed.

(** C34 *)
Theorem C34_wavelength_blending : forall lut ws ss az ts V smax tmax w, holds lut ws ss az ts V smax tmax -> inside ws w ->
  exists i w1 w2 f r1 r2 B, @wavelength_adjusted_lut XRN (Some lut) (Fin w) = Ok (map Fin B) /\
    nth_error ws i = Some w1 /\ nth_error ws (S i) = Some w2 /\ w1 < w <= w2 /\ 0 <= f <= 1 /\ f * w1 + (1 - f) * w2 = w /\
    nth_error V i = Some r1 /\ nth_error V (S i) = Some r2 /\
    List.length B = List.length r1 /\ List.length B = List.length r2 /\
    (forall n x y b, nth_error r1 n = Some x -> nth_error r2 n = Some y -> nth_error B n = Some b ->
       b = f * x + (1 - f) * y /\ Rmin x y <= b <= Rmax x y) /\
    (w = w2 -> B = r2).
Proof. exact blended. Qed.
Print Assumptions C34_wavelength_blending.

Theorem C34_wavelength_index : forall ws w, increasing ws -> inside ws w ->
  exists i w1 w2 f, @get_wavelength_index_and_factor XRN (map Fin ws) (Fin w) = Ok (S i, Fin f) /\
    nth_error ws i = Some w1 /\ nth_error ws (S i) = Some w2 /\ w1 < w <= w2 /\
    0 <= f < 1 /\ f * w1 + (1 - f) * w2 = w.
Proof. exact wavelength_index. Qed.
Print Assumptions C34_wavelength_index.

(** between 500 and 600 nm, a quarter of the way *)
Example C34_case : exists B b, @wavelength_adjusted_lut XRN (Some ray_lut) (Fin 525) = Ok (map Fin B) /\
  nth_error B 0 = Some b /\ b = 5 / 100.
Proof.
  destruct (C34_wavelength_blending _ _ _ _ _ _ _ _ 525 ray_holds (ray_inside 525 ltac:(lra)))
    as (i & w1 & w2 & f & r1 & r2 & B & E & W1 & W2 & Hw & Hf & Hs & V1 & V2 & L1 & L2 & HB & _).
  destruct i as [|[|[|i]]]; cbn in W1, W2; try discriminate.
  - injection W1 as <-. injection W2 as <-. lra.
  - injection W1 as <-. injection W2 as <-. cbn [nth_error ray_V] in V1, V2. injection V1 as <-. injection V2 as <-.
    destruct B as [|b B]; [cbn in L1; discriminate|]. exists (b :: B), b. split; [exact E|]. split; [reflexivity|].
    destruct (HB 0%nat _ _ b eq_refl eq_refl eq_refl) as [-> _]. unfold ray_g. assert (f = 3 / 4) as -> by lra. lra.
Qed.

(** C35.  [w] is not strictly between two wavelengths of the table (or not a
    number); then the correction is zero, also on the end nodes.  A red band
    value that is NaN or +infinity still gives NaN.  With dask installed, numpy
    angles and no red band the call fails instead. *)
Theorem C35_outside_is_zero : forall oob dask load platform sensor band lut ws w s sun sat azi red,
  rl_wavelengths lut = map Fin ws -> effective_wavelength load platform sensor band = Ok w -> (forall x, w = Fin x -> ~ inside ws x) ->
  sane dask sun red -> fits s (r_arr (match red with None => sun | Some r => r end)) ->
  (dask = true /\ r_kind sun = Numpy /\ red = None /\
     get_reflectance oob dask load platform sensor (Some lut) sun sat azi band red = Err AttributeError) \/
  (~ (dask = true /\ r_kind sun = Numpy /\ red = None) /\
   exists r, get_reflectance oob dask load platform sensor (Some lut) sun sat azi band red = Ok r /\ fits s r /\
     forall k, (k < size s)%nat ->
       match red with
       | None => pix k r = Some (Fin 0)
       | Some rd => forall x, pix k (r_arr rd) = Some x -> pix k r = Some (match x with PInf | NaN => NaN | _ => Fin 0 end)
       end).
Proof. exact reflectance_outside. Qed.
Print Assumptions C35_outside_is_zero.

(** at 400 nm, the first wavelength: zero without dask, an error with it; at
    every wavelength above it the same pixel has at least two percent *)
Example C35_case :
  (exists r, get_reflectance (fun _ => 0%Z) false sample_load "NOAA-19" "avhrr-3" (Some ray_lut) ray_sun ray_sat ray_azi (BNumber (Fin (4 / 10))) None = Ok r /\
     pix 0 r = Some (Fin 0) /\ pix 1 r = Some (Fin 0)) /\
  get_reflectance (fun _ => 0%Z) true sample_load "NOAA-19" "avhrr-3" (Some ray_lut) ray_sun ray_sat ray_azi (BNumber (Fin (4 / 10))) None = Err AttributeError /\
  forall w, 400 < w < 600 -> exists r x,
    get_reflectance (fun _ => 0%Z) true sample_load "NOAA-19" "avhrr-3" (Some ray_lut) ray_sun ray_sat ray_azi (BNumber (Fin (w / 1000))) None = Ok r /\
    pix 0 r = Some (Fin x) /\ 2 <= x.
Proof.
  assert (W : effective_wavelength sample_load "NOAA-19" "avhrr-3" (BNumber (Fin (4 / 10))) = Ok (Fin 400)) by (rewrite ray_band; do 2 f_equal; lra).
  assert (O : forall x, Fin 400 = Fin x -> ~ inside ray_ws x).
  { intros x [= <-] [(a & Ia & La) _]. cbn in Ia. destruct Ia as [<- | [<- | [<- | []]]]; lra. }
  pose proof (fun d => C35_outside_is_zero (fun _ => 0%Z) d sample_load "NOAA-19" "avhrr-3" _ ray_lut ray_ws _ [2%nat] ray_sun ray_sat ray_azi None eq_refl W O) as C.
  assert (F : fits [2%nat] (r_arr ray_sun)) by (left; split; reflexivity).
  split; [|split].
  - destruct (C false) as [(A & _)|(_ & r & E & _ & P)]; [right; split; [reflexivity|discriminate]|exact F|discriminate|].
    exists r. split; [exact E|]. split; apply P; cbn; lia.
  - destruct (C true) as [(_ & _ & _ & E)|(A & _)]; [now left|exact F|exact E|]. exfalso. apply A. auto.
  - intros w Hw. assert (Wb : effective_wavelength sample_load "NOAA-19" "avhrr-3" (BNumber (Fin (w / 1000))) = Ok (Fin w)) by (rewrite ray_band; do 2 f_equal; lra).
    destruct (call_value (fun _ => 0%Z) true sample_load "NOAA-19" "avhrr-3" _ _ _ _ _ _ _ _ _ w ray_holds Wb (ray_inside w Hw) ray_sun ray_sat ray_azi [2%nat]) as (v & P & _).
    destruct (P None ray_im) as (r & E & _ & _).
    destruct (call_bounds _ _ _ _ _ _ _ _ _ _ _ _ _ _ w ray_holds Wb (ray_inside w Hw) _ _ _ _ r _ _ ray_im E ray_values 0%nat 180) as (x & Px & Bx); [cbn; lia|reflexivity|lra|].
    exists r, (percent x). split; [exact E|]. split; [exact Px|]. unfold percent. rewrite Rmax_left, Rmin_left; lra.
Qed.

(** C36.  Any table contents, any angles, any red band, any kind of array. *)
Theorem C36_percent : forall oob dask load platform sensor lut sun sat azi band red r,
  @get_reflectance XRN oob dask load platform sensor lut sun sat azi band red = Ok r ->
  forall x, In x (a_data r) -> x = NaN \/ exists v, x = Fin v /\ 0 <= v <= 100.
Proof. exact reflectance_range. Qed.
Print Assumptions C36_percent.

(** No NaN where the table is finite and the azimuth and red band are numbers,
    whatever the zenith angles. *)
Theorem C36_number : forall oob dask load platform sensor band lut ws ss az ts V smax tmax w s sun sat azi red r,
  holds lut ws ss az ts V smax tmax -> effective_wavelength load platform sensor band = Ok w ->
  ray_image s sun sat azi red -> sane dask sun red ->
  get_reflectance oob dask load platform sensor (Some lut) sun sat azi band red = Ok r ->
  forall k a, (k < size s)%nat -> pix k (r_arr azi) = Some (Fin a) -> (forall rd, red = Some rd -> exists b, pix k (r_arr rd) = Some (Fin b)) ->
  exists v, pix k r = Some (Fin v) /\ 0 <= v <= 100.
Proof. exact reflectance_finite. Qed.
Print Assumptions C36_number.

(** a call succeeds on every image and gives one value per pixel *)
Theorem C36_call_succeeds : forall oob dask load platform sensor band lut ws ss az ts V smax tmax w s sun sat azi red,
  holds lut ws ss az ts V smax tmax -> effective_wavelength load platform sensor band = Ok (Fin w) -> inside ws w ->
  ray_image s sun sat azi red ->
  exists r, get_reflectance oob dask load platform sensor (Some lut) sun sat azi band red = Ok r /\ fits s r.
Proof.
  intros oob dask load platform sensor band lut ws ss az ts V smax tmax w s sun sat azi red H W I R.
  destruct (reflectance_inside oob dask load platform sensor band lut ws ss az ts V smax tmax w s sun sat azi red H W I R) as (r & B & E & F & _). eauto.
Qed.
Print Assumptions C36_call_succeeds.

(** the pixel without sun angle, under a red band of 150 percent *)
Example C36_case : exists r v,
  get_reflectance (fun _ => 0%Z) true sample_load "NOAA-19" "avhrr-3" (Some ray_lut) ray_sun ray_sat ray_azi (BNumber (Fin (55 / 100))) (Some (ray_red NaN (Fin 150))) = Ok r /\
  pix 1 r = Some (Fin v) /\ 0 <= v <= 100.
Proof.
  assert (Wb : effective_wavelength sample_load "NOAA-19" "avhrr-3" (BNumber (Fin (55 / 100))) = Ok (Fin 550)) by (rewrite ray_band; do 2 f_equal; lra).
  destruct (C36_call_succeeds (fun _ => 0%Z) true _ _ _ _ _ _ _ _ _ _ _ _ _ _ _ _ _ _ ray_holds Wb (ray_inside 550 ltac:(lra)) (ray_im_red NaN (Fin 150))) as (r & E & _).
  destruct (C36_number _ _ _ _ _ _ _ _ _ _ _ _ _ _ _ _ _ _ _ _ _ ray_holds Wb (ray_im_red NaN (Fin 150)) (or_introl eq_refl) E 1%nat 90) as (v & P & B);
   [cbn; lia|reflexivity|intros rd [= <-]; exists 150; reflexivity|]. eauto.
Qed.

(** C37.  Bounds for the interpolation itself and for a call. *)
Theorem C37_interpolation_bounds : forall oob lut ws ss az ts V smax tmax row lo hi sun sat azi r,
  holds lut ws ss az ts V smax tmax -> List.length row = (List.length ss * (List.length az * List.length ts))%nat ->
  (forall v, In v row -> lo <= v <= hi) ->
  List.length sat = List.length sun -> List.length azi = List.length sun -> @interp_by_angles XRN oob lut (map Fin row) sun sat azi = Ok r ->
  forall k a, (k < List.length sun)%nat -> nth_error azi k = Some (Fin a) -> 0 <= a <= 180 ->
    exists v, nth_error r k = Some (Fin v) /\ 100 * lo <= v <= 100 * hi.
Proof. exact static_bounds. Qed.
Print Assumptions C37_interpolation_bounds.

Theorem C37_call_bounds : forall oob dask load platform sensor band lut ws ss az ts V smax tmax w,
  holds lut ws ss az ts V smax tmax -> effective_wavelength load platform sensor band = Ok (Fin w) -> inside ws w ->
  forall sun sat azi s r lo hi, ray_image s sun sat azi None ->
  get_reflectance oob dask load platform sensor (Some lut) sun sat azi band None = Ok r ->
  (forall row x, In row V -> In x row -> lo <= x <= hi) ->
  forall k a, (k < size s)%nat -> pix k (r_arr azi) = Some (Fin a) -> 0 <= a <= 180 ->
  exists x, pix k r = Some (Fin (percent x)) /\ 100 * lo <= x <= 100 * hi.
Proof. exact call_bounds. Qed.
Print Assumptions C37_call_bounds.

(** At a node of the table (equidistant axes, an interior wavelength) the value of the node. *)
Theorem C37_node : forall oob dask load platform sensor band lut ws ss az ts V smax tmax w,
  holds lut ws ss az ts V smax tmax -> effective_wavelength load platform sensor band = Ok (Fin w) -> inside ws w ->
  forall sun sat azi s r n row k z t a i j l x y u v, ray_image s sun sat azi None ->
  get_reflectance oob dask load platform sensor (Some lut) sun sat azi band None = Ok r ->
  equidistant ss -> equidistant az -> equidistant ts ->
  nth_error ws n = Some w -> nth_error V n = Some row ->
  nth_error ss i = Some x -> nth_error az j = Some y -> nth_error ts l = Some u -> at_node az ts row i j l = Some v ->
  (k < size s)%nat -> pix k (r_arr sun) = Some (Fin z) -> pix k (r_arr sat) = Some (Fin t) -> pix k (r_arr azi) = Some (Fin a) ->
  0 <= z < 90 -> sec_deg z = x -> a = 180 - y -> 0 <= t < 90 -> sec_deg t = u ->
  pix k r = Some (Fin (percent (100 * v))).
Proof. exact call_node. Qed.
Print Assumptions C37_node.

(** Between the nodes a function affine in each argument is reproduced; for
    azimuths outside 0..180 it is extrapolated. *)
Theorem C37_affine : forall oob lut ws ss az ts V smax tmax row g sun sat azi,
  holds lut ws ss az ts V smax tmax -> List.length row = (List.length ss * (List.length az * List.length ts))%nat ->
  equidistant ss -> equidistant az -> equidistant ts -> multi_affine g -> sampled g ss az ts row ->
  List.length sat = List.length sun -> List.length azi = List.length sun ->
  exists r, @interp_by_angles XRN oob lut (map Fin row) sun sat azi = Ok r /\ List.length r = List.length sun /\
    forall k z t a, nth_error sun k = Some (Fin z) -> nth_error sat k = Some (Fin t) -> nth_error azi k = Some (Fin a) ->
      0 <= z <= max_angle smax -> 0 <= t <= max_angle tmax ->
      nth_error r k = Some (Fin (100 * g (sec_deg z) (180 - a) (sec_deg t))).
Proof. exact static_affine. Qed.
Print Assumptions C37_affine.

(** 500 nm, sun at 60 degrees (secant 2), satellite in nadir: 6 percent *)
Example C37_case : exists r,
  get_reflectance (fun _ => 0%Z) true sample_load "NOAA-19" "avhrr-3" (Some ray_lut) ray_sun ray_sat ray_azi (BNumber (Fin (5 / 10))) None = Ok r /\
  pix 0 r = Some (Fin 6).
Proof.
  assert (Wb : effective_wavelength sample_load "NOAA-19" "avhrr-3" (BNumber (Fin (5 / 10))) = Ok (Fin 500)) by (rewrite ray_band; do 2 f_equal; lra).
  destruct (C36_call_succeeds (fun _ => 0%Z) true _ _ _ _ _ _ _ _ _ _ _ _ _ _ _ _ _ _ ray_holds Wb (ray_inside 500 ltac:(lra)) ray_im) as (r & E & _).
  exists r. split; [exact E|].
  pose proof (C37_node _ _ _ _ _ _ _ _ _ _ _ _ _ _ _ ray_holds Wb (ray_inside 500 ltac:(lra)) _ _ _ _ r 1%nat (ray_row (2 / 100)) 0%nat 60 0 180 1%nat 0%nat 0%nat 2 0 1
    (ray_g (2 / 100) 2 0 1) ray_im E ray_ss_equi ray_az_equi ray_ts_equi) as C.
  rewrite C; try reflexivity; try lra.
  - do 2 f_equal. unfold ray_g, percent. rewrite Rmax_left, Rmin_left; lra.
  - cbn; lia.
  - apply sec60.
  - apply sec0.
Qed.

(** at an azimuth difference of 720 degrees the interpolation (before the
    clipping to 0..100) gives -2 percent from a table of values above 4 percent:
    it is extrapolated *)
Example C37_extrapolates : exists r, @interp_by_angles XRN (fun _ => 0%Z) ray_lut (map Fin (ray_row (2 / 100))) [Fin 0] [Fin 0] [Fin (180 * 4)] = Ok r /\
  nth_error r 0 = Some (Fin (-2)) /\ forall v, In v (ray_row (2 / 100)) -> 4 / 100 <= v.
Proof.
  destruct (C37_affine (fun _ => 0%Z) _ _ _ _ _ _ _ _ (ray_row (2 / 100)) (ray_g (2 / 100)) [Fin 0] [Fin 0] [Fin (180 * 4)] ray_holds eq_refl
    ray_ss_equi ray_az_equi ray_ts_equi (ray_g_affine _) (ray_row_sampled _) eq_refl eq_refl) as (r & E & _ & P).
  exists r. split; [exact E|]. split.
  - rewrite (P 0%nat 0 0 (180 * 4) eq_refl eq_refl eq_refl).
    + rewrite sec0. do 2 f_equal. unfold ray_g. lra.
    + pose proof (max_angle_bounds 3 ltac:(lra)). lra.
    + pose proof (max_angle_bounds 2 ltac:(lra)). lra.
  - intros v Hv. cbn in Hv. unfold ray_g in Hv. repeat (destruct Hv as [<- | Hv]; [lra|]). destruct Hv.
Qed.

(** C38.  For each pixel one value [v k] gives the result without red band and
    with every red band. *)
Theorem C38_cloud_relaxation : forall oob dask load platform sensor band lut ws ss az ts V smax tmax w,
  holds lut ws ss az ts V smax tmax -> effective_wavelength load platform sensor band = Ok (Fin w) -> inside ws w ->
  forall (sun sat azi : rarr XRN) s, exists v : nat -> R,
  (forall red, ray_image s sun sat azi red ->
     exists r, get_reflectance oob dask load platform sensor (Some lut) sun sat azi band red = Ok r /\ fits s r /\
     forall k a, (k < size s)%nat -> pix k (r_arr azi) = Some (Fin a) ->
       match red with
       | None => pix k r = Some (Fin (percent (v k)))
       | Some rd => forall b, pix k (r_arr rd) = Some (Fin b) -> pix k r = Some (Fin (percent (cloud_factor b * v k)))
       end) /\
  (forall k a lo hi, (k < size s)%nat -> is_image s (r_arr sun) -> is_image s (r_arr sat) -> pix k (r_arr azi) = Some (Fin a) -> 0 <= a <= 180 ->
     (forall row x, In row V -> In x row -> lo <= x <= hi) -> 100 * lo <= v k <= 100 * hi).
Proof. exact call_value. Qed.
Print Assumptions C38_cloud_relaxation.

(** hence, with non-negative table values: *)
Theorem C38_red_band : forall oob dask load platform sensor band lut ws ss az ts V smax tmax w s sun sat azi r0,
  holds lut ws ss az ts V smax tmax -> effective_wavelength load platform sensor band = Ok (Fin w) -> inside ws w ->
  (exists M, forall row x, In row V -> In x row -> 0 <= x <= M) ->
  ray_image s sun sat azi None -> get_reflectance oob dask load platform sensor (Some lut) sun sat azi band None = Ok r0 ->
  forall rd r k a b, ray_image s sun sat azi (Some rd) -> get_reflectance oob dask load platform sensor (Some lut) sun sat azi band (Some rd) = Ok r ->
  (k < size s)%nat -> pix k (r_arr azi) = Some (Fin a) -> 0 <= a <= 180 -> pix k (r_arr rd) = Some (Fin b) ->
  exists x0 x, pix k r0 = Some (Fin x0) /\ pix k r = Some (Fin x) /\
    (b <= 20 -> x = x0) /\ (20 <= b -> x0 < 100 -> x = Rmax ((100 - b) / 80) 0 * x0) /\ (100 <= b -> x = 0) /\
    (forall rd' r' b', ray_image s sun sat azi (Some rd') -> get_reflectance oob dask load platform sensor (Some lut) sun sat azi band (Some rd') = Ok r' ->
       pix k (r_arr rd') = Some (Fin b') -> b <= b' -> exists x', pix k r' = Some (Fin x') /\ x' <= x).
Proof.
  intros oob dask load platform sensor band lut ws ss az ts V smax tmax w s sun sat azi r0 H W Hin (M & HM) I0 E0 rd r k a b I1 E1 Hk Ha Hr Hb.
  destruct (C38_cloud_relaxation oob dask load platform sensor band lut ws ss az ts V smax tmax w H W Hin sun sat azi s) as (v & P & Bd).
  pose proof I0 as (A1 & A2 & _). pose proof (Bd k a 0 M Hk A1 A2 Ha Hr HM) as [Lv _].
  destruct (P None I0) as (q & Q & _ & P0). rewrite E0 in Q. injection Q as <-. specialize (P0 k a Hk Ha).
  destruct (P (Some rd) I1) as (q & Q & _ & P1). rewrite E1 in Q. injection Q as <-. specialize (P1 k a Hk Ha b Hb).
  assert (V0 : 0 <= v k) by lra. exists (percent (v k)), (percent (cloud_factor b * v k)). split; [exact P0|]. split; [exact P1|]. split; [|split; [|split]].
  - intros Hb20. destruct (Req_dec b 20) as [-> |]; [rewrite cloud_mid by lra|rewrite cloud_low by lra]; f_equal; lra.
  - intros Hb20 Hx. assert (v k < 100). { unfold percent in Hx. rewrite (Rmax_left (v k)) in Hx by lra. unfold Rmin in Hx. destruct (Rle_dec _ _); lra. }
    rewrite cloud_mid by lra. unfold percent. rewrite (Rmax_left (v k)), (Rmin_left (v k)) by lra.
    destruct (Rle_lt_dec b 100).
    + rewrite (Rmax_left ((100 - b) / 80)) by lra. rewrite Rmax_left by (apply Rmult_le_pos; lra). rewrite Rmin_left; [reflexivity|].
      assert ((100 - b) / 80 * v k <= 1 * v k) by (apply Rmult_le_compat_r; lra). lra.
    + rewrite (Rmax_right ((100 - b) / 80)) by lra. rewrite Rmult_0_l.
      assert ((100 - b) / 80 * v k <= 0 * v k) by (apply Rmult_le_compat_r; lra). rewrite Rmax_right, Rmin_left; lra.
  - intros Hb100. apply percent_neg. rewrite cloud_mid by lra. assert ((100 - b) / 80 * v k <= 0 * v k) by (apply Rmult_le_compat_r; lra). lra.
  - intros rd' r' b' I2 E2 Hb' Hbb. destruct (P (Some rd') I2) as (q & Q & _ & P2). rewrite E2 in Q. injection Q as <-.
    exists (percent (cloud_factor b' * v k)). split; [exact (P2 k a Hk Ha b' Hb')|]. apply percent_mono.
    apply Rmult_le_compat_r; [exact V0|]. now apply cloud_anti.
Qed.
Print Assumptions C38_red_band.

(** 6 percent become 3 under a red reflectance of 60 *)
Example C38_case : exists r,
  get_reflectance (fun _ => 0%Z) true sample_load "NOAA-19" "avhrr-3" (Some ray_lut) ray_sun ray_sat ray_azi (BNumber (Fin (5 / 10))) (Some (ray_red (Fin 60) (Fin 0))) = Ok r /\
  pix 0 r = Some (Fin 3).
Proof.
  assert (Wb : effective_wavelength sample_load "NOAA-19" "avhrr-3" (BNumber (Fin (5 / 10))) = Ok (Fin 500)) by (rewrite ray_band; do 2 f_equal; lra).
  destruct (C36_call_succeeds (fun _ => 0%Z) true _ _ _ _ _ _ _ _ _ _ _ _ _ _ _ _ _ _ ray_holds Wb (ray_inside 500 ltac:(lra)) (ray_im_red (Fin 60) (Fin 0))) as (r & E & _).
  destruct C37_case as (r0 & E0 & P6).
  assert (NN : exists M, forall row x, In row ray_V -> In x row -> 0 <= x <= M) by (exists (24 / 100); intros row x Hr Hx; pose proof (ray_values row x Hr Hx); lra).
  destruct (C38_red_band _ _ _ _ _ _ _ _ _ _ _ _ _ _ _ _ _ _ _ r0 ray_holds Wb (ray_inside 500 ltac:(lra)) NN
    ray_im E0 _ r 0%nat 180 60 (ray_im_red (Fin 60) (Fin 0)) E) as (x0 & x & Q0 & Q & _ & Hm & _); [cbn; lia|reflexivity|lra|reflexivity|].
  exists r. split; [exact E|]. rewrite Q. rewrite P6 in Q0. injection Q0 as <-. rewrite Hm by lra. rewrite Rmax_left by lra. do 2 f_equal. lra.
Qed.

(** C39 *)
Theorem C39_high_zenith : forall th mx st, th < mx -> 0 <= st -> exists f : R -> R,
  (forall s zen ray, fits s zen -> fits s ray ->
     exists r, @reduce_rayleigh_highzenith XRN zen ray (Fin th) (Fin mx) (Fin st) = Ok r /\ fits s r /\
     forall k z x, (k < size s)%nat -> pix k zen = Some (Fin z) -> pix k ray = Some (Fin x) -> pix k r = Some (Fin (x * f z))) /\
  forall z, 0 <= f z <= 1 /\ (z <= th -> f z = 1) /\ (st = 0 -> f z = 1) /\
    (mx <= z -> 1 <= st -> f z = 0) /\ (mx <= z -> st <= 1 -> f z <= 1 - st) /\
    (th <= z <= mx -> st <= 1 -> f z = 1 - st * ((z - th) / (mx - th))) /\
    (forall z', z <= z' -> f z' <= f z).
Proof.
  intros th mx st Hm Hs. exists (fun z => Rreduce z th mx st). split; [intros; now apply reduced|exact (reduce_factor th mx st Hm Hs)].
Qed.
Print Assumptions C39_high_zenith.

(** half-way between 70 and 90 degrees with strength 1 *)
Example C39_case : exists r, @reduce_rayleigh_highzenith XRN (r_arr (farr [Fin 80; Fin 95; Fin 10])) (r_arr (farr [Fin 6; Fin 6; Fin 6])) (Fin 70) (Fin 90) (Fin 1) = Ok r /\
  pix 0 r = Some (Fin 3) /\ pix 1 r = Some (Fin 0) /\ pix 2 r = Some (Fin 6).
Proof.
  destruct (C39_high_zenith 70 90 1 ltac:(lra) ltac:(lra)) as (f & P & F).
  destruct (P [3%nat] (r_arr (farr [Fin 80; Fin 95; Fin 10])) (r_arr (farr [Fin 6; Fin 6; Fin 6]))) as (r & E & _ & Q);
    [left; split; reflexivity|left; split; reflexivity|].
  exists r. split; [exact E|]. rewrite (Q 0%nat 80 6), (Q 1%nat 95 6), (Q 2%nat 10 6); try reflexivity; try (cbn; lia).
  destruct (F 80) as (_ & _ & _ & _ & _ & F80 & _). destruct (F 95) as (_ & _ & _ & F95 & _). destruct (F 10) as (_ & F10 & _).
  rewrite F80, F95, F10 by lra.
  repeat split; do 2 f_equal; lra.
Qed.

(** C40 *)
Theorem C40_sensor_name : forall platform sensor,
  let without_slash s r := list_ascii_of_string r = filter (fun c => negb (Ascii.eqb c "/")) (list_ascii_of_string s) in
  (dget platform INSTRUMENTS = None -> exists r, normalize_sensor platform sensor = Ok r /\ without_slash sensor r) /\
  (forall i, dget platform INSTRUMENTS = Some (IOne i) -> exists r, normalize_sensor platform sensor = Ok r /\ without_slash i r) /\
  (forall l, dget platform INSTRUMENTS = Some (IList l) ->
     (In sensor l -> exists r, normalize_sensor platform sensor = Ok r /\ without_slash sensor r) /\
     (~ In sensor l -> normalize_sensor platform sensor = Err ValueError)) /\
  (forall r, normalize_sensor platform sensor = Ok r -> ~ In "/"%char (list_ascii_of_string r)).
Proof. exact sensor_name. Qed.
Print Assumptions C40_sensor_name.

Example C40_case : normalize_sensor "NOAA-19" "abi" = Ok "avhrr3"%string /\ normalize_sensor "NOAA-19" "avhrr/3" = Ok "avhrr3"%string /\
  normalize_sensor "My-Sat" "avhrr/3" = Ok "avhrr3"%string /\ normalize_sensor "FY-4B" "avhrr/3" = Err ValueError.
Proof. vm_compute. auto. Qed.
