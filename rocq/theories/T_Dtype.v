(** Property theorems C98, C99 (element types). *)
From Coq Require Import ZArith Reals Lra Lia String List Bool SpecFloat.
From Verif Require Import Base NumSig XR B64 M_Blackbody M_Utils M_RadTb M_AtmIR M_Rayleigh M_Dtype S_Dtype P_Dtype P_Dtype2 Samples11.
Import ListNotations.

(** C98: the temperature has the float type of the radiance, whatever the type
    of the wavelength. *)
Theorem C98_rad2temp : forall (N : Num) (np : numpy N) (w r : tv N) d, floats d r ->
  exists t, rad2temp_t np w r = Ok t /\ ty t = Np d.
Proof. intros N np w r d [E D]. exact (rad2temp_type np w r d D E). Qed.
Print Assumptions C98_rad2temp.
(** 11 um as a double, the radiance in single precision *)
Example C98_rad2temp_case : floats Float32 (s32 plain_lib 9573178 1) /\
  match rad2temp_t np0 (s64 plain_lib 11 1000000) (s32 plain_lib 9573178 1) with
  | Ok t => ty t = Np Float32 /\ val t <> S754_nan | Err _ => False end.
Proof. split; [split; reflexivity|]. vm_compute. split; [reflexivity|discriminate]. Qed.

(** The wavenumber version: not so for a numpy wavenumber in double precision.  *)
Theorem C98_wn_rad2temp : forall (N : Num) (np : numpy N) (w r : tv N) d, floats d r ->
  ty (wn_rad2temp_t np w r) = match ty w with Np Float32 | PyInt | PyFloat => Np d | _ => Np Float64 end.
Proof. intros N np w r d [E D]. exact (wn_rad2temp_type np w r d D E). Qed.
Print Assumptions C98_wn_rad2temp.
Theorem C98_wn_rad2temp_refuted : ~ forall (N : Num) (np : numpy N) (w r : tv N) d, floats d r -> ty (wn_rad2temp_t np w r) = Np d.
Proof. exact wn_keeps_not. Qed.
Print Assumptions C98_wn_rad2temp_refuted.
Example C98_wn_rad2temp_case : floats Float32 (s32 plain_lib 1 10000) /\
  ty (wn_rad2temp_t np0 (s64 plain_lib 90909 1) (s32 plain_lib 1 10000)) = Np Float64 /\
  ty (wn_rad2temp_t np0 (s32 plain_lib 90909 1) (s32 plain_lib 1 10000)) = Np Float32.
Proof. split; [split; reflexivity|]. vm_compute. split; reflexivity. Qed.

(** Planck radiances: single precision only if wavelengths and temperatures are. *)
Theorem C98_planck : forall (N : Num) (np : numpy N) wl (w t : tv N) dw dt, floats dw w -> floats dt t ->
  ty (planck_t np wl w t) = Np (wider dw dt).
Proof. intros N np wl w t dw dt [Ew Dw] [Et Dt]. exact (planck_type np wl w t dw dt Dw Ew Et Dt). Qed.
Print Assumptions C98_planck.
Example C98_planck_case : floats Float64 (s64 plain_lib 11 1000000) /\ floats Float32 (s32 plain_lib 300 1) /\
  ty (planck_t np0 true (s64 plain_lib 11 1000000) (s32 plain_lib 300 1)) = Np Float64.
Proof. split; [split; reflexivity|]. split; [split; reflexivity|]. vm_compute. reflexivity. Qed.

(** Band radiances computed by integration: in addition the response, and if
    normalized its integral. *)
Theorem C98_band_radiance : forall (N : Num) (np : numpy N) wl (ws rs : list (tv N)) integral t norm dw dr di dt,
  Forall (floats dw) ws -> Forall (floats dr) rs -> floats di integral -> floats dt t ->
  List.length ws = List.length rs -> (2 <= List.length ws)%nat ->
  ty (band_radiance_t np wl ws rs integral t norm) = Np (wider dt (wider dw (if norm then wider dr di else dr))).
Proof. exact @band_type. Qed.
Print Assumptions C98_band_radiance.
Example C98_band_radiance_case : let ws := [s64 plain_lib 11 1000000; s64 plain_lib 12 1000000] in let rs := [s32 plain_lib 1 1; s32 plain_lib 1 2] in
  Forall (floats Float64) ws /\ Forall (floats Float32) rs /\ floats Float64 (s64 plain_lib 3 4000000) /\ floats Float32 (s32 plain_lib 300 1) /\
  ty (band_radiance_t np0 true ws rs (s64 plain_lib 3 4000000) (s32 plain_lib 300 1) true) = Np Float64.
Proof.
  cbv zeta. split; [repeat constructor|]. split; [repeat constructor|]. split; [split; reflexivity|]. split; [split; reflexivity|].
  vm_compute. reflexivity.
Qed.

(** Band radiances from a table: the type of the temperatures, one temperature
    a Python float. *)
Theorem C98_lut : forall (N : Num) (np : numpy N) oob scale lut one (t v : tv N) d, floats d t ->
  lut_radiance_t np oob scale lut one t = Ok v -> ty v = if one then PyFloat else Np d.
Proof. exact @lut_type. Qed.
Print Assumptions C98_lut.
(** The value is an entry of the table, rounded to the type. *)
Theorem C98_lut_value : forall (N : Num) (np : numpy N) oob scale lut one (t v : tv N) d, floats d t -> lut_radiance_t np oob scale lut one t = Ok v ->
  exists r, In r (lut_radiance lut) /\ val v = match d with Float32 => f32 np r | _ => r end.
Proof. exact lut_value. Qed.
Print Assumptions C98_lut_value.
Example C98_lut_case : floats Float32 (s32 plain_lib 15002 100) /\
  match lut_radiance_t np0 (fun _ => 0%Z) (b64_ratio 100 1)
    {| lut_tb := [b64_ratio 150 1; b64_ratio 15001 100; b64_ratio 15002 100] : list (B64N plain_lib); lut_radiance := [b64_ratio 1 1; b64_ratio 2 1; b64_ratio 1 3] |}
    false (s32 plain_lib 15002 100) with Ok v => ty v = Np Float32 /\ val v <> b64_ratio 1 3 | Err _ => False end.
Proof. split; [split; reflexivity|]. vm_compute. split; [reflexivity|discriminate]. Qed.

(** The reflectance: single precision only if both the near-infrared and the
    thermal temperatures are; sun zenith angles, solar flux and the CO2 band do
    not matter.  It is computed for every pixel. *)
Theorem C98_reflectance : forall (N : Num) (np : numpy N) flux integral thr lim (rad11 rad3x sunz nir therm : tv N) co2 dn dt,
  floats dn nir -> floats dt therm -> floats_or_item dt rad11 -> floats_or_item dn rad3x ->
  exists v, reflectance_t np flux integral thr lim rad11 rad3x sunz nir therm co2 = Ok v /\ ty v = Np (wider dn dt).
Proof. exact @reflectance_ok. Qed.
Print Assumptions C98_reflectance.
Example C98_reflectance_case : floats Float32 (s32 plain_lib 290 1) /\ floats_or_item Float32 (s32 plain_lib 1 10) /\
  match reflectance_t np0 (s64 plain_lib 2 1) (b64_ratio 1 3) (Some (b64_ratio 85 1)) (Some (b64_ratio 88 1))
    (s32 plain_lib 1 10) (s32 plain_lib 3 10) (s64 plain_lib 30 1) (s32 plain_lib 290 1) (s32 plain_lib 270 1) (Some (s64 plain_lib 250 1)) with
  | Ok v => ty v = Np Float32 /\ val v <> S754_nan | Err _ => False end.
Proof. split; [split; reflexivity|]. split; [split; [left|]; reflexivity|]. vm_compute. split; [reflexivity|discriminate]. Qed.

(** The emissive part, as radiance and as temperature. *)
Theorem C98_emissive : forall (N : Num) (np : numpy N) central (rad11 rad3x r3x : tv N) dn dt tb,
  floats_or_item dt rad11 -> floats_or_item dn rad3x -> ty r3x = Np (wider dn dt) ->
  exists v, emissive_t np central rad11 rad3x r3x tb = Ok v /\ ty v = Np (wider dn dt).
Proof. exact @emissive_type. Qed.
Print Assumptions C98_emissive.
Example C98_emissive_case : floats_or_item Float32 (s32 plain_lib 1 10) /\ ty (s32 plain_lib 1 5) = Np (wider Float32 Float32) /\
  match emissive_t np0 (b64_ratio 38 10) (s32 plain_lib 1 10) (s32 plain_lib 3 10) (s32 plain_lib 1 5) true with
  | Ok v => ty v = Np Float32 /\ val v <> S754_nan | Err _ => False end.
Proof. split; [split; [left|]; reflexivity|]. split; [reflexivity|]. vm_compute. split; [reflexivity|discriminate]. Qed.

(** The SEVIRI formulas keep the type. *)
Theorem C98_seviri : forall (N : Num) (np : numpy N) c (x t r : tv N) d, floats d x ->
  (sev_radiance2tb_t np c x = Ok t -> ty t = Np d) /\ (sev_tb2radiance_t np c x = Ok r -> ty r = Np d).
Proof. exact @seviri_types. Qed.
Print Assumptions C98_seviri.
Example C98_seviri_case : floats Float32 (s32 plain_lib 300 1) /\
  match sev_tb2radiance_t np0 {| sv_platform := "Meteosat-9"; sv_bandname := "IR3.9" |} (s32 plain_lib 300 1) with Ok t => ty t = Np Float32 /\ val t <> S754_nan | Err _ => False end.
Proof. split; [split; reflexivity|]. vm_compute. split; [reflexivity|discriminate]. Qed.

(** The infrared limb correction: a masked array keeps the type of the data, a
    dask array takes the wider of data and zenith angles.  Integer data are
    refused in a masked array and become doubles in a dask array. *)
Theorem C98_limb : forall (N : Num) (np : numpy N) (t z : tv N) d dz, floats d t -> floats dz z ->
  ty (dask_pixel_t np t z) = Np (wider d dz) /\ exists v, masked_pixel_t np t z = Ok v /\ ty v = Np d.
Proof. exact @limb_types. Qed.
Print Assumptions C98_limb.
Theorem C98_limb_integers : forall (N : Num) (np : numpy N) (t z : tv N), integers t ->
  masked_pixel_t np t z = Err TypeError /\ (forall dz, floats dz z -> ty (dask_pixel_t np t z) = Np Float64).
Proof. exact @limb_integers. Qed.
Print Assumptions C98_limb_integers.
Theorem C98_limb_same_type_refuted : ~ forall (N : Num) (np : numpy N) (t z : tv N) d dz v, floats d t -> floats dz z ->
  masked_pixel_t np t z = Ok v -> ty (dask_pixel_t np t z) = ty v.
Proof. exact limb_differ. Qed.
Print Assumptions C98_limb_same_type_refuted.
Example C98_limb_case : floats Float32 (s32 plain_lib 240 1) /\ floats Float64 (s64 plain_lib 50 1) /\ integers (s16 plain_lib 240) /\
  ty (dask_pixel_t np0 (s32 plain_lib 240 1) (s64 plain_lib 50 1)) = Np Float64.
Proof. split; [split; reflexivity|]. split; [split; reflexivity|]. split; [exists Int16; split; reflexivity|]. vm_compute. reflexivity. Qed.

(** The Rayleigh correction has the type of the red band (without one, of the
    sun zenith angles), both what is announced to dask and what is computed. *)
Theorem C98_rayleigh : forall (N : Num) (np : numpy N) interp table (sunz : tv N) red d,
  floats d (match red with Some r => r | None => sunz end) ->
  exists v, rayleigh_t np interp table sunz red = Ok (Np d, v) /\ ty v = Np d.
Proof. exact @rayleigh_type. Qed.
Print Assumptions C98_rayleigh.
(** With an integer red band, dask is told an integer type and gets doubles. *)
Theorem C98_rayleigh_integers_refuted : forall (N : Num) (np : numpy N) interp table (sunz red : tv N), integers red ->
  exists d v, rayleigh_t np interp table sunz (Some red) = Ok (Np d, v) /\ is_float d = false /\ ty v = Np Float64.
Proof. exact @rayleigh_integers. Qed.
Print Assumptions C98_rayleigh_integers_refuted.
Example C98_rayleigh_case : floats Float32 (s32 plain_lib 30 1) /\ integers (s16 plain_lib 30) /\
  match rayleigh_t np0 (fun t => hd (b64_ratio 0 1) t) (Some [b64_ratio 1 10]) (s64 plain_lib 60 1) (Some (s32 plain_lib 30 1)),
        rayleigh_t np0 (fun t => hd (b64_ratio 0 1) t) (Some [b64_ratio 1 10]) (s64 plain_lib 60 1) (Some (s16 plain_lib 30)) with
  | Ok (Np Float32, v), Ok (Np Int16, w) => val v <> S754_zero false /\ ty w = Np Float64
  | _, _ => False end.
Proof. split; [split; reflexivity|]. split; [exists Int16; split; reflexivity|]. vm_compute. split; [discriminate|reflexivity]. Qed.
Theorem C98_reduce : forall (N : Num) (np : numpy N) (z r : tv N) a b c dz d, floats dz z -> floats d r ->
  ty (reduce_t np z r a b c) = Np (wider dz d).
Proof. exact @reduce_type. Qed.
Print Assumptions C98_reduce.
Example C98_reduce_case : floats Float32 (s32 plain_lib 80 1) /\
  ty (reduce_t np0 (s32 plain_lib 80 1) (s32 plain_lib 12 1) (b64_ratio 70 1) (b64_ratio 90 1) (b64_ratio 1 1)) = Np Float32.
Proof. split; [split; reflexivity|]. vm_compute. reflexivity. Qed.

(** On doubles the typed formulas give the values of the other model files. *)
Theorem C98_doubles : forall (N : Num) (np : numpy N),
  (forall w r : tv N, ty r = Np Float64 -> rad2temp_t np w r = Ok {| ty := Np Float64; val := rad2temp (val w) (val r) |}) /\
  (forall w r : tv N, (ty w = PyFloat \/ ty w = Np Float64) -> (exists d, ty r = Np d /\ d <> Float32) ->
     wn_rad2temp_t np w r = {| ty := Np Float64; val := wn_rad2temp (val w) (val r) |}) /\
  (forall wl (w t : tv N), ty w = Np Float64 -> (exists d, ty t = Np d /\ d <> Float32) ->
     planck_t np wl w t = {| ty := Np Float64; val := planck1 wl (val w) (val t) |}) /\
  (forall oob scale lut (t : N),
     (r <- lut_radiance_t np oob scale lut false {| ty := Np Float64; val := t |} ;; Ok [val r]) = lut_lookup oob scale lut [t]) /\
  (forall c (x : N),
     (l <- seviri_radiance2tb c [x] ;; Ok (map (fun v => {| ty := Np Float64; val := v |}) l)) =
       (t <- sev_radiance2tb_t np c {| ty := Np Float64; val := x |} ;; Ok [t]) /\
     (l <- seviri_tb2radiance c [x] false true ;; Ok (map (fun v => {| ty := Np Float64; val := v |}) l)) =
       (t <- sev_tb2radiance_t np c {| ty := Np Float64; val := x |} ;; Ok [t])) /\
  (forall t z : N, val (dask_pixel_t np {| ty := Np Float64; val := t |} {| ty := Np Float64; val := z |}) = M_AtmIR.dask_pixel t z) /\
  (forall z r a b c : N, val (reduce_t np {| ty := Np Float64; val := z |} {| ty := Np Float64; val := r |} a b c) =
     nmul N r (M_Rayleigh.zenith_factor z a b c)).
Proof. exact @all_doubles. Qed.
Print Assumptions C98_doubles.
Theorem C98_doubles_reflectance : forall (np : numpy XRN) E (c : M_Nir.calculator XRN) (rad11 rad3x sunz nir therm : XRN) (co2 : option XRN) corr,
  let one x := {| M_Nir.a_dtype := M_Nir.Float64; M_Nir.a_shape := [1%nat]; M_Nir.a_data := [x] |} in
  let dbl x := {| ty := Np Float64; val := x |} in
  match co2 with Some b => M_Nir.derive_rad39_corr (one therm) (one b) "rosenfeld" = Ok corr | None => corr = one (n1 : XRN) end ->
  (a <- M_Nir.calculate_r3x E c (one rad11) (one rad3x) corr (M_Nir.solar_radiance E c (one sunz) M_Nir.Float64) (one therm) (one sunz) (one nir) ;; Ok (M_Nir.a_data a)) =
  (v <- reflectance_t np (dbl (M_Nir.cl_solar_flux c)) (cv_rsr_integral (M_Nir.cl_conv c)) (M_Nir.cl_sunz_threshold c) (M_Nir.cl_masking_limit c)
          (dbl rad11) (dbl rad3x) (dbl sunz) (dbl nir) (dbl therm) (option_map dbl co2) ;; Ok [val v]).
Proof. exact reflectance_double. Qed.
Print Assumptions C98_doubles_reflectance.
(** the emissive part, and the limb correction of an unmasked pixel that stays
    unmasked *)
Theorem C98_doubles_emissive : forall (N : Num) (np : numpy N) (c : M_Nir.calculator N) central s (rad11 rad3x r3x : N),
  let one x := {| M_Nir.a_dtype := M_Nir.Float64; M_Nir.a_shape := [1%nat]; M_Nir.a_data := [x] |} in
  let dbl x := {| ty := Np Float64; val := x |} in
  M_Nir.ns_rad3x_t11 s = Some (one rad11) -> M_Nir.ns_rad3x s = Some (one rad3x) -> M_Nir.ns_r3x s = Some (one r3x) ->
  snd (M_Nir.emissive_part_3x c false s) = (v <- emissive_t np central (dbl rad11) (dbl rad3x) (dbl r3x) false ;; Ok (Some [val v])).
Proof. exact emissive_double. Qed.
Print Assumptions C98_doubles_emissive.
Theorem C98_doubles_limb : forall (N : Num) (np : numpy N) (t z : N),
  let dbl x := {| ty := Np Float64; val := x |} in
  let p := M_AtmIR.step2 (M_AtmIR.step1 (t, false) (z, false)) (z, false) in
  snd p = false -> masked_pixel_t np (dbl t) (dbl z) = Ok (dbl (fst p)).
Proof. exact masked_double. Qed.
Print Assumptions C98_doubles_limb.
Example C98_doubles_limb_case : let p := M_AtmIR.step2 (M_AtmIR.step1 (b64_ratio 240 1 : B64N plain_lib, false) (b64_ratio 50 1 : B64N plain_lib, false)) (b64_ratio 50 1 : B64N plain_lib, false) in
  snd p = false /\ fst p <> b64_ratio 240 1 /\
  exists s : M_Nir.nirstate (B64N plain_lib), let one (x : B64N plain_lib) := {| M_Nir.a_dtype := M_Nir.Float64; M_Nir.a_shape := [1%nat]; M_Nir.a_data := [x] |} in
    M_Nir.ns_rad3x_t11 s = Some (one (b64_ratio 1 10)) /\ M_Nir.ns_rad3x s = Some (one (b64_ratio 3 10)) /\ M_Nir.ns_r3x s = Some (one (b64_ratio 1 5)).
Proof. cbv zeta. split; [vm_compute; reflexivity|]. split; [vm_compute; discriminate|]. 
  set (one := fun x : B64N plain_lib => {| M_Nir.a_dtype := M_Nir.Float64; M_Nir.a_shape := [1%nat]; M_Nir.a_data := [x] |}).
  exists {| M_Nir.ns_e3x := None; M_Nir.ns_r3x := Some (one (b64_ratio 1 5)); M_Nir.ns_rad3x := Some (one (b64_ratio 3 10)); M_Nir.ns_rad3x_t11 := Some (one (b64_ratio 1 10));
            M_Nir.ns_correction := one (b64_ratio 1 1); M_Nir.ns_solar := None |}. split; [reflexivity|]. split; reflexivity. Qed.
Example C98_doubles_case : ty (s64 plain_lib 9573178 1) = Np Float64 /\
  match rad2temp_t np0 (s16 plain_lib 1) (s64 plain_lib 9573178 1) with Ok t => ty t = Np Float64 | Err _ => False end /\
  exists corr, M_Nir.derive_rad39_corr {| M_Nir.a_dtype := M_Nir.Float64; M_Nir.a_shape := [1%nat]; M_Nir.a_data := [Fin 270 : XRN] |}
    {| M_Nir.a_dtype := M_Nir.Float64; M_Nir.a_shape := [1%nat]; M_Nir.a_data := [Fin 250 : XRN] |} "rosenfeld" = Ok corr.
Proof. split; [reflexivity|]. split; [vm_compute; reflexivity|]. eexists. cbn. reflexivity. Qed.

(** C99: integer radiances.  The wavelength is converted to the integer type,
    becomes 0, and every temperature is NaN; no exception is raised. *)
Theorem C99_rad2temp_integers : forall (np : numpy XRN) (w r : tv XRN) x, integers r ->
  (ty w = PyFloat \/ ty w = Np Float32 \/ ty w = Np Float64) -> val w = Fin x -> (Rabs x < 1)%R ->
  rad2temp_t np w r = Ok {| ty := Np Float64; val := NaN |}.
Proof. exact rad2temp_integers. Qed.
Print Assumptions C99_rad2temp_integers.
Theorem C99_radiance2tb_integers : forall (np : numpy XRN) c (r : tv XRN), integers r -> (Rabs c < 1000000)%R ->
  radiance2tb_t np (Fin c : XRN) r = Ok {| ty := Np Float64; val := NaN |}.
Proof. exact radiance2tb_integers. Qed.
Print Assumptions C99_radiance2tb_integers.
(** The same radiance as a float gives a temperature: the values disagree. *)
Theorem C99_same_value_refuted : ~ forall (np : numpy XRN) (w r r' : tv XRN), val r = val r' -> integers r -> ty r' = Np Float64 ->
  ty w = PyFloat -> exists t t', rad2temp_t np w r = Ok t /\ rad2temp_t np w r' = Ok t' /\ val t = val t'.
Proof. exact integer_value_differs. Qed.
Print Assumptions C99_same_value_refuted.
(** The wavenumber version and planck do not mind integers (see C98_doubles, where
    radiances and temperatures may be integers). *)
Theorem C99_wavenumber_integers : forall (N : Num) (np : numpy N) (w r r' : tv N), ty w = PyFloat \/ ty w = Np Float64 ->
  integers r -> ty r' = Np Float64 -> val r = val r' -> wn_rad2temp_t np w r = wn_rad2temp_t np w r'.
Proof. exact @wn_integers_fine. Qed.
Print Assumptions C99_wavenumber_integers.
(** An integer red band (sun zenith angle) turns the reflectances of the Rayleigh
    table, all below 1, into zeros before interpolation. *)
Theorem C99_rayleigh_table : forall (np : numpy XRN) d (table : list XRN), is_float d = false ->
  Forall (fun v => exists x, v = Fin x /\ (Rabs x < 1)%R) table -> lut_values_t np d table = map (fun _ => Fin 0) table.
Proof. exact lut_zeros. Qed.
Print Assumptions C99_rayleigh_table.
(** Hence no correction at all, if the interpolation of zeros is zero. *)
Theorem C99_rayleigh_no_correction : forall (np : numpy XRN) interp table (sunz red : tv XRN), integers red -> (exists x, val red = Fin x) ->
  Forall (fun v => exists x, v = Fin x /\ (Rabs x < 1)%R) table -> interp (map (fun _ => Fin 0) table) = Fin 0 ->
  exists s v, rayleigh_t np interp (Some table) sunz (Some red) = Ok (s, v) /\ val v = Fin 0.
Proof. exact rayleigh_zero. Qed.
Print Assumptions C99_rayleigh_no_correction.
Example C99_case : let w := {| ty := PyFloat; val := Fin (11 / 1000000) : XRN |} in let r := {| ty := Np Int32; val := Fin 9573178 : XRN |} in
  integers r /\ val w = Fin (11 / 1000000) /\ (Rabs (11 / 1000000) < 1)%R /\ rad2temp_t real_np w r = Ok {| ty := Np Float64; val := NaN |}.
Proof.
  cbv zeta. assert (B : (Rabs (11 / 1000000) < 1)%R) by (rewrite Rabs_pos_eq; lra).
  assert (I : integers {| ty := Np Int32; val := Fin 9573178 : XRN |}) by (exists Int32; split; reflexivity).
  repeat split; auto. apply (C99_rad2temp_integers real_np _ _ (11 / 1000000) I); auto.
Qed.
Example C99_rayleigh_case : let red := {| ty := Np Int16; val := Fin 30 : XRN |} in let table := [Fin (1 / 10); Fin (3 / 10)] : list XRN in
  integers red /\ Forall (fun v : XRN => exists x, v = Fin x /\ (Rabs x < 1)%R) table /\
  (fun t : list XRN => hd NaN t) (map (fun _ => Fin 0) table) = Fin 0.
Proof.
  cbv zeta. split; [exists Int16; split; reflexivity|]. split; [|reflexivity].
  repeat constructor; eexists; split; try reflexivity; rewrite Rabs_pos_eq; lra.
Qed.
