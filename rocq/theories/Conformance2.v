(** Tests, not proofs: Conformance continued (utils, rsr_reader, rayleigh,
    atm_correction_ir, near_infrared_reflectance). *)
From Coq Require Import String List Bool ZArith SpecFloat.
From Verif Require Import Base NumSig B64 M_Tables M_Utils M_Blackbody M_Rsr M_RadTb M_Nir M_Rayleigh M_AtmIR Conf_Data Conformance.
From Verif Require M_World M_Download.
Import ListNotations.
Local Open Scope string_scope.

(** ** utils: tests/test_utils.py:86-231 *)
Definition ahi_names := ["ch12"; "ch13"; "ch10"; "ch11"; "ch16"; "ch14"; "ch15"; "ch1"; "ch2"; "ch3"; "ch4"; "ch5"; "ch6"; "ch7"; "ch8"; "ch9"].
Definition ahi_rsr : rsrdata D :=
  dset "ch3" [("det-1", det (nums d_ch3_wavelength) (nums d_ch3_response) (q 63914891611559055 (10 ^ 17)))]
    (map (fun p => (fst p, [("det-1", [("central_wavelength", VNum (snd p : D))])])) (combine ahi_names (nums d_ahi_cw))).
Definition band_at (sensor : string) (w : b64) (rsr : rsrdata D) (eps : b64) (multiple : bool) := get_bandname_from_wavelength (N := D) sensor w rsr eps multiple.
Definition tenth := q 1 10.
Definition generic_rsr : rsrdata D := [("20", [("det-1", det (nums d_modis_wavelength) (nums d_modis_response) (q 375 100))])].
(* bandname_test *)
Check (ltac:(vm_compute; repeat split) :
  band_at "abi" (q 4 10) ahi_rsr tenth false = Ok (BName "ch1") /\ band_at "abi" (q 5 10) ahi_rsr tenth false = Err AttributeError /\
  band_at "abi" (q 6 10) ahi_rsr (q 5 100) false = Ok (BName "ch3") /\ band_at "abi" (q 7 10) ahi_rsr tenth false = Ok (BName "ch3") /\
  band_at "abi" (q 8 10) ahi_rsr tenth false = Ok (BName "ch4") /\ band_at "abi" (ofZ 1) ahi_rsr tenth false = Ok BNone /\
  band_at "abi" (q 111 10) ahi_rsr (ofZ 1) true = Ok (BNames ["ch13"; "ch14"]) /\
  band_at "ufo" (q 37 10) generic_rsr tenth false = Ok (BName "ch20") /\ band_at "ufo" (ofZ 3) generic_rsr tenth false = Ok BNone).
(** argsort's answer for the test's input *)
(* sort_data_test *)
Check (ltac:(intros idxs [<-|[]]; vm_compute; reflexivity) :
  forall idxs, In idxs [[0; 3; 7; 1; 2; 5; 4; 6]] ->
  sort_data (N := D) idxs [ofZ 1; q 56 10; ofZ 30; q 21 10; q 1082 10; q 578 10; ofZ 1000000000; q 21 10] [ofZ 45; ofZ 92; ofZ 20; ofZ 10; ofZ 15; ofZ 67; ofZ 108; ofZ 15] =
  Ok ([ofZ 1; q 21 10; q 56 10; ofZ 30; q 578 10; q 1082 10; ofZ 1000000000], [ofZ 45; ofZ 10; ofZ 92; ofZ 20; ofZ 67; ofZ 15; ofZ 108])).
Definition ch3 : detector D := det (nums d_ch3_wavelength) (nums d_ch3_response) (q 64 100).
Definition range_list (t : b64) : res (list b64) := r <- get_wave_range (N := D) ch3 t ;; Ok [fst (fst r); snd (fst r); snd r].
(* wave_range_test *)
Check (ltac:(vm_compute; repeat split) :
  ok_close e7 zero (range_list (q 15 100)) [q 59481323 (10 ^ 8); q 6393011276027835 (10 ^ 16); q 67512828 (10 ^ 8)] = true /\
  ok_close e7 zero (range_list (q 5 10)) [q 60931027 (10 ^ 8); q 6393011276027835 (10 ^ 16); q 67512828 (10 ^ 8)] = true).
(** the tests pass the wavelengths as responses and the other way round *)
(* fwhm_test *)
Check (ltac:(vm_compute; repeat split) :
  ok_close zero zero (r <- get_fullwidth_halfmax (N := D) (nums d_ch3_wavelength) (nums d_ch3_response) ;; Ok [r])
  [sub (q 934999989 (10 ^ 13)) (q 261000005 (10 ^ 13))] = true /\
  ok_close e9 zero (r <- get_fullwidth_halfmax (N := D) (nums d_ch3_wavelength) (nums d_ch3_response) ;; Ok [r]) [q 673999984 (10 ^ 13)] = true).
Definition bounds (p : Z) := r <- get_bounds_integrated_energy (N := D) (nums d_ch3_wavelength) (nums d_ch3_response) (ofZ p) ;; Ok [fst r; snd r].
(* integrated_energy_test *)
Check (ltac:(vm_compute; repeat split) :
  ok_close e7 zero (bounds 1) [q 261000005 (10 ^ 13); q 831819978 (10 ^ 11)] = true /\
  ok_close e7 zero (bounds 10) [q 107899999 (10 ^ 12); q 831819978 (10 ^ 11)] = true).
Definition item_list (b : band D) (k : string) : res (list b64) :=
  d <- of_option KeyError (dget "det-1" b) ;; get_arr k d.
(* wavenumber_test *)
Check (ltac:(vm_compute; reflexivity) :
  match convert2wavenumber (N := D) generic_rsr with
  | Ok ([("20", b)], (u, s)) => ok_close (q 1 (10 ^ 5)) e8 (item_list b "wavenumber") (nums d_wavenumber) && String.eqb u "cm-1" &&
      match item_list b "wavelength" with Err KeyError => true | _ => false end
  | _ => false end = true).

(** ** rsr_reader: tests/test_rsr_reader.py:63-98 *)
Definition reader : rsr_state D := rsr_init (N := D) (Some (IOne "modis")) generic_rsr.
(* reader_convert_test *)
Check (ltac:(vm_compute; repeat split) :
  let (s, r) := convert (N := D) reader in
  match r, rs_rsr s with
  | Ok _, [("20", [("det-1", d)])] =>
      match get_num "central_wavenumber" d with Ok c => close e7 (q 1 1000) c (q 2647397 1000) | Err _ => false end &&
      ok_close e6 zero (get_arr WAVE_NUMBER d) (nums d_wavenumber)
  | _, _ => false end = true /\ rs_wavespace s = WAVE_NUMBER /\ snd (convert (N := D) s) = Err NotImplementedError).
(* reader_integral_test *)
Check (ltac:(vm_compute; reflexivity) :
  match integral (N := D) reader "20" with Ok [("det-1", i)] => close zero (q 15 (10 ^ 7)) i (q 185634 (10 ^ 6)) | _ => false end = true).

(** ** rayleigh: tests/test_rayleigh.py and tests/data.py *)
Definition coord (z0 step : Z) (n : nat) : list b64 := map (fun k => q (z0 + Z.of_nat k * step) 100) (seq 0 n).
Fixpoint rows (n : nat) (k : nat) (l : list b64) : list (list b64) := match n with O => [] | S n => firstn k l :: rows n k (skipn k l) end.
(** numpy.float32 of a number *)
Definition q32 (m : Z) (d : positive) : b64 :=
  match m with
  | Zpos p => match SFdiv 24 128 (S754_finite false p 0) (S754_finite false d 0) with
              | S754_finite _ m e => if (0 <=? e)%Z then ofZ (Zpos m * 2 ^ e) else q (Zpos m) (Z.to_pos (2 ^ (- e)))
              | x => x end
  | _ => zero end.
Definition nums32 (l : list (Z * Z)) : list b64 := map (fun p => q32 (fst p) (Z.to_pos (10 ^ snd p))) l.
Definition test_lut : raylut D := {| rl_wavelengths := [ofZ 631; ofZ 636] : list D; rl_azid := coord 10000 1000 7 : list D; rl_satz := coord 100 25 6 : list D;
  rl_sunz := coord 100 25 8 : list D; rl_refl := rows 2 336 (nums32 d_ray_lut) : list (list D) |}.
(* lut_size *)
Check (ltac:(vm_compute; reflexivity) : List.length (nums d_ray_lut) = 672).
Definition ahi_load (p i : string) : res (rsr_state D) := Ok (rsr_init (N := D) (Some (IOne i)) ahi_rsr).
Definition no_load (p i : string) : res (rsr_state D) := Err OSError.
Definition vec (k : kind) (l : list b64) : rarr D := {| r_kind := k; r_arr := {| a_dtype := Float64; a_shape := [List.length l]; a_data := l : list D |} |}.
Definition correction (dask : bool) (k : kind) load (sun sat azi red : list b64) (b : bandarg D) : res (list b64) :=
  a <- get_reflectance no_oob dask load "NOAA-20" "viirs" (Some test_lut) (vec k sun) (vec k sat) (vec k azi) b (Some (vec k red)) ;; Ok (a_data a).
Definition z2 (l : list Z) : list b64 := map ofZ l.
Definition tol := q 4 (10 ^ 6).
(* rayleigh_test *)
Check (ltac:(vm_compute; repeat split) :
  let dask := true in let k := Dask in
  ok_close e7 tol (correction dask k ahi_load (z2 [67; 32]%Z) (z2 [45; 18]%Z) (z2 [150; 110]%Z) (z2 [14; 5]%Z) (BStr "ch3")) [q 10339923 (10 ^ 6); q 864748 (10 ^ 5)] = true /\
  ok_close e7 tol (correction dask k ahi_load (z2 [60; 20]%Z) (z2 [49; 26]%Z) (z2 [140; 130]%Z) (z2 [12; 8]%Z) (BStr "ch3")) [q 9653559 (10 ^ 6); q 8464997 (10 ^ 6)] = true /\
  ok_close e7 tol (correction dask k ahi_load (z2 [67; 32]%Z) (z2 [45; 18]%Z) (z2 [150; 110]%Z) [ofZ 108; q (-5) 10] (BStr "ch3")) [zero; q 864748 (10 ^ 5)] = true /\
  ok_close e7 tol (correction dask k ahi_load (z2 [67; 32]%Z) (z2 [45; 18]%Z) (z2 [150; 110]%Z) (z2 [100; 20]%Z) (BStr "ch3")) [zero; q 864748 (10 ^ 5)] = true /\
  ok_close e7 tol (correction dask k ahi_load (z2 [60; 20]%Z) (z2 [49; 26]%Z) (z2 [140; 130]%Z) [ofZ 12; S754_nan] (BStr "ch3")) [q 9653559 (10 ^ 6); S754_nan] = true /\
  ok_close e7 tol (correction dask k no_load (z2 [50; 10]%Z) (z2 [39; 16]%Z) (z2 [170; 110]%Z) (z2 [29; 12]%Z) (BNumber (q 634 1000 : D))) [q 5488729 (10 ^ 6); q 8533125 (10 ^ 6)] = true /\
  ok_close e7 tol (correction false Numpy no_load (z2 [50; 10]%Z) (z2 [39; 16]%Z) (z2 [170; 110]%Z) (z2 [29; 12]%Z) (BNumber (q 12 10 : D))) [zero; zero] = true /\
  correction dask k no_load (z2 [50; 10]%Z) (z2 [39; 16]%Z) (z2 [170; 110]%Z) (z2 [29; 12]%Z) (BStr "ch3") = Err KeyError).
(* rayleigh_numpy_test *)
Check (ltac:(intros dask [<-|[<-|[]]]; vm_compute; reflexivity) :
  forall dask, In dask [true; false] ->
  ok_close e7 tol (correction dask Numpy ahi_load (z2 [67; 32]%Z) (z2 [45; 18]%Z) (z2 [150; 110]%Z) (z2 [14; 5]%Z) (BStr "ch3")) [q 10339923 (10 ^ 6); q 864748 (10 ^ 5)] = true).
(* clip_angle_test *)
Check (ltac:(vm_compute; reflexivity) :
  all_close e7 zero (map (fun z => clip_angle (N := D) z (q 275 100)) [ofZ 79; ofZ 69; ofZ 32; S754_nan]) [q 6867631374 (10 ^ 8); q 6867631374 (10 ^ 8); ofZ 32; zero] = true).
Definition reduced (t : Z) (s : b64) := a <- reduce_rayleigh_highzenith (N := D) (r_arr (vec Numpy (z2 [70; 65; 60]%Z))) (r_arr (vec Numpy (z2 [50; 50; 50]%Z))) (ofZ t) (ofZ 90) s ;; Ok (a_data a).
(* reduction_test *)
Check (ltac:(vm_compute; repeat split) :
  ok_close e7 zero (reduced 70 (ofZ 1)) (z2 [50; 50; 50]%Z) = true /\
  ok_close e7 zero (reduced 30 (ofZ 1)) [q 1666666667 (10 ^ 8); q 2083333333 (10 ^ 8); ofZ 25] = true /\
  ok_close e7 zero (reduced 30 (q 15 10)) [zero; q 625 100; q 125 10] = true).
(* sensor_test *)
Check (ltac:(vm_compute; reflexivity) :
  map (fun p => M_Download.normalize_sensor (fst p) (snd p)) [("FY-4B", "VIIRS"); ("FY-4B", "nosensor"); ("FY-4A", "agri"); ("FY-4B", "agri"); ("FY-4B", "ghi"); ("Metop-C", "avhrr/3")] =
  [Err ValueError; Err ValueError; Ok "agri"; Ok "agri"; Ok "ghi"; Ok "avhrr3"]).

(** ** atm_correction_ir: tests/test_atm_correction_ir.py *)
(* atm_test *)
Check (ltac:(vm_compute; repeat split) :
  match snd (viewzen_corr (N := D) (DaskA (N := D) (nums d_tbs)) (DaskA (N := D) (nums d_satz))) with Ok a => all_close zero (q 15 (10 ^ 8)) (values a) (nums d_res) | Err _ => false end = true /\
  match snd (viewzen_corr (N := D) (MaskedA (N := D) (map (fun x => (x, false)) (nums d_tbs))) (MaskedA (N := D) (map (fun x => (x, false)) (nums d_satz)))) with
  | Ok a => all_close zero (q 15 (10 ^ 8)) (values a) (nums d_res) | Err _ => false end = true).

(** ** near_infrared_reflectance: tests/test_reflectance.py:158-213; the solar
    flux is that of tests/test_solarflux.py, and no look-up table is used *)
Definition calc (threshold : Z) (limit : option Z) (c : converter D) : calculator D :=
  {| cl_conv := c; cl_bandname := "20"; cl_bandwavelength := q 378 100 : D; cl_solar_flux := q 2002927627 (10 ^ 9) : D;
     cl_sunz_threshold := Some (ofZ threshold : D); cl_masking_limit := option_map (fun l => ofZ l : D) limit;
     cl_lutfile := ""; cl_lut := {| lut_tb := []; lut_radiance := [] |} |}.
Definition no_machine : M_World.extern := {| M_World.x_yaml := fun _ => Err OSError; M_World.x_expanduser := fun s => s; M_World.x_user_data_dir := "";
  M_World.x_builtin_config := ""; M_World.x_mkdir_ok := fun _ => false; M_World.x_net := fun _ _ => Err NetworkError; M_World.x_untar := fun _ => ([], Err TarReadError) |}.
Definition refl (threshold : Z) (limit : option Z) (sunz tb3 tb4 : b64) (emissive : bool) : res (list b64) :=
  c <- modis (BStr "20") ;;
  let f x := NScalar Float64 (x : D) in
  let E := {| nx_ext := no_machine; nx_tempdir := ""; nx_load := modis_load; nx_enc := fun _ => ""; nx_dec := fun _ => Err OSError;
              nx_spline := fun _ _ => Err OSError; nx_sun := ([], []); nx_oob16 := no_oob; nx_oob64 := no_oob |} in
  let (s, r) := reflectance_from_tbs E (calc threshold limit c) (f sunz) (f tb3) (f tb4) None (Some None) fresh_state in
  r <- r ;;
  if emissive then e <- snd (emissive_part_3x (calc threshold limit c) true s) ;; of_option TypeError e else Ok (a_data r).
(** The tests compare with a relative tolerance of 6, so with nothing; here it is
    1e-4 (the flux is computed with another step) and 2e-6 for temperatures.  The
    276.213054 expected for the emissive part at 85.1 degrees is not what the code
    gives: the reflectance is NaN there, so the measured radiance is used. *)
Definition night_tb := [q 29013 100].
(* reflectance_test *)
Check (ltac:(vm_compute; repeat split) :
  let r := refl 85 (Some 85%Z) in let t := q 1 (10 ^ 4) in let u := q 2 (10 ^ 6) in
  ok_close t zero (r (ofZ 80) (ofZ 290) (ofZ 282) false) [q 251245010648 (10 ^ 12)] = true /\
  ok_close t zero (r (ofZ 85) (ofZ 290) (ofZ 282) false) [q 112236884 (10 ^ 8)] = true /\
  ok_close t zero (r (q 851 10) (ofZ 290) (ofZ 282) false) [S754_nan] = true /\
  ok_close u zero (r (q 851 10) (ofZ 290) (ofZ 282) true) night_tb = true /\
  ok_close t zero (r (ofZ 80) (ofZ 295) (ofZ 282) false) [q 452497961 (10 ^ 9)] = true /\
  ok_close u zero (r (ofZ 80) (ofZ 295) (ofZ 282) true) [q 270077268 (10 ^ 6)] = true /\
  ok_close t zero (r (ofZ 50) (ofZ 300) (ofZ 285) false) [q 1189217 (10 ^ 7)] = true /\
  ok_close u zero (r (ofZ 50) (ofZ 300) (ofZ 285) true) [q 282455426 (10 ^ 6)] = true /\
  ok_close t zero (refl 88 None (q 851 10) (ofZ 290) (ofZ 282) false) [q 12064644 (10 ^ 7)] = true).
