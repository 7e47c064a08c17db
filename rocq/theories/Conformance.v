(** Tests, not proofs: the model run on the numbers of the repository's unit
    tests (pyspectral/tests), in binary64.  exp, log, cos, acos and pow are
    computed by series here, so agreement is to about 12 digits at best.
    Each test is a [Check]: the build fails if it fails, and nothing is kept. *)
From Coq Require Import String List Bool ZArith SpecFloat.
From Verif Require Import Base NumSig B64 M_Tables M_Utils M_Blackbody M_Rsr M_RadTb M_Nir M_Rayleigh M_AtmIR Conf_Data.
Import ListNotations.
Local Open Scope string_scope.

(** ** Elementary functions by series *)
Definition q (m : Z) (d : positive) : b64 := b64_ratio m d.
Definition add := SFadd prec64 emax64.
Definition sub := SFsub prec64 emax64.
Definition mul := SFmul prec64 emax64.
Definition div := SFdiv prec64 emax64.
Definition ofZ (z : Z) : b64 := q z 1.
Definition two_to (n : Z) : b64 := if (0 <=? n)%Z then ofZ (2 ^ n) else q 1 (Z.to_pos (2 ^ (- n))).
Definition ln2 : b64 := q 693147180559945309417232 (10 ^ 24).
(** x^k/k! summed from the small end *)
Fixpoint taylor (n : nat) (k : Z) (x : b64) : b64 :=
  match n with O => ofZ 1 | S n => add (ofZ 1) (mul (div x (ofZ k)) (taylor n (k + 1) x)) end.
Definition exp_series (x : b64) : b64 :=
  match x with
  | S754_nan => S754_nan
  | S754_infinity s => if s then S754_zero false else x
  | S754_zero _ => ofZ 1
  | _ => if SFltb (ofZ 710) x then S754_infinity false else if SFltb x (ofZ (-746)) then S754_zero false
         else match b64_round (div x ln2) with
              | Some n => let y := taylor 16 1 (sub x (mul (ofZ n) ln2)) in
                          let h := (n / 2)%Z in mul (mul y (two_to h)) (two_to (n - h))
              | None => S754_nan
              end
  end.
Definition log_start (x : b64) : b64 := match x with S754_finite _ m e => mul (ofZ (e + Z.log2 (Z.pos m))) ln2 | _ => ofZ 0 end.
Fixpoint log_steps (n : nat) (x y : b64) : b64 :=
  match n with O => y | S n => let e := exp_series y in log_steps n x (add y (div (mul (ofZ 2) (sub x e)) (add x e))) end.
Definition log_series (x : b64) : b64 :=
  match x with
  | S754_zero _ => S754_infinity true
  | S754_infinity false => x
  | S754_finite false _ _ => log_steps 5 x (log_start x)
  | _ => S754_nan
  end.
Fixpoint cos_taylor (n : nat) (k : Z) (x2 : b64) : b64 :=
  match n with O => ofZ 1 | S n => sub (ofZ 1) (mul (div x2 (ofZ (k * (k + 1)))) (cos_taylor n (k + 2) x2)) end.
Definition cos_series (x : b64) : b64 := match x with S754_nan | S754_infinity _ => S754_nan | _ => cos_taylor 20 1 (mul x x) end.
(** Newton's method; converges for the few arguments needed here *)
Definition half_pi : b64 := q 15707963267948966 (10 ^ 16).
Fixpoint acos_newton (n : nat) (x y : b64) : b64 :=
  match n with O => y | S n => acos_newton n x (add y (div (sub (cos_series y) x) (cos_series (sub half_pi y)))) end.
Definition acos_series (x : b64) : b64 := if SFleb (ofZ (-1)) x && SFleb x (ofZ 1) then acos_newton 6 x half_pi else S754_nan.
Definition series : libm := {| m_exp := exp_series; m_log := log_series; m_cos := cos_series; m_acos := acos_series;
  m_pow := fun x y => exp_series (mul y (log_series x)) |}.
Notation D := (B64N series).

(** ** Comparison: numpy's assert_allclose(actual, desired, rtol, atol) *)
Definition close (rtol atol actual desired : b64) : bool :=
  (b64_nan actual && b64_nan desired) || SFleb (SFabs (sub actual desired)) (add atol (mul rtol (SFabs desired))).
Fixpoint all_close (rtol atol : b64) (l m : list b64) : bool :=
  match l, m with [], [] => true | x :: l, y :: m => close rtol atol x y && all_close rtol atol l m | _, _ => false end.
Definition ok_close (rtol atol : b64) (r : res (list b64)) (m : list b64) : bool :=
  match r with Ok l => all_close rtol atol l m | Err _ => false end.
(** numbers of Conf_Data, and decimal numbers *)
Definition nums (l : list (Z * Z)) : list b64 := map (fun p => q (fst p) (Z.to_pos (10 ^ snd p))) l.
Definition e6 := q 1 (10 ^ 6). Definition e7 := q 1 (10 ^ 7). Definition e8 := q 1 (10 ^ 8). Definition e9 := q 1 (10 ^ 9).
Definition zero := ofZ 0.

(** ** blackbody: tests/test_blackbody.py:15-20, 27-69 *)
(* blackbody_test *)
Check (ltac:(vm_compute; reflexivity) :
  all_close e8 zero (List.concat (@blackbody D [q 11 (10 ^ 6)] [ofZ 300; ofZ 301])) [q 9573176935507433 (10 ^ 9); q 9714686576498277 (10 ^ 9)] = true).
(* blackbody_wn_test *)
Check (ltac:(vm_compute; reflexivity) :
  all_close e6 zero (List.concat (@blackbody_wn D [q 909091 10] [ofZ 300; ofZ 301])) [q 115835441353 (10 ^ 14); q 117547716523 (10 ^ 14)] = true).
(* wn_rad2temp_test *)
Check (ltac:(vm_compute; reflexivity) :
  all_close e7 zero (map (@wn_rad2temp D (q 909091 10)) [q 10 10000; q 9 10000; q 12 10000; q 18 10000])
    [q 2903276916 (10 ^ 7); q 28376115441 (10 ^ 8); q 3024181330 (10 ^ 7); q 3331414164 (10 ^ 7)] = true).

(** ** radiance_tb_conversion: tests/test_rad_tb_conversions.py:12-47, 226-330 *)
Definition det (ws rs : list b64) (cw : b64) : detector D := [("central_wavelength", VNum (cw : D)); ("wavelength", VArr (ws : list D)); ("response", VArr (rs : list D))].
Definition modis_rsr : res (rsrdata D) :=
  cw <- get_central_wave (N := D) (nums d_modis_wavelength) (nums d_modis_response) (WScalar (N := D) (ofZ 1)) ;;
  Ok [("20", [("det-1", det (nums d_modis_wavelength) (nums d_modis_response) cw)])].
Definition modis_load (p i : string) : res (rsr_state D) :=
  r <- modis_rsr ;; Ok {| rs_instrument := Some (IOne i); rs_unit := "1e-6 m"; rs_si_scale := q 1 (10 ^ 6) : D; rs_wavespace := WAVE_LENGTH; rs_rsr := r |}.
Definition modis (b : bandarg D) : res (converter D) := RadTbConverter modis_load "EOS-Aqua" "modis" b "det-1" WAVE_LENGTH (q 1 10 : D).
Definition test_tbs := [ofZ 200; ofZ 270; ofZ 300; ofZ 302; ofZ 350].
Definition true_rads := [q 856937353205 (10 ^ 9); q 117420385297 (10 ^ 6); q 479464582505 (10 ^ 6); q 5214129511 (10 ^ 4); q 292873518944 (10 ^ 5)].
Definition no_oob (_ : D) : Z := 0%Z.
Definition radiances (c : res (converter D)) (tbs : list b64) : res (list b64) :=
  c <- c ;; tb2radiance no_oob c tbs None true.
(* modis_test *)
Check (ltac:(vm_compute; repeat split) :
  ok_close (q 1 (10 ^ 5)) e8 (radiances (modis (BStr "20")) test_tbs) true_rads = true /\
  ok_close (q 1 (10 ^ 5)) e8 (radiances (modis (BNumber (q 375 100 : D))) test_tbs) true_rads = true /\
  ok_close e6 zero (radiances (modis (BStr "20")) [ofZ 237; ofZ 277; q 2001 10]) [q 16570579551068 (10 ^ 9); q 16754439368663222 (10 ^ 11); q 86509759706 (10 ^ 8)] = true /\
  ok_close zero e7 (radiances (modis (BStr "20")) [q 11 10; q 111 10; q 1001 10]) [zero; zero; q 53940515573 (10 ^ 16)] = true).
(* modis_integral_test *)
Check (ltac:(vm_compute; repeat split) :
  match modis (BStr "20") with Ok c => close e7 zero (cv_rsr_integral c) (q 18563451 (10 ^ 14)) | Err _ => false end = true /\
  ok_close (q 1 (10 ^ 5)) e8 (c <- modis (BStr "20") ;; tb2radiance no_oob c test_tbs None false)
    (match modis (BStr "20") with Ok c => map (mul (cv_rsr_integral c)) true_rads | Err _ => [] end) = true).
(* modis_radiance2tb_test *)
Check (ltac:(vm_compute; reflexivity) :
  match modis (BStr "20") with
  | Ok c => match converter_radiance2tb c (NpArray (true_rads : list D)) with Ok a => all_close zero (q 25 100) (arg_values a) test_tbs | Err _ => false end
  | Err _ => false end = true).
Definition sev_load (p i : string) : res (rsr_state D) :=
  Ok {| rs_instrument := Some (IOne i); rs_unit := "cm-1"; rs_si_scale := ofZ 100 : D; rs_wavespace := WAVE_LENGTH;
        rs_rsr := [("IR3.9", [("det-1", [("wavenumber", VArr (nums d_sev_wavenumber : list D)); ("response", VArr (nums d_sev_response : list D))])])] |}.
Definition true_rads_seviri := [q 2391091 (10 ^ 14); q 2559173 (10 ^ 12); q 9797091 (10 ^ 12); q 1061431 (10 ^ 11); q 5531423 (10 ^ 11)].
Definition sev1 : res (converter D) := RadTbConverter sev_load "Meteosat-9" "seviri" (BStr "IR3.9") "det-1" WAVE_NUMBER (q 1 10 : D).
Definition sev2 : res seviri := SeviriRadTbConverter (N := D) "Meteosat-9" (BStr "IR3.9") WAVE_NUMBER (q 1 10 : D).
(** the test's tolerances, atol 1e-8 and rtol 1e-7, leave the smallest value
    almost free; here rtol is 1e-5 *)
(* seviri_test *)
Check (ltac:(vm_compute; reflexivity) :
  ok_close (q 1 (10 ^ 5)) zero (radiances sev1 test_tbs) true_rads_seviri = true).
(* seviri_simple_test *)
Check (ltac:(vm_compute; repeat split) :
  ok_close e6 zero (c <- sev2 ;; r <- seviri_tb2radiance (N := D) c test_tbs false true ;; seviri_radiance2tb (N := D) c r) test_tbs = true /\
  ok_close zero e8 (c <- sev2 ;; seviri_tb2radiance (N := D) c test_tbs false true) (match radiances sev1 test_tbs with Ok l => l | Err _ => [] end) = true).
