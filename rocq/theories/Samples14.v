(** A Rayleigh table and image in doubles, and a library whose cosine is 1 near
    the zenith and 1/2 elsewhere, for the Examples of T_RayDoubles. *)
From Coq Require Import ZArith String List Bool SpecFloat.
From Verif Require Import Base NumSig B64 M_Tables M_Utils M_Rsr M_RadTb M_Nir M_Rayleigh.
Import ListNotations.
Local Open Scope Z_scope.

Definition step_lib : libm := {| m_exp := fun x => x; m_log := fun x => x;
  m_cos := fun x => if SFltb x (b64_ratio 1 2) then b64_ratio 1 1 else b64_ratio 1 2; m_acos := fun _ => b64_ratio 6 5; m_pow := fun x _ => x |}.
Notation D := (B64N step_lib).
Definition dbls (l : list Z) : list D := map (fun z => b64_ratio z 1) l.
Definition row64 (c : Z) : list D :=
  flat_map (fun x => flat_map (fun y => map (fun z => b64_ratio (c * (2 * x + y + 2 * z)) 200) [1; 2]) [0; 1; 2]) [1; 2; 3].
Definition lut64 : raylut D :=
  {| rl_wavelengths := dbls [400; 500; 600]; rl_azid := dbls [0; 90; 180]; rl_satz := dbls [1; 2]; rl_sunz := dbls [1; 2; 3];
     rl_refl := [row64 1; row64 2; row64 4] |}.
Definition img64 (l : list D) : rarr D := {| r_kind := Numpy; r_arr := {| a_dtype := Float64; a_shape := [List.length l]; a_data := l |} |}.
(** the sun at 60 degrees and no sun angle *)
Definition sun14 : rarr D := img64 ([b64_ratio 60 1; S754_nan] : list b64).
Definition sat14 : rarr D := img64 ([b64_ratio 0 1; b64_ratio 0 1] : list b64).
Definition azi14 : rarr D := img64 ([b64_ratio 180 1; b64_ratio 90 1] : list b64).
Definition red14 (z d : Z) : rarr D := img64 ([b64_ratio z 1; b64_ratio d 1] : list b64).
Definition no_load (p s : string) : res (rsr_state D) := Err OSError.
Definition call14 (red : option (rarr D)) : res (arr D) :=
  get_reflectance (fun _ => 0%Z) true no_load "NOAA-19" "avhrr-3" (Some lut64) sun14 sat14 azi14 (BNumber (b64_ratio 11 20 : D)) red.
