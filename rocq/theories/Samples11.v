(** Sample data for the theorems about element types: single precision as the
    24-bit rounding of doubles. *)
From Coq Require Import ZArith Reals Lra List Bool SpecFloat.
From Verif Require Import Base NumSig XR B64 M_Dtype S_Dtype.
Import ListNotations.

Definition single (x : b64) : b64 :=
  match x with
  | S754_finite s m e =>
      match binary_normalize 24 128 (if s then Zneg m else Zpos m) e s with
      | S754_finite s m e => binary_normalize prec64 emax64 (if s then Zneg m else Zpos m) e s
      | y => y
      end
  | _ => x
  end.
Section NP.
  Variable lib : libm.
  Notation N := (B64N lib).
  Definition sample_np : numpy N := {|
    f32 := single : num N -> num N;
    log32 := fun x : num N => single (m_log lib x); exp32 := fun x : num N => single (m_exp lib x); cos32 := fun x : num N => single (m_cos lib x);
    pow32 := fun (x : num N) n => single (npow (N := N) x n); powr32 := fun x y : num N => single (m_pow lib x y);
    unfit := fun _ _ => 0%Z |}.
  Definition s32 (m : Z) (d : positive) : tv N := {| ty := Np Float32; val := single (b64_ratio m d) : num N |}.
  Definition s64 (m : Z) (d : positive) : tv N := {| ty := Np Float64; val := b64_ratio m d : num N |}.
  Definition s16 (m : Z) : tv N := {| ty := Np Int16; val := b64_ratio m 1 : num N |}.
End NP.
(** a platform whose functions do nothing *)
Definition plain_lib : libm := {| m_exp := fun x => x; m_log := fun x => x; m_cos := fun x => x; m_acos := fun x => x; m_pow := fun x _ => x |}.
Notation np0 := (sample_np plain_lib).
(** real numbers, single precision taken as exact *)
Definition real_np : numpy XRN := {| f32 := fun x : XRN => x; log32 := nlog XRN; exp32 := nexp XRN; cos32 := ncos XRN;
  pow32 := fun (x : XRN) n => npow (N := XRN) x n; powr32 := npowr XRN; unfit := fun _ _ => 0%Z |}.
