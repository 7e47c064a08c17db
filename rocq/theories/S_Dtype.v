(** Specification vocabulary for element types. *)
From Coq Require Import ZArith Reals List.
From Verif Require Import Base NumSig XR M_Dtype.
Import ListNotations.

(** single precision only if both are single *)
Definition wider (a b : dtype) : dtype := match a, b with Float32, Float32 => Float32 | _, _ => Float64 end.
(** an array (or numpy scalar) of a floating type *)
Definition floats {N : Num} (d : dtype) (a : tv N) : Prop := ty a = Np d /\ is_float d = true.
(** an array of an integer type *)
Definition integers {N : Num} (a : tv N) : Prop := exists d, ty a = Np d /\ is_float d = false.
(** a float array, or the Python float a one-element array has been turned into *)
Definition floats_or_item {N : Num} (d : dtype) (a : tv N) : Prop := (ty a = Np d \/ ty a = PyFloat) /\ is_float d = true.
