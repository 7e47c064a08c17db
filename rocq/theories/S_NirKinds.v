(** Specification vocabulary for masked and lazy temperatures (C107). *)
From Coq Require Import List Bool Reals.
From Verif Require Import Base NumSig XR M_Nir M_NirKinds.

(** plain temperatures, not masked and not lazy *)
Definition plain {N : Num} (a : nirarg N) : karg N := {| k_arg := a; k_lazy := false; k_mask := None |}.
(** a numpy masked array *)
Definition numpy_masked {N : Num} (a : karg N) : Prop := k_lazy a = false /\ k_mask a <> None.
(** the mask has one entry per value *)
Definition mask_fits {N : Num} (a : karg N) : Prop :=
  forall m, k_mask a = Some m -> length m = length (a_data (get_as_array (k_arg a))).
(** element [k] is masked *)
Definition hidden {N : Num} (k : nat) (a : karg N) : Prop := exists m, k_mask a = Some m /\ nth_error m k = Some true.

Definition result_values {N : Num} (r : kresult N) : arr N := match r with RArray a | RLazy a | RMasked a _ => a end.
(** element [k] of the result is masked *)
Definition masked_out {N : Num} (k : nat) (r : kresult N) : Prop := exists a m, r = RMasked a m /\ nth_error m k = Some true.
Definition is_masked_result {N : Num} (r : kresult N) : Prop := exists a m, r = RMasked a m.
Definition is_lazy_result {N : Num} (r : kresult N) : Prop := exists a, r = RLazy a.
(** a numpy masked array with these values and this mask *)
Definition masked_nir {N : Num} (a : nirarg N) (m : list bool) : karg N := {| k_arg := a; k_lazy := false; k_mask := Some m |}.
