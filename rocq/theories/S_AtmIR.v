(** Specification vocabulary for the limb-cooling correction. *)
From Coq Require Import Reals List.
From Verif Require Import XR.
Import ListNotations.
Local Open Scope R_scope.

(** the two increments *)
Definition nadir_inc (T : R) : R := Rpower (1085 / 100) ((T - 210) / 110) - 1.
Definition slant_inc (T z : R) : R := ((T - 170) / 125) ^ 4 * (Rpower (72 / 10) (z / 70) - 1).

(** the zenith angle of a pixel as the correction sees it *)
Inductive zone := Nadir | Slant (z : R) | Outside.
Definition in_zone (z : XR) (k : zone) : Prop :=
  match k with
  | Nadir => z = Fin 0
  | Slant r => z = Fin r /\ 0 < r < 90
  | Outside => z = NaN \/ z = PInf \/ z = NInf \/ exists r, z = Fin r /\ (r < 0 \/ 90 <= r)
  end.
Definition corrected (T : R) (k : zone) : R :=
  match k with Nadir => T + nadir_inc T | Slant z => T + slant_inc T z | Outside => T end.
