(** Specification vocabulary: the limb-cooling correction in doubles (C113). *)
From Coq Require Import Reals List ZArith SpecFloat.
From Flocq Require Import Core BinarySingleNaN.
From Verif Require Import B64 S_B64 S_AtmIR.
Local Open Scope R_scope.

(** what is asked of pow, for bases from 1 to 100 and exponents from -10 to 10: it is
    right to [e] relative, does not reverse the order of exponents, and a zeroth
    power is 1 *)
Record good_pow (e : R) (f : b64 -> b64 -> b64) : Prop := {
  pow_accurate : forall x y, double_between 1 100 x -> double_between (-10) 10 y ->
    is_double (f x y) /\ Rabs (to_R (f x y) - Rpower (to_R x) (to_R y)) <= e * Rpower (to_R x) (to_R y);
  pow_order : forall x y y', double_between 1 100 x -> double_between (-10) 10 y -> double_between (-10) 10 y' ->
    to_R y <= to_R y' -> to_R (f x y) <= to_R (f x y');
  pow_zeroth : forall x y, double_between 1 100 x -> is_double y -> to_R y = 0 -> to_R (f x y) = 1 }.

(** the zone of an angle given as a double *)
Definition in_zone64 (z : b64) (k : zone) : Prop :=
  match k with
  | Nadir => is_double z /\ to_R z = 0
  | Slant r => is_double z /\ to_R z = r /\ 0 < r < 90
  | Outside => z = S754_nan \/ (exists s, z = S754_infinity s) \/ is_double z /\ (to_R z < 0 \/ 90 <= to_R z)
  end.
(** a temperature in K *)
Definition kelvin (t : b64) : Prop := double_between 100 400 t.
(** [v] is the corrected temperature: right to 1e-11 K, not changed outside, never
    lowered off nadir, and at nadir raised from 210 K on and lowered below *)
Definition corrected64 (t : b64) (k : zone) (v : b64) : Prop :=
  is_double v /\ Rabs (to_R v - corrected (to_R t) k) <= 1 / 10 ^ 11 /\
  match k with
  | Outside => v = t
  | Slant _ => to_R t <= to_R v
  | Nadir => (210 <= to_R t -> to_R t <= to_R v) /\ (to_R t <= 210 -> to_R v <= to_R t)
  end.
(** two pixels the correction must keep in order: at nadir the colder one first;
    off nadir the one nearer to nadir first, with the same temperature, or from
    170 K on one not higher *)
Definition in_order (t : R) (k : zone) (t' : R) (k' : zone) : Prop :=
  match k, k' with
  | Nadir, Nadir => t <= t'
  | Slant z, Slant z' => z <= z' /\ (t = t' \/ 170 <= t <= t')
  | _, _ => False
  end.
