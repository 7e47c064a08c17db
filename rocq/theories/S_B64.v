(** Specification vocabulary: binary64 numbers and 16-bit integers. *)
From Coq Require Import ZArith Reals Bool SpecFloat.
From Flocq Require Import Core BinarySingleNaN.
From Verif Require Import B64 XR.

(** a finite double *)
Definition is_double (x : b64) : Prop := SpecFloat.valid_binary 53 1024 x = true /\ is_finite_SF x = true.
(** its value *)
Notation to_R := (SF2R radix2).

(** a float-to-int16 cast that drops the high bits, as common processors do *)
Definition low_bits (x : XR) : Z :=
  match x with Fin r => ((Ztrunc r + 32768) mod 65536 - 32768)%Z | _ => 0%Z end.

(** a finite double within the band *)
Definition in_band (start stop x : b64) : Prop := is_double x /\ (to_R start <= to_R x <= to_R stop)%R.

(** ** Order of doubles and what is asked of the platform's mathematical library *)

(** x <= y as IEEE 754 compares them: neither is NaN *)
Definition le_double (x y : b64) : Prop := SFleb x y = true.
(** a double or an infinity or NaN: an encodable value *)
Definition encodable (x : b64) : Prop := SpecFloat.valid_binary 53 1024 x = true.
(** a finite double between two real numbers *)
Definition double_between (lo hi : R) (x : b64) : Prop := is_double x /\ (lo <= to_R x <= hi)%R.

(** exp returns a double, never reverses an order, and exp 0 = 1 *)
Record monotone_exp (f : b64 -> b64) : Prop := {
  exp_encodable : forall x, encodable x -> encodable (f x);
  exp_zero : f (S754_zero false) = b64_ratio 1 1;
  exp_order : forall x y, encodable x -> encodable y -> le_double x y -> le_double (f x) (f y)
}.
(** log returns a double, never reverses an order on [1, infinity], log 1 = 0, and
    no logarithm is minus zero *)
Record monotone_log (f : b64 -> b64) : Prop := {
  log_encodable : forall x, encodable x -> encodable (f x);
  log_one : f (b64_ratio 1 1) = S754_zero false;
  log_plus : forall x, f x <> S754_zero true;
  log_order : forall x y, encodable x -> encodable y -> le_double (b64_ratio 1 1) x -> le_double x y -> le_double (f x) (f y)
}.
(** exp is right to [e] relative *)
Definition accurate_exp (e : R) (f : b64 -> b64) : Prop := forall x, is_double x -> (0 <= to_R x <= 600)%R ->
  is_double (f x) /\ (Rabs (to_R (f x) - exp (to_R x)) <= e * exp (to_R x))%R.
(** log is right to [e] relative, for arguments of at least 1.1 *)
Definition accurate_log (e : R) (f : b64 -> b64) : Prop := forall x, is_double x -> (11 / 10 <= to_R x)%R ->
  is_double (f x) /\ (Rabs (to_R (f x) - ln (to_R x)) <= e * ln (to_R x))%R.
(** a relative response: from 0 to 1000, and no minus zero *)
Definition response_like (x : b64) : Prop := double_between 0 1000 x /\ x <> S754_zero true.
(** a sampled response: zero, or from 1e-12 to 1000 *)
Definition sampled (x : b64) : Prop := response_like x /\ (to_R x = 0 \/ 1 / 10 ^ 12 <= to_R x)%R.
(** waves a converter can have: wavelengths below a kilometre, in metres, or
    wavenumbers above one per kilometre, per metre *)
Definition wave_like (wavenumber : bool) (x : b64) : Prop :=
  if wavenumber then double_between (1 / 10 ^ 3) (10 ^ 12) x else double_between (1 / 10 ^ 12) (10 ^ 3) x.
(** not negative, not NaN, and no minus zero *)
Definition nonnegative (x : b64) : Prop := encodable x /\ le_double (S754_zero false) x /\ x <> S754_zero true.

(** ** Errors *)
(** a finite double that is [r] up to a relative error [e] *)
Definition within (e : R) (x : b64) (r : R) : Prop := is_double x /\ (Rabs (to_R x - r) <= e * r)%R.
