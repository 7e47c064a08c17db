(** Specification vocabulary for the interpolation in Rayleigh tables in doubles. *)
From Coq Require Import Reals List Arith.
From Verif Require Import Base NumSig B64 M_RadTb M_Nir M_Rayleigh S_B64 S_Nir S_RayDoubles.
Local Open Scope R_scope.

(** an axis of the table: increasing doubles from [lo] to [hi] *)
Definition axis64 (l : list b64) (lo hi : b64) : Prop :=
  (2 <= List.length l)%nat /\ INR (List.length l) <= 10 ^ 6 /\
  (forall x, In x l -> double_between (- 10 ^ 6) (10 ^ 6) x) /\
  (forall i j x y, (i < j)%nat -> nth_error l i = Some x -> nth_error l j = Some y -> to_R x < to_R y) /\
  nth_error l 0 = Some lo /\ nth_error l (List.length l - 1) = Some hi /\ to_R lo + 1 / 1000 <= to_R hi.

(** a table with one row of reflectances per wavelength and three axes, the
    azimuths from 0 to 180 degrees *)
Record grid64 {lib} (lut : raylut (B64N lib)) (s0 s1 t0 t1 : b64) : Prop := {
  g_sun : axis64 (rl_sunz lut) s0 s1; g_sat : axis64 (rl_satz lut) t0 t1;
  g_azi : exists a0 a1, axis64 (rl_azid lut) a0 a1 /\ to_R a0 = 0 /\ to_R a1 = 180;
  g_table : table64 lut (List.length (rl_sunz lut) * (List.length (rl_azid lut) * List.length (rl_satz lut))) }.

(** [q], [l]: a cell of an axis with [n] equidistant nodes and a position in it,
    as near to [x] as rounding allows *)
Definition near_position (n : nat) (lo hi x : R) (q : nat) (l : R) : Prop :=
  (q + 1 < n)%nat /\ 0 <= l <= 1 /\ Rabs (INR q + l - (x - lo) / (hi - lo) * (INR n - 1)) <= 2 / 10 ^ 15 * INR n.

(** linear interpolation in three directions *)
Definition lerp (t a b : R) : R := (1 - t) * a + t * b.
Definition trilinear (v : nat -> nat -> nat -> R) (x y z : R) : R :=
  let at_xy i j := lerp z (v i j 0%nat) (v i j 1%nat) in
  let at_x i := lerp y (at_xy i 0%nat) (at_xy i 1%nat) in
  lerp x (at_x 0%nat) (at_x 1%nat).
(** the corners of cell ([q0], [q1], [q2]) of [B], in row-major order *)
Definition corners (B : list b64) (n1 n2 q0 q1 q2 : nat) (v : nat -> nat -> nat -> R) : Prop :=
  forall i j k, (i < 2)%nat -> (j < 2)%nat -> (k < 2)%nat -> exists b, nth_error B (((q0 + i) * n1 + (q1 + j)) * n2 + (q2 + k)) = Some b /\ v i j k = to_R b.
Definition percent (x : R) : R := Rmin (Rmax x 0) 100.

(** the secant that the code and the C library give for the angle [z] on an axis
    that ends at [hi], and that it is on the axis *)
Definition secant_on {lib} (lo hi : b64) (z S : b64) : Prop :=
  S = @secant (B64N lib) (@clip_angle (B64N lib) z hi) /\ double_between (to_R lo) (to_R hi) S.
