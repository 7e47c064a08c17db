(** Specification vocabulary for the Rayleigh correction in doubles. *)
From Coq Require Import Reals List.
From Verif Require Import Base NumSig B64 M_RadTb M_Nir M_Rayleigh S_B64 S_Nir.
Local Open Scope R_scope.

(** angles, thresholds and strengths that are not out of all proportion *)
Definition an_angle (z : b64) : Prop := double_between (- 10 ^ 6) (10 ^ 6) z.
Definition thresholds (th mx st : b64) : Prop :=
  an_angle th /\ an_angle mx /\ to_R th + 1 / 1000 <= to_R mx /\ double_between 0 (10 ^ 6) st.

(** how much of the correction is left, in exact arithmetic *)
Definition kept (th mx st z : R) : R := Rmax 0 (1 - st * Rmax 0 ((z - th) / (mx - th))).

(** the same call with and without a red band, on images of one shape *)
Definition one_image {lib} (s : list nat) (sun sat azidiff : rarr (B64N lib)) (red : rarr (B64N lib)) : Prop :=
  is_image s (r_arr sun) /\ is_image s (r_arr sat) /\ is_image s (r_arr azidiff) /\ fits s (r_arr red).

(** a table of reflectances in doubles: the wavelengths increase by 0.001 nm at
    least, there is one row for each, all of one length *)
Record table64 {lib} (lut : raylut (B64N lib)) (n : nat) : Prop := {
  t_wave : forall w : b64, In (w : B64N lib) (rl_wavelengths lut) -> double_between 0 (10 ^ 6) w;
  t_inc : forall i j (x y : b64), (i < j)%nat -> nth_error (rl_wavelengths lut) i = Some (x : B64N lib) -> nth_error (rl_wavelengths lut) j = Some (y : B64N lib) -> to_R x + 1 / 1000 <= to_R y;
  t_rows : List.length (rl_refl lut) = List.length (rl_wavelengths lut);
  t_size : forall row, In row (rl_refl lut) -> List.length row = n;
  t_vals : forall row (x : b64), In row (rl_refl lut) -> In (x : B64N lib) row -> double_between (- 10 ^ 6) (10 ^ 6) x }.
(** between the smallest and the largest wavelength of the table *)
Definition inside64 {lib} (lut : raylut (B64N lib)) (w : b64) : Prop :=
  (exists a : b64, In (a : B64N lib) (rl_wavelengths lut) /\ to_R a < to_R w) /\ (exists b : b64, In (b : B64N lib) (rl_wavelengths lut) /\ to_R w < to_R b).
(** linear interpolation *)
Definition between_nodes (w1 w2 w x y : R) : R := ((w2 - w) * x + (w - w1) * y) / (w2 - w1).
