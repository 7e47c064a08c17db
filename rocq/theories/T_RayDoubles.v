(** Property C111: the Rayleigh correction computed in IEEE doubles. *)
From Coq Require Import Reals Lra Lia ZArith String List Bool SpecFloat.
From Flocq Require Import Core BinarySingleNaN.
From Verif Require Import Base NumSig B64 M_Tables M_Utils M_Rsr M_RadTb M_Nir M_Rayleigh S_B64 S_Nir S_RayDoubles P_B64 P_RayDoubles P_RayDoubles2 Samples14.
Import ListNotations.
Local Open Scope R_scope.

(** Every element of a correction is NaN or a double in [0, 100], whatever the
    table, the angles and the red band hold. *)
Theorem C111_percent : forall lib oob dask load platform sensor lut sun sat azi band red r x,
  @get_reflectance (B64N lib) oob dask load platform sensor lut sun sat azi band red = Ok r -> In (x : b64) (a_data r) ->
  b64_nan x = true \/ (le_double (b64_ratio 0 1) x /\ le_double x (b64_ratio 100 1)).
Proof. exact percent_range. Qed.
Print Assumptions C111_percent.

(** a table, an image with a missing sun angle, and a bright red band *)
Example C111_percent_case : exists r, call14 None = Ok r /\ In (S754_finite false 5066549580791808 (-49)) (a_data r) /\
  exists r', call14 (Some (red14 10 120)) = Ok r' /\ a_data r' = [S754_finite false 5066549580791808 (-49); S754_zero false].
Proof.
  exists {| a_dtype := Float64; a_shape := [2%nat]; a_data := [S754_finite false 5066549580791808 (-49); S754_finite false 8444249301319681 (-50)] : list D |}.
  split; [match goal with |- ?a = ?b => exact (eq_refl a <: a = b) end|]. split; [left; reflexivity|].
  exists {| a_dtype := Float64; a_shape := [2%nat]; a_data := [S754_finite false 5066549580791808 (-49); S754_zero false] : list D |}.
  split; [match goal with |- ?a = ?b => exact (eq_refl a <: a = b) end|reflexivity].
Qed.

(** A red band only takes away from a correction: none of it below 20 percent,
    all of it from 100 percent on, and in between what the formula says to
    a relative error of 10^-15. *)
Theorem C111_red_band : forall lib oob dask load platform sensor lut sun sat azi band r0 s k x0 red, one_image s sun sat azi red -> a_dtype (r_arr red) = Float64 ->
  @get_reflectance (B64N lib) oob dask load platform sensor lut sun sat azi band None = Ok r0 -> (k < size s)%nat ->
  pix k r0 = Some (x0 : B64N lib) -> is_double x0 -> 0 < to_R x0 < 100 ->
  exists r, @get_reflectance (B64N lib) oob dask load platform sensor lut sun sat azi band (Some red) = Ok r /\
  forall b, pix k (r_arr red) = Some (b : B64N lib) -> double_between (- 10 ^ 6) (10 ^ 6) b ->
  exists x : b64, pix k r = Some (x : B64N lib) /\ is_double x /\ (to_R b < 20 -> x = x0) /\ 0 <= to_R x <= to_R x0 /\ (100 <= to_R b -> to_R x = 0) /\
    (20 <= to_R b <= 100 -> Rabs (to_R x - (100 - to_R b) / 80 * to_R x0) <= 1 / 10 ^ 15 * to_R x0 + / 10 ^ 300).
Proof. exact red_band. Qed.
Print Assumptions C111_red_band.

(** the brighter the red band, the less is left *)
Theorem C111_red_band_order : forall lib oob dask load platform sensor lut sun sat azi band r0 s k x0 red red' r r' b b' x x',
  one_image s sun sat azi red -> one_image s sun sat azi red' -> a_dtype (r_arr red) = Float64 -> a_dtype (r_arr red') = Float64 ->
  @get_reflectance (B64N lib) oob dask load platform sensor lut sun sat azi band None = Ok r0 -> (k < size s)%nat ->
  pix k r0 = Some (x0 : B64N lib) -> is_double x0 -> 0 < to_R x0 < 100 ->
  @get_reflectance (B64N lib) oob dask load platform sensor lut sun sat azi band (Some red) = Ok r ->
  @get_reflectance (B64N lib) oob dask load platform sensor lut sun sat azi band (Some red') = Ok r' ->
  pix k (r_arr red) = Some (b : B64N lib) -> double_between (- 10 ^ 6) (10 ^ 6) b -> pix k (r_arr red') = Some (b' : B64N lib) -> double_between (- 10 ^ 6) (10 ^ 6) b' ->
  pix k r = Some (x : B64N lib) -> pix k r' = Some (x' : B64N lib) -> to_R b <= to_R b' -> to_R x' <= to_R x.
Proof. exact red_band_order. Qed.
Print Assumptions C111_red_band_order.

(** 9 and 7.500000000000001 percent; 60 and 30 percent in the red band *)
Example C111_red_band_case : exists r0 x0 x1, call14 None = Ok r0 /\ pix 0 r0 = Some (x0 : D) /\ pix 1 r0 = Some (x1 : D) /\
  is_double x0 /\ to_R x0 = 9 /\ is_double x1 /\ 75 / 10 < to_R x1 < 75 / 10 + 1 / 10 ^ 14 /\
  one_image [2%nat] sun14 sat14 azi14 (red14 60 30) /\
  exists r y0 y1, call14 (Some (red14 60 30)) = Ok r /\ pix 0 r = Some (y0 : D) /\ pix 1 r = Some (y1 : D) /\ to_R y0 = 45 / 10 /\ to_R y1 < to_R x1.
Proof.
  exists {| a_dtype := Float64; a_shape := [2%nat]; a_data := [S754_finite false 5066549580791808 (-49); S754_finite false 8444249301319681 (-50)] : list D |}.
  do 2 eexists. split; [match goal with |- ?a = ?b => exact (eq_refl a <: a = b) end|]. split; [reflexivity|]. split; [reflexivity|]. split; [split; reflexivity|].
  split; [cbn; unfold F2R; cbn; lra|]. split; [split; reflexivity|]. split; [cbn; unfold F2R; cbn; lra|].
  split; [repeat split; try reflexivity; left; split; reflexivity|].
  exists {| a_dtype := Float64; a_shape := [2%nat]; a_data := [S754_finite false 5066549580791808 (-50); S754_finite false 7388718138654721 (-50)] : list D |}.
  do 2 eexists. split; [match goal with |- ?a = ?b => exact (eq_refl a <: a = b) end|]. split; [reflexivity|]. split; [reflexivity|]. split; cbn; unfold F2R; cbn; lra.
Qed.

(** At high zenith angles: all of the correction is left up to the threshold
    (exactly), nothing beyond the maximum at full strength, never more than there
    was and never with the opposite sign; to a relative error of 10^-14 it is
    what exact arithmetic leaves. *)
Theorem C111_high_zenith : forall lib s (zen ray : arr (B64N lib)) th mx st, thresholds th mx st -> fits s zen -> fits s ray ->
  exists r, reduce_rayleigh_highzenith zen ray th mx st = Ok r /\ fits s r /\
  forall k z x, (k < size s)%nat -> pix k zen = Some (z : B64N lib) -> pix k ray = Some (x : B64N lib) -> an_angle z -> is_double x ->
  exists y : b64, pix k r = Some (y : B64N lib) /\ is_double y /\ Rabs (to_R y) <= Rabs (to_R x) /\ 0 <= to_R x * to_R y /\
    (to_R z <= to_R th -> to_R y = to_R x) /\ (to_R mx <= to_R z -> 1 <= to_R st -> to_R y = 0) /\
    Rabs (to_R y - to_R x * kept (to_R th) (to_R mx) (to_R st) (to_R z)) <= 1 / 10 ^ 14 * Rabs (to_R x) + / 10 ^ 300.
Proof. exact high_zenith. Qed.
Print Assumptions C111_high_zenith.

(** the higher the angle, the less is left *)
Theorem C111_high_zenith_order : forall lib s s' (zen ray zen' ray' r r' : arr (B64N lib)) th mx st k k' z z' x y y', thresholds th mx st ->
  fits s zen -> fits s ray -> fits s' zen' -> fits s' ray' ->
  reduce_rayleigh_highzenith zen ray th mx st = Ok r -> reduce_rayleigh_highzenith zen' ray' th mx st = Ok r' -> (k < size s)%nat -> (k' < size s')%nat ->
  pix k zen = Some (z : B64N lib) -> pix k ray = Some (x : B64N lib) -> pix k' zen' = Some (z' : B64N lib) -> pix k' ray' = Some (x : B64N lib) ->
  an_angle z -> an_angle z' -> is_double x -> to_R z <= to_R z' -> pix k r = Some (y : B64N lib) -> pix k' r' = Some (y' : B64N lib) ->
  Rabs (to_R y') <= Rabs (to_R y).
Proof. exact high_zenith_order. Qed.
Print Assumptions C111_high_zenith_order.

(** at 60, 80 and 100 degrees, from 70 to 95 degrees at strength 1 *)
Definition case_zen : arr D := r_arr (img64 (map (fun z => b64_ratio z 1) [60; 80; 100]%Z)).
Definition case_ray : arr D := r_arr (img64 (map (fun z => b64_ratio z 1) [9; 9; 9]%Z)).
Example C111_high_zenith_case : thresholds (b64_ratio 70 1) (b64_ratio 95 1) (b64_ratio 1 1) /\ fits [3%nat] case_zen /\ fits [3%nat] case_ray /\
  (exists z : b64, pix 1 case_zen = Some (z : D) /\ an_angle z /\ kept 70 95 1 (to_R z) = 6 / 10) /\
  exists r y, @reduce_rayleigh_highzenith D case_zen case_ray (b64_ratio 70 1) (b64_ratio 95 1) (b64_ratio 1 1) = Ok r /\
    pix 1 r = Some (y : D) /\ 54 / 10 - 1 / 10 ^ 14 < to_R y < 54 / 10 + 1 / 10 ^ 14.
Proof.
  assert (I : forall z, (Z.abs z <= 1000)%Z -> an_angle (b64_ratio z 1)).
  { intros z Hz. destruct (int_R z ltac:(lia)) as [A B]. split; [exact A|]. rewrite B. pose proof (IZR_le (-1000) z ltac:(lia)); pose proof (IZR_le z 1000 ltac:(lia)); lra. }
  assert (V : forall z, (Z.abs z <= 1000)%Z -> to_R (b64_ratio z 1) = IZR z) by (intros z Hz; apply int_R; lia).
  split; [|split; [|split; [|split]]].
  - split; [apply I; lia|]. split; [apply I; lia|]. rewrite !V by lia. split; [lra|]. destruct (int_R 1 ltac:(cbn; lia)) as [A B]. split; [exact A|]. rewrite B. lra.
  - left. split; reflexivity.
  - left. split; reflexivity.
  - exists (b64_ratio 80 1). split; [reflexivity|]. split; [apply I; lia|]. rewrite V by lia. unfold kept. rewrite (Rmax_right 0 ((80 - 70) / (95 - 70))) by lra. rewrite Rmax_right; lra.
  - vm_compute reduce_rayleigh_highzenith. do 2 eexists. split; [reflexivity|]. split; [reflexivity|]. cbn; unfold F2R; cbn; lra.
Qed.

(** The table at a wavelength between two nodes is the linear interpolation, to
    10^-15 of the two values; at the upper node it is that node's row exactly, and
    it is not negative if the table is not. *)
Theorem C111_wavelength : forall lib (lut : raylut (B64N lib)) n w, table64 lut n -> double_between 0 (10 ^ 6) w -> inside64 lut w ->
  exists i w1 w2 r1 r2 B, wavelength_adjusted_lut (Some lut) (w : B64N lib) = Ok B /\ List.length B = n /\
    nth_error (rl_wavelengths lut) i = Some (w1 : B64N lib) /\ nth_error (rl_wavelengths lut) (S i) = Some (w2 : B64N lib) /\ to_R w1 < to_R w <= to_R w2 /\
    nth_error (rl_refl lut) i = Some r1 /\ nth_error (rl_refl lut) (S i) = Some r2 /\
    forall m x y, nth_error r1 m = Some (x : B64N lib) -> nth_error r2 m = Some (y : B64N lib) ->
    exists b : b64, nth_error B m = Some (b : B64N lib) /\ is_double b /\
      Rabs (to_R b - between_nodes (to_R w1) (to_R w2) (to_R w) (to_R x) (to_R y)) <= 1 / 10 ^ 15 * (Rabs (to_R x) + Rabs (to_R y)) + / 10 ^ 300 /\
      (to_R w = to_R w2 -> to_R b = to_R y) /\ (0 <= to_R x -> 0 <= to_R y -> 0 <= to_R b).
Proof. exact blend64. Qed.
Print Assumptions C111_wavelength.
(** the table of the Examples at 550 and at 500 nm *)
Example C111_wavelength_case : table64 lut64 18 /\ inside64 lut64 (b64_ratio 550 1) /\ inside64 lut64 (b64_ratio 500 1).
Proof.
  assert (V : forall z, (Z.abs z <= 1000)%Z -> is_double (b64_ratio z 1) /\ to_R (b64_ratio z 1) = IZR z) by (intros z Hz; apply int_R; lia).
  split; [constructor|].
  - intros w. cbn [lut64 rl_wavelengths dbls map In]. intros [<-|[<-|[<-|[]]]]; [destruct (V 400%Z ltac:(lia)) as [A B]|destruct (V 500%Z ltac:(lia)) as [A B]|destruct (V 600%Z ltac:(lia)) as [A B]]; (split; [exact A|rewrite B; lra]).
  - intros [|[|[|i]]] [|[|[|j]]] x y L; try lia; cbn [lut64 rl_wavelengths dbls map nth_error]; intros E1 E2; try (destruct i; discriminate); try (destruct j; discriminate);
      match type of E1 with Some ?a = _ => assert (X : a = x) by congruence end; match type of E2 with Some ?a = _ => assert (Y : a = y) by congruence end;
      clear E1 E2; subst x y; rewrite !(fun z H => proj2 (V z H)) by lia; lra.
  - reflexivity.
  - intros row [<-|[<-|[<-|[]]]]; reflexivity.
  - intros row x Hr Hx.
    assert (Q : forallb (forallb (fun v : b64 => match v with S754_finite false m e => (e + 60 <? 8)%Z && (Zpos m <? 2 ^ 53)%Z && SpecFloat.valid_binary 53 1024 v | _ => false end)) (rl_refl lut64 : list (list b64)) = true) by (vm_compute; reflexivity).
    rewrite forallb_forall in Q. specialize (Q row Hr). rewrite forallb_forall in Q. specialize (Q x Hx).
    destruct x as [s|s| |s m e]; try discriminate. destruct s; try discriminate. apply andb_prop in Q as [Q Vx]. apply andb_prop in Q as [Q1 Q2]. apply Z.ltb_lt in Q1, Q2.
    split; [split; [exact Vx|reflexivity]|]. cbn [SF2R cond_Zopp]. unfold F2R. cbn [Fnum Fexp]. apply IZR_lt in Q2.
    assert (0 < IZR (Zpos m)) by now apply IZR_lt. pose proof (bpow_gt_0 radix2 e). assert (bpow radix2 e <= bpow radix2 (-53)) by (apply bpow_le; lia).
    assert (bpow radix2 (-53) * IZR (2 ^ 53) = 1) by (change (bpow radix2 (-53)) with (/ IZR (2 ^ 53)); apply Rinv_l; apply not_0_IZR; discriminate).
    assert (0 <= IZR (Zpos m) * bpow radix2 e <= IZR (2 ^ 53) * bpow radix2 (-53)) by (split; [apply Rmult_le_pos; lra|apply Rmult_le_compat; lra]). lra.
  - split; split.
    + exists (b64_ratio 500 1). split; [right; left; reflexivity|]. rewrite !(fun z H => proj2 (V z H)) by lia. lra.
    + exists (b64_ratio 600 1). split; [right; right; left; reflexivity|]. rewrite !(fun z H => proj2 (V z H)) by lia. lra.
    + exists (b64_ratio 400 1). split; [left; reflexivity|]. rewrite !(fun z H => proj2 (V z H)) by lia. lra.
    + exists (b64_ratio 600 1). split; [right; right; left; reflexivity|]. rewrite !(fun z H => proj2 (V z H)) by lia. lra.
Qed.
