(** Property C112: interpolation in the Rayleigh table in IEEE doubles. *)
From Coq Require Import Reals Lra Lia ZArith String List Bool SpecFloat.
From Flocq Require Import Core BinarySingleNaN.
From Verif Require Import Base NumSig B64 M_Tables M_Utils M_Rsr M_RadTb M_Nir M_Rayleigh S_B64 S_Nir S_RayDoubles S_RayDoubles2 P_B64 P_RayDoubles P_RayDoubles3 Samples14 T_RayDoubles.
Import ListNotations.
Local Open Scope R_scope.

(** A call inside the table gives for each pixel whose secants and azimuth are on
    the axes a finite double: to 10^-12 of the largest table value it is 100 times
    the trilinear interpolation, clipped to percent, at a point that is as near to
    the pixel's place in the table as rounding allows. *)
Theorem C112_interpolation : forall lib oob dask load platform sensor lut sun sat azi band s s0 s1 t0 t1 w, @grid64 lib lut s0 s1 t0 t1 ->
  effective_wavelength load platform sensor band = Ok (w : B64N lib) -> double_between 0 (10 ^ 6) w -> inside64 lut w ->
  is_image s (r_arr sun) -> is_image s (r_arr sat) -> is_image s (r_arr azi) -> a_dtype (r_arr sun) = Float64 ->
  exists r B, @get_reflectance (B64N lib) oob dask load platform sensor (Some lut) sun sat azi band None = Ok r /\ fits s r /\ wavelength_adjusted_lut (Some lut) (w : B64N lib) = Ok B /\
  forall M k z t a S T, 0 <= M <= 10 ^ 6 -> (forall b : b64, In (b : B64N lib) B -> Rabs (to_R b) <= M) -> (k < size s)%nat ->
    pix k (r_arr sun) = Some (z : B64N lib) -> pix k (r_arr sat) = Some (t : B64N lib) -> pix k (r_arr azi) = Some (a : B64N lib) ->
    @secant_on lib s0 s1 z S -> @secant_on lib t0 t1 t T -> double_between 0 180 a ->
  exists x : b64, pix k r = Some (x : B64N lib) /\ is_double x /\
    exists q0 l0 q1 l1 q2 l2 v, near_position (List.length (rl_sunz lut)) (to_R s0) (to_R s1) (to_R S) q0 l0 /\
      near_position (List.length (rl_azid lut)) 0 180 (180 - to_R a) q1 l1 /\ near_position (List.length (rl_satz lut)) (to_R t0) (to_R t1) (to_R T) q2 l2 /\
      corners B (List.length (rl_azid lut)) (List.length (rl_satz lut)) q0 q1 q2 v /\
      Rabs (to_R x - percent (100 * trilinear v l0 l1 l2)) <= 1 / 10 ^ 12 * M + / 10 ^ 290.
Proof. exact interpolation. Qed.
Print Assumptions C112_interpolation.

(** So the correction does not leave the range of the table by more than
    2 * 10^-12 percent. *)
Theorem C112_bounds : forall lib oob dask load platform sensor lut sun sat azi band s s0 s1 t0 t1 w lo hi, @grid64 lib lut s0 s1 t0 t1 ->
  effective_wavelength load platform sensor band = Ok (w : B64N lib) -> double_between 0 (10 ^ 6) w -> inside64 lut w ->
  is_image s (r_arr sun) -> is_image s (r_arr sat) -> is_image s (r_arr azi) -> a_dtype (r_arr sun) = Float64 ->
  0 <= lo -> hi <= 1 -> (forall row (x : b64), In row (rl_refl lut) -> In (x : B64N lib) row -> lo <= to_R x <= hi) ->
  exists r, @get_reflectance (B64N lib) oob dask load platform sensor (Some lut) sun sat azi band None = Ok r /\
  forall k z t a S T, (k < size s)%nat ->
    pix k (r_arr sun) = Some (z : B64N lib) -> pix k (r_arr sat) = Some (t : B64N lib) -> pix k (r_arr azi) = Some (a : B64N lib) ->
    @secant_on lib s0 s1 z S -> @secant_on lib t0 t1 t T -> double_between 0 180 a ->
  exists x : b64, pix k r = Some (x : B64N lib) /\ is_double x /\ 100 * lo - 2 / 10 ^ 12 <= to_R x <= 100 * hi + 2 / 10 ^ 12.
Proof. exact interpolation_bounds. Qed.
Print Assumptions C112_bounds.

(** the table, the wavelength and the first pixel of the Examples of C111: the
    sun at 60 degrees, the satellite at 0, the azimuth difference 180 *)
Example C112_case : @grid64 step_lib lut64 (b64_ratio 1 1) (b64_ratio 3 1) (b64_ratio 1 1) (b64_ratio 2 1) /\
  (exists w : b64, effective_wavelength no_load "NOAA-19" "avhrr-3" (BNumber (b64_ratio 11 20 : D)) = Ok (w : D) /\ to_R w = 550 /\ double_between 0 (10 ^ 6) w /\ inside64 lut64 w) /\
  is_image [2%nat] (r_arr sun14) /\ is_image [2%nat] (r_arr sat14) /\ is_image [2%nat] (r_arr azi14) /\ a_dtype (r_arr sun14) = Float64 /\
  @secant_on step_lib (b64_ratio 1 1) (b64_ratio 3 1) (b64_ratio 60 1) (b64_ratio 2 1) /\ @secant_on step_lib (b64_ratio 1 1) (b64_ratio 2 1) (b64_ratio 0 1) (b64_ratio 1 1) /\
  double_between 0 180 (b64_ratio 180 1).
Proof.
  assert (V : forall z, (Z.abs z <= 1000)%Z -> is_double (b64_ratio z 1) /\ to_R (b64_ratio z 1) = IZR z) by (intros z Hz; apply int_R; lia).
  assert (R : forall z, (Z.abs z <= 1000)%Z -> to_R (b64_ratio z 1) = IZR z) by (intros z Hz; apply V; exact Hz).
  assert (W : forall z a b, (Z.abs z <= 1000)%Z -> a <= IZR z <= b -> double_between a b (b64_ratio z 1)) by (intros z a b Hz H; split; [now apply V|now rewrite R]).
  assert (I : forall l : list Z, (forall z, In z l -> (Z.abs z <= 1000)%Z) -> forall x : b64, In x (map (fun z => b64_ratio z 1) l) -> double_between (- 10 ^ 6) (10 ^ 6) x).
  { intros l Hl x Hx. apply in_map_iff in Hx as (z & <- & Hz). apply Hl in Hz. apply W; [exact Hz|]. pose proof (IZR_le (-1000) z ltac:(lia)). pose proof (IZR_le z 1000 ltac:(lia)). lra. }
  assert (A3 : forall a b c : Z, (Z.abs a <= 1000)%Z -> (Z.abs b <= 1000)%Z -> (Z.abs c <= 1000)%Z -> (a < b)%Z -> (b < c)%Z -> axis64 (map (fun z => b64_ratio z 1) [a; b; c]) (b64_ratio a 1) (b64_ratio c 1)).
  { intros a b c Ha Hb Hc L1 L2. pose proof (IZR_lt _ _ L1). pose proof (IZR_lt _ _ L2). split; [cbn; lia|]. split; [cbn; lra|]. split; [apply I; intros z [<-|[<-|[<-|[]]]]; assumption|]. split.
    - intros [|[|[|i]]] [|[|[|j]]] x y L; try lia; cbn [map nth_error]; intros E1 E2; try (destruct i; discriminate); try (destruct j; discriminate);
        injection E1 as <-; injection E2 as <-; rewrite !R by assumption; lra.
    - split; [reflexivity|]. split; [reflexivity|]. rewrite !R by assumption. pose proof (IZR_le (a + 1) c ltac:(lia)) as Q. rewrite plus_IZR in Q. lra. }
  split; [|split; [|split; [split; reflexivity|split; [split; reflexivity|split; [split; reflexivity|split; [reflexivity|split; [|split]]]]]]].
  - constructor.
    + apply (A3 1 2 3)%Z; lia.
    + split; [cbn; lia|]. split; [cbn; lra|]. split; [apply (I [1; 2]%Z); intros z [<-|[<-|[]]]; lia|]. split.
      * intros [|[|i]] [|[|j]] x y L; try lia; intros E1 E2; try (destruct i; discriminate); try (destruct j; discriminate).
        assert (x = b64_ratio 1 1) as -> by (injection E1 as E1; symmetry; exact E1). assert (y = b64_ratio 2 1) as -> by (injection E2 as E2; symmetry; exact E2). rewrite !R by lia. lra.
      * split; [reflexivity|]. split; [reflexivity|]. rewrite !R by lia. lra.
    + exists (b64_ratio 0 1), (b64_ratio 180 1). split; [apply (A3 0 90 180)%Z; lia|]. rewrite !R by lia. auto.
    + apply C111_wavelength_case.
  - exists (b64_ratio 550 1). split; [match goal with |- ?a = ?b => exact (eq_refl a <: a = b) end|]. split; [apply R; lia|]. split; [apply W; [lia|lra]|apply C111_wavelength_case].
  - split; [match goal with |- ?a = ?b => exact (eq_refl b <: a = b) end|]. rewrite !R by lia. apply W; [lia|lra].
  - split; [match goal with |- ?a = ?b => exact (eq_refl b <: a = b) end|]. rewrite !R by lia. apply W; [lia|lra].
  - apply W; [lia|lra].
Qed.
(** and the values of that table are between 0 and 1 *)
Example C112_bounds_case : forall row (x : b64), In row (rl_refl lut64) -> In (x : D) row -> 0 <= to_R x <= 1.
Proof.
  intros row x Hr Hx.
  assert (Q : forallb (forallb (fun v : b64 => match v with S754_finite false m e => (e + 60 <? 8)%Z && (Zpos m <? 2 ^ 53)%Z | _ => false end)) (rl_refl lut64 : list (list b64)) = true) by (vm_compute; reflexivity).
  rewrite forallb_forall in Q. specialize (Q row Hr). rewrite forallb_forall in Q. specialize (Q x Hx).
  destruct x as [s|s| |s m e]; try discriminate. destruct s; try discriminate. apply andb_prop in Q as [Q1 Q2]. apply Z.ltb_lt in Q1, Q2.
  cbn [SF2R cond_Zopp]. unfold F2R. cbn [Fnum Fexp]. apply IZR_lt in Q2.
  assert (0 < IZR (Zpos m)) by now apply IZR_lt. pose proof (bpow_gt_0 radix2 e). assert (bpow radix2 e <= bpow radix2 (-53)) by (apply bpow_le; lia).
  assert (bpow radix2 (-53) * IZR (2 ^ 53) = 1) by (change (bpow radix2 (-53)) with (/ IZR (2 ^ 53)); apply Rinv_l; apply not_0_IZR; discriminate).
  assert (0 <= IZR (Zpos m) * bpow radix2 e <= IZR (2 ^ 53) * bpow radix2 (-53)) by (split; [apply Rmult_le_pos; lra|apply Rmult_le_compat; lra]). lra.
Qed.
