(** A small Rayleigh table and image for the Examples of T_Rayleigh. *)
From Coq Require Import Reals Lra ZArith String List Lia.
From Verif Require Import Base NumSig XR M_Utils M_Rsr M_RadTb M_Nir M_Rayleigh S_Nir S_Rayleigh Samples.
Import ListNotations.
Local Open Scope R_scope.

Definition ray_ws : list R := [400; 500; 600].
Definition ray_ss : list R := [1; 2; 3].
Definition ray_az : list R := [0; 90; 180].
Definition ray_ts : list R := [1; 2].
Definition ray_g (c x y z : R) : R := c * (x + y / 180 + z).
Definition ray_row (c : R) : list R :=
  flat_map (fun x => flat_map (fun y => map (fun z => ray_g c x y z) ray_ts) ray_az) ray_ss.
Definition ray_V : list (list R) := [ray_row (1 / 100); ray_row (2 / 100); ray_row (4 / 100)].
Definition ray_lut : raylut XRN :=
  {| rl_wavelengths := map Fin ray_ws; rl_azid := map Fin ray_az; rl_satz := map Fin ray_ts; rl_sunz := map Fin ray_ss;
     rl_refl := map (map Fin) ray_V |}.

Ltac inc := intros [|[|[|i]]] [|[|[|j]]] x y L; cbn [nth_error ray_ws ray_ss ray_az ray_ts]; intros E1 E2; try (exfalso; lia); try discriminate;
  repeat match goal with H : Some _ = Some _ |- _ => injection H as <- end;
  try (destruct i; discriminate); try (destruct j; discriminate); lra.
Lemma ray_ws_inc : increasing ray_ws. Proof. inc. Qed.
Lemma ray_ss_axis : axis ray_ss 1 3. Proof. split; [inc|]. cbn. repeat split; lia. Qed.
Lemma ray_az_axis : axis ray_az 0 180. Proof. split; [inc|]. cbn. repeat split; lia. Qed.
Lemma ray_ts_axis : axis ray_ts 1 2. Proof. split; [inc|]. cbn. repeat split; lia. Qed.
Lemma ray_holds : holds ray_lut ray_ws ray_ss ray_az ray_ts ray_V 3 2.
Proof.
  constructor; try reflexivity.
  - repeat constructor.
  - exact ray_ws_inc. - exact ray_ss_axis. - exact ray_az_axis. - exact ray_ts_axis.
Qed.
Ltac equi := intros [|[|[|i]]] x; cbn [nth_error ray_ws ray_ss ray_az ray_ts]; intros E; try (destruct i; discriminate); try discriminate; injection E as <-; cbn [INR]; lra.
Lemma ray_ss_equi : equidistant ray_ss. Proof. exists 1, 1. equi. Qed.
Lemma ray_az_equi : equidistant ray_az. Proof. exists 0, 90. equi. Qed.
Lemma ray_ts_equi : equidistant ray_ts. Proof. exists 1, 1. equi. Qed.
Lemma ray_values : forall row x, In row ray_V -> In x row -> 2 / 100 <= x <= 24 / 100.
Proof.
  intros row x Hr Hx. cbn [ray_V In] in Hr. destruct Hr as [<- | [<- | [<- | []]]]; cbn in Hx; unfold ray_g in Hx;
  repeat (destruct Hx as [<- | Hx]; [lra|]); destruct Hx.
Qed.
Lemma ray_g_affine c : multi_affine (ray_g c).
Proof. unfold multi_affine, affine, ray_g. repeat split; intros; lra. Qed.
Lemma ray_row_sampled c : sampled (ray_g c) ray_ss ray_az ray_ts (ray_row c).
Proof.
  intros [|[|[|i]]] [|[|[|j]]] [|[|k]] x y z; cbn [nth_error ray_ss ray_az ray_ts]; intros E1 E2 E3;
  try (destruct i; discriminate); try (destruct j; discriminate); try (destruct k; discriminate);
  injection E1 as <-; injection E2 as <-; injection E3 as <-; reflexivity.
Qed.

(** two pixels: sun at 60 degrees and sun angle missing *)
Definition farr (l : list XR) : rarr XRN := {| r_kind := Numpy; r_arr := {| a_dtype := Float64; a_shape := [List.length l]; a_data := l |} |}.
Definition ray_sun := farr [Fin 60; NaN].
Definition ray_sat := farr [Fin 0; Fin 0].
Definition ray_azi := farr [Fin 180; Fin 90].
Definition ray_red (a b : XR) := farr [a; b].
Lemma ray_im : ray_image [2%nat] ray_sun ray_sat ray_azi None.
Proof. repeat split; try reflexivity; discriminate. Qed.
Lemma ray_im_red a b : ray_image [2%nat] ray_sun ray_sat ray_azi (Some (ray_red a b)).
Proof. repeat split; try reflexivity. intros r [= <-]. left. split; reflexivity. Qed.

Lemma ray_band x : effective_wavelength sample_load "NOAA-19" "avhrr-3" (BNumber (Fin x)) = Ok (Fin (x * 1000)).
Proof. unfold effective_wavelength. cbn. do 2 f_equal. lra. Qed.
Lemma ray_inside w : 400 < w < 600 -> inside ray_ws w.
Proof. intros. split; [exists 400|exists 600]; cbn; auto with real; split; try lra; auto 6. Qed.
Lemma sec60 : sec_deg 60 = 2.
Proof. unfold sec_deg. replace (60 * PI / 180) with (PI / 3) by field. rewrite cos_PI3. lra. Qed.
Lemma sec0 : sec_deg 0 = 1.
Proof. unfold sec_deg. replace (0 * PI / 180) with 0 by field. rewrite cos_0. lra. Qed.
