(** The Rayleigh correction of an image. *)
From Coq Require Import Reals Lra ZArith String List Bool Lia Arith Psatz.
From Verif Require Import Base NumSig XR M_Tables M_Utils M_Rsr M_RadTb M_Nir M_Rayleigh S_Nir S_Rayleigh P_Arr P_Rayleigh P_Rayleigh2.
Import ListNotations.
Local Open Scope R_scope.

Lemma secant_fin a : 0 < cos (a * PI / 180) -> @secant XRN (Fin a) = Fin (sec_deg a).
Proof.
  intros H. unfold secant. rewrite lit1. unfold deg2rad. cbn [ncos nmul ndiv npi XRN]. rewrite nZ_fin, xdiv_fin by lra. cbn [xmul xcos].
  replace (a * (PI / 180)) with (a * PI / 180) by lra. rewrite xdiv_fin by lra. reflexivity.
Qed.

(** the angle actually used *)
Definition used_angle (z : XR) (m : R) : R := match z with Fin a => Rclip a 0 (max_angle m) | PInf => max_angle m | NInf | NaN => 0 end.
Lemma used_range z m : 1 <= m -> 0 <= used_angle z m <= max_angle m.
Proof. intros H. pose proof (max_angle_bounds m H) as [[A B] _]. destruct z; cbn; try lra. now apply Rclip_range. Qed.
Lemma secant_used z m : 1 <= m -> @secant XRN (@clip_angle XRN z (Fin m)) = Fin (sec_deg (used_angle z m)) /\ 1 <= sec_deg (used_angle z m) <= m.
Proof.
  intros H. rewrite clip_eq by exact H. fold (used_angle z m). destruct (sec_range m _ H (used_range z m H)) as [C R].
  split; [now apply secant_fin|exact R].
Qed.

Lemma axis_cell_q (oob : XR -> Z) m M o s : (2 <= o)%nat -> (fst (@axis_cell XRN oob m M o s) + 1 < o)%nat.
Proof. intros H. unfold axis_cell. cbv zeta. cbn [fst]. lia. Qed.

Lemma minterp_ok oob (smin smax : XR * XR * XR) o0 o1 o2 V p : (2 <= o0)%nat -> (2 <= o1)%nat -> (2 <= o2)%nat ->
  List.length V = (o0 * (o1 * o2))%nat -> exists v, @minterp XRN oob smin smax (o0, o1, o2) V p = Ok v.
Proof.
  intros H0 H1 H2 HV. destruct smin as [[m0 m1] m2], smax as [[M0 M1] M2], p as [[s0 s1] s2]. unfold minterp.
  pose proof (axis_cell_q oob m0 M0 o0 s0 H0) as Q0. pose proof (axis_cell_q oob m1 M1 o1 s1 H1) as Q1. pose proof (axis_cell_q oob m2 M2 o2 s2 H2) as Q2.
  destruct (axis_cell oob m0 M0 o0 s0) as [q0 l0]. destruct (axis_cell oob m1 M1 o1 s1) as [q1 l1]. destruct (axis_cell oob m2 M2 o2 s2) as [q2 l2]. cbn [fst] in *.
  assert (I : forall i j k, (i < 2)%nat -> (j < 2)%nat -> (k < 2)%nat -> exists v, idx V (o1 * o2 * (q0 + i) + o2 * (q1 + j) + (q2 + k)) = Ok v).
  { intros i j k Hi Hj Hk. unfold idx. destruct (nth_error V _) as [v|] eqn:E; [cbn; eauto|]. apply nth_error_None in E. rewrite HV in E.
    pose proof (index_bound o0 o1 o2 (q0 + i) (q1 + j) (q2 + k)). lia. }
  unfold interp3.
  destruct (I 0 0 0)%nat as [v0 ->]; try lia. destruct (I 0 0 1)%nat as [v1 ->]; try lia. destruct (I 0 1 0)%nat as [v2 ->]; try lia. destruct (I 0 1 1)%nat as [v3 ->]; try lia.
  destruct (I 1 0 0)%nat as [v4 ->]; try lia. destruct (I 1 0 1)%nat as [v5 ->]; try lia. destruct (I 1 1 0)%nat as [v6 ->]; try lia. destruct (I 1 1 1)%nat as [v7 ->]; try lia.
  cbn [bind]. eauto.
Qed.

Lemma mapM_some {A C} (f : A -> res C) l : (forall x, exists y, f x = Ok y) ->
  exists r, mapM f l = Ok r /\ List.length r = List.length l /\ forall k x, nth_error l k = Some x -> exists y, f x = Ok y /\ nth_error r k = Some y.
Proof.
  intros H. induction l as [|x l (r & E & L & IH)]; cbn [mapM].
  - exists []. repeat split; auto. intros [|k] x; discriminate.
  - destruct (H x) as [y Hy]. rewrite Hy, E. cbn [bind]. exists (y :: r). split; [reflexivity|]. split; [cbn; lia|].
    intros [|k] z Hz; cbn in *; [injection Hz as <-; eauto|auto].
Qed.

Definition angles_value (oob : XR -> Z) (ss az ts : list R) (smax tmax : R) (B : list R) (z t : XR) (a : R) : R :=
  tri_value oob 1 smax 0 180 1 tmax (List.length ss) (List.length az) (List.length ts) B
     (sec_deg (used_angle z smax)) (180 - a) (sec_deg (used_angle t tmax)) * 100.

Lemma combine_nth_error {A C} (a : list A) : forall (b : list C) k x y, nth_error a k = Some x -> nth_error b k = Some y ->
  nth_error (combine a b) k = Some (x, y).
Proof. induction a as [|u a IH]; intros [|v b] [|k] x y; cbn; try discriminate; [congruence|apply IH]. Qed.

Lemma interp_angles oob lut ws ss az ts V smax tmax B sun sat azi :
  holds lut ws ss az ts V smax tmax -> List.length B = size3 ss az ts ->
  List.length sat = List.length sun -> List.length azi = List.length sun ->
  exists r, @interp_by_angles XRN oob lut (map Fin B) sun sat azi = Ok r /\ List.length r = List.length sun /\
    forall k z t a, nth_error sun k = Some z -> nth_error sat k = Some t -> nth_error azi k = Some (Fin a) ->
      nth_error r k = Some (Fin (angles_value oob ss az ts smax tmax B z t a)).
Proof.
  intros H HB L1 L2. pose proof (h_sun _ _ _ _ _ _ _ _ H) as As. pose proof (h_azi _ _ _ _ _ _ _ _ H) as Aa. pose proof (h_sat _ _ _ _ _ _ _ _ H) as At.
  unfold interp_by_angles. rewrite (h_s _ _ _ _ _ _ _ _ H), (h_a _ _ _ _ _ _ _ _ H), (h_t _ _ _ _ _ _ _ _ H).
  rewrite (axis_max _ _ _ As), (axis_max _ _ _ At). cbn [bind]. cbv zeta.
  rewrite (axis_first _ _ _ As), (axis_first _ _ _ Aa), (axis_first _ _ _ At), (axis_last _ _ _ As), (axis_last _ _ _ Aa), (axis_last _ _ _ At). cbn [bind].
  rewrite L1, L2, Nat.eqb_refl. cbn [andb negb]. rewrite !map_length.
  pose proof (axis_lt _ _ _ As) as Ls. pose proof (axis_lt _ _ _ Aa) as La. pose proof (axis_lt _ _ _ At) as Lt.
  destruct As as (_ & Ns & Zs & _), Aa as (_ & Na & Za & _), At as (_ & Nt & Zt & _).
  match goal with |- context [mapM ?f ?l] => destruct (mapM_some f l) as (r & E & L & P) end.
  - intros p. edestruct (minterp_ok oob (Fin 1, Fin 0, Fin 1) (Fin smax, Fin 180, Fin tmax) (List.length ss) (List.length az) (List.length ts) (map Fin B)) as [v Hv];
      [assumption|assumption|assumption|now rewrite map_length|]. change (num XRN) with XR in *. rewrite Hv. cbn [bind]. eauto.
  - exists r. split; [exact E|]. split.
    + rewrite L, !combine_length, !map_length. lia.
    + intros k z t a Hz Ht Ha.
      destruct (secant_used z smax) as [Sz _]; [lra|]. destruct (secant_used t tmax) as [St _]; [lra|].
      destruct (P k (Fin (sec_deg (used_angle z smax)), Fin a, Fin (sec_deg (used_angle t tmax)))) as (y & Hy & Hr).
      { apply combine_nth_error; [apply combine_nth_error; [|exact Ha]|].
        - rewrite nth_error_map, Hz. cbn [option_map]. now rewrite Sz.
        - rewrite nth_error_map, Ht. cbn [option_map]. now rewrite St. }
      rewrite Hr. f_equal. cbn [fst snd] in Hy. 
      assert (A180 : nsub XRN (nlit XRN 180 1) (Fin a) = Fin (180 - a)) by (rewrite lit_fin; cbn [nsub XRN xsub]; f_equal; lra).
      rewrite A180 in Hy. rewrite minterp_fin in Hy by assumption. cbn [bind] in Hy. injection Hy as <-.
      unfold angles_value. cbn. f_equal. lra.
Qed.

(** ** get_reflectance *)
Lemma relax_fin b v : @relax XRN (Fin b) (Fin v) = Fin (cloud_factor b * v).
Proof.
  unfold relax, cloud_factor. rewrite !lit_fin. cbn [nltb XRN xltb]. unfold Rltb.
  destruct (Rlt_dec b (20 / 1)), (Rlt_dec b 20); try (exfalso; lra); [f_equal; lra|].
  cbn [nsub ndiv nmul XRN xsub]. rewrite xdiv_fin by lra. cbn [xsub xmul]. f_equal. lra.
Qed.
Lemma clip100_fin v : @nclip XRN (Fin v) n0 (nlit XRN 100 1) = Fin (percent v).
Proof. rewrite n0_fin, lit_fin, nclip_fin. unfold Rclip, percent. do 2 f_equal. lra. Qed.

Section Reflectance.
  Variables (oob : XR -> Z) (dask : bool) (load : string -> string -> res (rsr_state XRN)) (platform sensor : string) (band : bandarg XRN).

  Lemma reflectance_inside lut ws ss az ts V smax tmax w s sun sat azi red :
    holds lut ws ss az ts V smax tmax -> effective_wavelength load platform sensor band = Ok (Fin w) -> inside ws w ->
    ray_image s sun sat azi red ->
    exists r B, get_reflectance oob dask load platform sensor (Some lut) sun sat azi band red = Ok r /\ fits s r /\
      @wavelength_adjusted_lut XRN (Some lut) (Fin w) = Ok (map Fin B) /\
      forall k z t a, (k < size s)%nat -> pix k (r_arr sun) = Some z -> pix k (r_arr sat) = Some t -> pix k (r_arr azi) = Some (Fin a) ->
        let v := angles_value oob ss az ts smax tmax B z t a in
        match red with
        | None => pix k r = Some (Fin (percent v))
        | Some rd => forall b, pix k (r_arr rd) = Some (Fin b) -> pix k r = Some (Fin (percent (cloud_factor b * v)))
        end.
  Proof.
    intros H Hw Hin (I1 & I2 & I3 & Hred & Hf).
    destruct (adjusted _ _ _ _ _ _ _ _ w H Hin) as (i & w1 & w2 & f & r1 & r2 & B & EB & _ & _ & _ & _ & _ & _ & _ & LB & _).
    destruct I1 as [S1 D1], I2 as [S2 D2], I3 as [S3 D3].
    destruct (interp_angles oob lut ws ss az ts V smax tmax B (a_data (r_arr sun)) (a_data (r_arr sat)) (a_data (r_arr azi)) H LB) as (v & Ev & Lv & Pv); [lia|lia|].
    unfold get_reflectance. cbv zeta. rewrite Hw. cbn [bind]. rewrite EB, Hf, Ev. cbn [bind].
    set (rr := {| a_dtype := Float64; a_shape := a_shape (r_arr sun); a_data := v |}).
    assert (Frr : fits s rr) by (left; cbn [rr a_shape a_data]; split; [exact S1|change (num XRN) with XR in *; congruence]).
    assert (Prr : forall k z t a, (k < size s)%nat -> pix k (r_arr sun) = Some z -> pix k (r_arr sat) = Some t -> pix k (r_arr azi) = Some (Fin a) ->
       pix k rr = Some (Fin (angles_value oob ss az ts smax tmax B z t a))).
    { intros k z t a Hk Hz Ht Ha. apply pix_nth in Hz; [|rewrite D1; exact Hk]. apply pix_nth in Ht; [|rewrite D2; exact Hk]. apply pix_nth in Ha; [|rewrite D3; exact Hk].
      apply pix_nth; [cbn [rr a_data]; change (num XRN) with XR in *; lia|]. cbn [rr a_data]. now apply Pv. }
    destruct red as [rd|].
    - destruct (bmap2_fits relax s (r_arr rd) rr (Hred rd eq_refl) Frr) as (c & Ec & _ & Fc & Pc). rewrite Ec. cbn [bind].
      exists (arr_map (fun x => nclip x n0 (nlit XRN 100 1)) c), B. split; [destruct dask, (r_kind sun); reflexivity|].
      split; [now apply fits_map|]. split; [reflexivity|]. intros k z t a Hk Hz Ht Ha b Hb.
      rewrite pix_map. destruct (Pc k Hk) as (x & y & Hx & Hy & ->). rewrite (Prr k z t a Hk Hz Ht Ha) in Hy. injection Hy as <-.
      rewrite Hb in Hx. injection Hx as <-. cbn [option_map]. rewrite relax_fin, clip100_fin. reflexivity.
    - cbn [bind]. exists (arr_map (fun x => nclip x n0 (nlit XRN 100 1)) rr), B. split; [destruct dask, (r_kind sun); reflexivity|].
      split; [now apply fits_map|]. split; [reflexivity|]. intros k z t a Hk Hz Ht Ha.
      rewrite pix_map, (Prr k z t a Hk Hz Ht Ha). cbn [option_map]. now rewrite clip100_fin.
  Qed.

  (** C35 *)
  Lemma reflectance_outside lut ws w s sun sat azi red :
    rl_wavelengths lut = map Fin ws -> effective_wavelength load platform sensor band = Ok w -> (forall x, w = Fin x -> ~ inside ws x) ->
    sane dask sun red -> fits s (r_arr (match red with None => sun | Some r => r end)) ->
    (dask = true /\ r_kind sun = Numpy /\ red = None /\
       get_reflectance oob dask load platform sensor (Some lut) sun sat azi band red = Err AttributeError) \/
    (~ (dask = true /\ r_kind sun = Numpy /\ red = None) /\
     exists r, get_reflectance oob dask load platform sensor (Some lut) sun sat azi band red = Ok r /\ fits s r /\
       forall k, (k < size s)%nat ->
         match red with
         | None => pix k r = Some (Fin 0)
         | Some rd => forall x, pix k (r_arr rd) = Some x -> pix k r = Some (match x with PInf | NaN => NaN | _ => Fin 0 end)
         end).
  Proof.
    intros Hl Hw Hn Hs Hf. pose proof (outside_err lut ws w Hl Hn) as E. unfold get_reflectance. cbv zeta. rewrite Hw. cbn [bind]. rewrite E.
    set (zeros := arr_map (fun _ => n0) (r_arr match red with None => sun | Some r => r end)).
    assert (Fz : fits s zeros) by now apply fits_map.
    assert (Pz : forall k, (k < size s)%nat -> pix k zeros = Some (Fin 0)).
    { intros k Hk. unfold zeros. rewrite pix_map. destruct (pix_some s _ k Hf Hk) as [x ->]. cbn [option_map]. now rewrite n0_fin. }
    assert (C0 : nclip (Fin 0) (@n0 XRN) (nlit XRN 100 1) = Fin 0).
    { rewrite clip100_fin. unfold percent. rewrite Rmax_left, Rmin_left by lra. reflexivity. }
    destruct red as [rd|].
    - right. split; [intros (_ & _ & A); discriminate|].
      destruct (bmap2_fits relax s (r_arr rd) zeros Hf Fz) as (c & Ec & _ & Fc & Pc).
      exists (arr_map (fun x => nclip x n0 (nlit XRN 100 1)) c).
      split.
      { destruct dask, (r_kind rd) eqn:Kr; cbn [bind andb]; try (rewrite Ec; cbn [bind]; destruct (r_kind sun); reflexivity).
        exfalso. destruct Hs as [Hs|[_ Hs]]; [discriminate|]. rewrite (Hs rd eq_refl) in Kr. discriminate. }
      split; [now apply fits_map|]. intros k Hk x Hx. rewrite pix_map. destruct (Pc k Hk) as (x' & y & Hx' & Hy & ->).
      rewrite Hx in Hx'. injection Hx' as <-. rewrite (Pz k Hk) in Hy. injection Hy as <-. cbn [option_map].
      destruct x as [b| | |].
      + now rewrite relax_fin, Rmult_0_r, C0.
      + f_equal. unfold relax. rewrite !lit_fin. cbn [nltb XRN xltb nsub xsub xneg xadd ndiv xdiv nmul].
        repeat (cbn; unfold xinf_sign; try destruct (Req_EM_T _ _); repeat destruct (Rlt_dec _ _); try (exfalso; lra)); reflexivity.
      + f_equal. etransitivity; [|exact C0]. f_equal.
      + reflexivity.
    - destruct Hs as [-> | [Hs _]].
      + destruct (r_kind sun) eqn:K.
        * left. cbn. auto.
        * right. split; [intros (_ & A & _); discriminate|]. cbn [bind andb].
          exists (arr_map (fun x => nclip x n0 (nlit XRN 100 1)) zeros). split; [reflexivity|]. split; [now apply fits_map|].
          intros k Hk. rewrite pix_map, (Pz k Hk). cbn [option_map]. now rewrite C0.
      + destruct dask; [left; rewrite Hs; cbn; auto|]. right. split; [intros (A & _); discriminate|]. rewrite Hs. cbn [bind andb].
        exists (arr_map (fun x => nclip x n0 (nlit XRN 100 1)) zeros). split; [reflexivity|]. split; [now apply fits_map|].
        intros k Hk. rewrite pix_map, (Pz k Hk). cbn [option_map]. now rewrite C0.
  Qed.
End Reflectance.
