(** What a call of get_reflectance returns, for each pixel. *)
From Coq Require Import Reals Lra ZArith String List Bool Lia Arith Psatz.
From Verif Require Import Base NumSig XR M_Tables M_Utils M_Rsr M_RadTb M_Nir M_Rayleigh S_Nir S_Rayleigh P_Arr P_Rayleigh P_Rayleigh2 P_Rayleigh3 P_Rayleigh4.
Import ListNotations.
Local Open Scope R_scope.

Lemma map_fin_inj (a : list R) : forall b, map Fin a = map Fin b -> a = b.
Proof. induction a as [|x l IH]; intros [|y m] E; try discriminate; [reflexivity|]. injection E as -> E. f_equal. auto. Qed.

Section Call.
  Variables (oob : XR -> Z) (dask : bool) (load : string -> string -> res (rsr_state XRN)) (platform sensor : string) (band : bandarg XRN).
  Variables (lut : raylut XRN) (ws ss az ts : list R) (V : list (list R)) (smax tmax w : R).
  Hypothesis H : holds lut ws ss az ts V smax tmax.
  Hypothesis Hw : effective_wavelength load platform sensor band = Ok (Fin w).
  Hypothesis Hin : inside ws w.

  (** one uncorrected value per pixel serves every red band *)
  Lemma call_value (sun sat azi : rarr XRN) s : exists v : nat -> R,
    (forall red, ray_image s sun sat azi red ->
       exists r, get_reflectance oob dask load platform sensor (Some lut) sun sat azi band red = Ok r /\ fits s r /\
       forall k a, (k < size s)%nat -> pix k (r_arr azi) = Some (Fin a) ->
         match red with
         | None => pix k r = Some (Fin (percent (v k)))
         | Some rd => forall b, pix k (r_arr rd) = Some (Fin b) -> pix k r = Some (Fin (percent (cloud_factor b * v k)))
         end) /\
    (forall k a lo hi, (k < size s)%nat -> is_image s (r_arr sun) -> is_image s (r_arr sat) -> pix k (r_arr azi) = Some (Fin a) -> 0 <= a <= 180 ->
       (forall row x, In row V -> In x row -> lo <= x <= hi) -> 100 * lo <= v k <= 100 * hi).
  Proof using H Hw Hin.
    destruct (adjusted _ _ _ _ _ _ _ _ w H Hin) as (i & w1 & w2 & f & r1 & r2 & B & EB & _ & _ & _ & _ & _ & _ & _ & LB & _).
    exists (fun k => match pix k (r_arr sun), pix k (r_arr sat), pix k (r_arr azi) with
                     | Some z, Some t, Some (Fin a) => angles_value oob ss az ts smax tmax B z t a
                     | _, _, _ => 0 end).
    split.
    - intros red Him. pose proof Him as (I1 & I2 & I3 & _).
      destruct (reflectance_inside oob dask load platform sensor band lut ws ss az ts V smax tmax w s sun sat azi red H Hw Hin Him) as (r & B' & E & Fr & EB' & P).
      assert (B' = B) as -> by (rewrite EB in EB'; apply map_fin_inj; congruence).
      exists r. split; [exact E|]. split; [exact Fr|]. intros k a Hk Ha.
      destruct (pix_some s (r_arr sun) k (or_introl I1) Hk) as [z Hz]. destruct (pix_some s (r_arr sat) k (or_introl I2) Hk) as [t Ht].
      specialize (P k z t a Hk Hz Ht Ha). cbv zeta in P. rewrite Hz, Ht, Ha. exact P.
    - intros k a lo hi Hk I1 I2 Ha Hr Hv.
      destruct (pix_some s (r_arr sun) k (or_introl I1) Hk) as [z Hz]. destruct (pix_some s (r_arr sat) k (or_introl I2) Hk) as [t Ht].
      rewrite Hz, Ht, Ha. apply (angles_bounds oob lut ws ss az ts V smax tmax B H LB); [exact Hr|].
      exact (proj2 (blended_range _ _ _ _ _ _ _ _ _ _ _ _ H Hin EB Hv)).
  Qed.

  Lemma call_bounds sun sat azi s r lo hi : ray_image s sun sat azi None ->
    get_reflectance oob dask load platform sensor (Some lut) sun sat azi band None = Ok r ->
    (forall row x, In row V -> In x row -> lo <= x <= hi) ->
    forall k a, (k < size s)%nat -> pix k (r_arr azi) = Some (Fin a) -> 0 <= a <= 180 ->
    exists x, pix k r = Some (Fin (percent x)) /\ 100 * lo <= x <= 100 * hi.
  Proof using H Hw Hin.
    intros Him E Hv k a Hk Ha Hr. destruct (call_value sun sat azi s) as (v & P & Bd). destruct (P None Him) as (r' & E' & _ & Q).
    rewrite E in E'. injection E' as <-. exists (v k). split; [exact (Q k a Hk Ha)|]. destruct Him as (I1 & I2 & _). eauto.
  Qed.

  (** at a node of the table *)
  Lemma call_node sun sat azi s r n row k z t a i j l x y u v : ray_image s sun sat azi None ->
    get_reflectance oob dask load platform sensor (Some lut) sun sat azi band None = Ok r ->
    equidistant ss -> equidistant az -> equidistant ts ->
    nth_error ws n = Some w -> nth_error V n = Some row ->
    nth_error ss i = Some x -> nth_error az j = Some y -> nth_error ts l = Some u -> at_node az ts row i j l = Some v ->
    (k < size s)%nat -> pix k (r_arr sun) = Some (Fin z) -> pix k (r_arr sat) = Some (Fin t) -> pix k (r_arr azi) = Some (Fin a) ->
    0 <= z < 90 -> sec_deg z = x -> a = 180 - y -> 0 <= t < 90 -> sec_deg t = u ->
    pix k r = Some (Fin (percent (100 * v))).
  Proof using H Hw Hin.
    intros Him E Es Ea Et Hn Hrow Hx Hy Hu Hv Hk Hz Ht Ha Z Sz Az T St.
    destruct (reflectance_inside oob dask load platform sensor band lut ws ss az ts V smax tmax w s sun sat azi None H Hw Hin Him) as (r' & B' & E' & _ & EB' & P).
    rewrite E in E'. injection E' as <-. specialize (P k (Fin z) (Fin t) a Hk Hz Ht Ha). cbv zeta in P. rewrite P. do 3 f_equal.
    destruct (blended _ _ _ _ _ _ _ _ w H Hin) as (m & w1 & w2 & f & r1 & r2 & B & EB & N1 & N2 & Ww & Hf & Hs & V1 & V2 & LB1 & LB2 & _ & Hnode).
    assert (B' = B) as -> by (rewrite EB in EB'; apply map_fin_inj; congruence).
    assert (n = S m) as ->.
    { pose proof (h_winc _ _ _ _ _ _ _ _ H) as Inc. destruct (Nat.lt_trichotomy n (S m)) as [L|[L|L]]; [exfalso| exact L |exfalso].
      - destruct (Nat.eq_dec n m) as [->|]; [rewrite N1 in Hn; injection Hn as ->; lra|]. pose proof (Inc n m _ _ ltac:(lia) Hn N1). lra.
      - pose proof (Inc (S m) n _ _ L N2 Hn). lra. }
    rewrite N2 in Hn. injection Hn as ->. rewrite V2 in Hrow. injection Hrow as ->. rewrite (Hnode eq_refl) in *.
    pose proof (h_vlen _ _ _ _ _ _ _ _ H) as HL. rewrite Forall_forall in HL.
    eapply (angles_node oob lut ws ss az ts V smax tmax); eauto. apply HL. eauto using nth_error_In.
  Qed.
End Call.

(** a table sampled from a function affine in each of its arguments is
    reproduced between the nodes as well, and beyond *)
Lemma static_affine oob lut ws ss az ts V smax tmax row g sun sat azi :
  holds lut ws ss az ts V smax tmax -> List.length row = (List.length ss * (List.length az * List.length ts))%nat ->
  equidistant ss -> equidistant az -> equidistant ts -> multi_affine g -> sampled g ss az ts row ->
  List.length sat = List.length sun -> List.length azi = List.length sun ->
  exists r, @interp_by_angles XRN oob lut (map Fin row) sun sat azi = Ok r /\ List.length r = List.length sun /\
    forall k z t a, nth_error sun k = Some (Fin z) -> nth_error sat k = Some (Fin t) -> nth_error azi k = Some (Fin a) ->
      0 <= z <= max_angle smax -> 0 <= t <= max_angle tmax ->
      nth_error r k = Some (Fin (100 * g (sec_deg z) (180 - a) (sec_deg t))).
Proof.
  intros H HB Es Ea Et Hg Hs L1 L2. destruct (interp_angles oob lut ws ss az ts V smax tmax row sun sat azi H HB L1 L2) as (r & E & L & P).
  exists r. split; [exact E|]. split; [exact L|]. intros k z t a Hz Ht Ha Z T. rewrite (P k _ _ _ Hz Ht Ha).
  rewrite (angles_affine oob lut ws ss az ts V smax tmax row H HB _ _ _ g Es Ea Et Hg Hs). cbn [used_angle]. now rewrite !Rclip_inside by assumption.
Qed.
Lemma static_bounds oob lut ws ss az ts V smax tmax row lo hi sun sat azi r :
  holds lut ws ss az ts V smax tmax -> List.length row = (List.length ss * (List.length az * List.length ts))%nat ->
  (forall v, In v row -> lo <= v <= hi) ->
  List.length sat = List.length sun -> List.length azi = List.length sun -> @interp_by_angles XRN oob lut (map Fin row) sun sat azi = Ok r ->
  forall k a, (k < List.length sun)%nat -> nth_error azi k = Some (Fin a) -> 0 <= a <= 180 ->
    exists v, nth_error r k = Some (Fin v) /\ 100 * lo <= v <= 100 * hi.
Proof.
  intros H HB Hv L1 L2 Er k a Hk Ha Hr. destruct (interp_angles oob lut ws ss az ts V smax tmax row sun sat azi H HB L1 L2) as (r' & E & L & P).
  rewrite Er in E. injection E as <-.
  destruct (nth_error sun k) as [z|] eqn:Z; [|apply nth_error_None in Z; lia]. destruct (nth_error sat k) as [t|] eqn:T; [|apply nth_error_None in T; change (num XRN) with XR in *; lia].
  rewrite (P k _ _ _ Z T Ha). eexists. split; [reflexivity|]. now apply (angles_bounds oob lut ws ss az ts V smax tmax row H HB).
Qed.

Lemma inside_dec ws w : inside ws w \/ ~ inside ws w. Proof. apply Classical_Prop.classic. Qed.

Lemma reflectance_finite oob dask load platform sensor band lut ws ss az ts V smax tmax w s sun sat azi red r :
  holds lut ws ss az ts V smax tmax -> effective_wavelength load platform sensor band = Ok w ->
  ray_image s sun sat azi red -> sane dask sun red ->
  get_reflectance oob dask load platform sensor (Some lut) sun sat azi band red = Ok r ->
  forall k a, (k < size s)%nat -> pix k (r_arr azi) = Some (Fin a) -> (forall rd, red = Some rd -> exists b, pix k (r_arr rd) = Some (Fin b)) ->
  exists v, pix k r = Some (Fin v) /\ 0 <= v <= 100.
Proof.
  intros H Hw Him Hs E k a Hk Ha Hr.
  assert (D : (exists x, w = Fin x /\ inside ws x) \/ (forall x, w = Fin x -> ~ inside ws x)).
  { destruct w as [x| | |]; try (right; discriminate). destruct (inside_dec ws x); [eauto|right]. intros y [= ->]. auto. }
  destruct D as [(x & -> & Hin)|Hn].
  - destruct (call_value oob dask load platform sensor band lut ws ss az ts V smax tmax x H Hw Hin sun sat azi s) as (v & P & _).
    destruct (P red Him) as (r' & E' & _ & Q). rewrite E in E'. injection E' as <-. specialize (Q k a Hk Ha). destruct red as [rd|].
    + destruct (Hr rd eq_refl) as [b Hb]. rewrite (Q b Hb). eexists. split; [reflexivity|apply percent_range].
    + rewrite Q. eexists. split; [reflexivity|apply percent_range].
  - destruct Him as (I1 & _ & _ & I4 & _).
    assert (F : fits s (r_arr match red with None => sun | Some r => r end)) by (destruct red; [auto|now left]).
    destruct (reflectance_outside oob dask load platform sensor band lut ws w s sun sat azi red (h_w _ _ _ _ _ _ _ _ H) Hw Hn Hs F) as [(_ & _ & _ & E')|(_ & r' & E' & _ & Q)];
      rewrite E in E'; [discriminate|]. injection E' as <-. specialize (Q k Hk). exists 0. split; [|lra]. destruct red as [rd|]; [|exact Q].
    destruct (Hr rd eq_refl) as [b Hb]. now rewrite (Q _ Hb).
Qed.
