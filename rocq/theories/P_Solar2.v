(** C28-C32 in the form T_Solar states them. *)
From Coq Require Import Reals Lra Lia ZArith String List Bool Arith Sorting.Sorted.
From Verif Require Import Base NumSig XR P_Trapz M_Tables M_Utils M_Solar S_Solar S_Convert P_Convert2 P_Solar.
Import ListNotations.
Local Open Scope string_scope.
Local Open Scope R_scope.

(** ** C28 *)
Definition nu_irr (wl irr : list R) : list R :=
  map (fun e => e * (1 / 10)) (Rvmul (Rvmul irr wl) wl).

Lemma rev_fin l : rev (map Fin l) = map Fin (rev l).
Proof. now rewrite map_rev. Qed.

Lemma solar_convert_eq s wl irr : so_wavelength s = Some (map Fin wl) -> so_irradiance s = map Fin irr ->
  List.length irr = List.length wl -> Forall (fun w => w <> 0) wl ->
  @solar_convert2wavenumber XRN s = Ok {| so_wavelength := None;
     so_wavenumber := Some (map Fin (wavenumbers wl)); so_irradiance := map Fin (rev (nu_irr wl irr));
     so_wavespace := so_wavespace s; so_dlambda := so_dlambda s; so_ipol := so_ipol s |}.
Proof.
  intros Hw Hi Hl Hn. unfold solar_convert2wavenumber. change (num XRN) with XR in *. rewrite Hw, Hi. cbn [of_option bind].
  rewrite !rev_fin. rewrite vmul_fin by (rewrite !rev_length; exact Hl). cbn [bind].
  rewrite Rvmul_rev by exact Hl. rewrite vmul_fin by (rewrite !rev_length, Rvmul_length by exact Hl; exact Hl). cbn [bind].
  rewrite Rvmul_rev by (rewrite Rvmul_length by exact Hl; exact Hl).
  f_equal. f_equal.
  - f_equal. unfold wavenumbers. rewrite !map_rev, !map_map. f_equal. apply map_ext_in. intros w Hin.
    apply wl2wn_fin. rewrite Forall_forall in Hn. auto.
  - unfold nu_irr. rewrite !map_rev, !map_map. f_equal.
Qed.

Lemma nth_error_rev {A} (l : list A) k x : nth_error l k = Some x -> nth_error (rev l) (List.length l - 1 - k) = Some x.
Proof.
  revert k; induction l as [|a l IH]; intros k H; [destruct k; discriminate|].
  destruct k as [|k]; cbn [nth_error] in H.
  - injection H as ->. cbn [rev List.length]. rewrite nth_error_app2; rewrite rev_length; [|lia].
    replace (_ - _)%nat with 0%nat by lia. reflexivity.
  - pose proof (IH k H) as E. assert (k < List.length l)%nat by (apply nth_error_Some; congruence).
    cbn [rev List.length]. rewrite nth_error_app1; [|rewrite rev_length; lia].
    replace (S (List.length l) - 1 - S k)%nat with (List.length l - 1 - k)%nat by lia. exact E.
Qed.

Lemma Rvmul_nth a : forall b k x y, nth_error a k = Some x -> nth_error b k = Some y -> nth_error (Rvmul a b) k = Some (x * y).
Proof.
  unfold Rvmul. induction a as [|a0 a IH]; intros [|b0 b] [|k] x y Ha Hb; try discriminate.
  - injection Ha as ->. injection Hb as ->. reflexivity.
  - cbn. eapply IH; eauto.
Qed.

Lemma nu_irr_length wl irr : List.length irr = List.length wl -> List.length (nu_irr wl irr) = List.length wl.
Proof. intros H. unfold nu_irr. rewrite map_length, !Rvmul_length; auto. now rewrite Rvmul_length. Qed.

Lemma solar_energy : forall wl irr dl, List.length irr = List.length wl -> Forall (fun w => w <> 0) wl ->
  exists s irr', SolarIrradianceSpectrum (N := XRN) (map Fin wl) (map Fin irr) dl (Some "wavenumber") = Ok s /\
    so_wavelength s = None /\ so_wavenumber s = Some (map Fin (wavenumbers wl)) /\
    so_irradiance s = map Fin irr' /\ List.length irr' = List.length wl /\
    (forall k w e, nth_error wl k = Some w -> nth_error irr k = Some e ->
       exists nu e', nth_error (wavenumbers wl) (List.length wl - 1 - k) = Some nu /\
                     nth_error irr' (List.length wl - 1 - k) = Some e' /\
                     nu = 10000 / w /\ e' * nu = 1000 * (e * w)) /\
    (Sorted Rlt wl -> Forall (fun w => 0 < w) wl -> Sorted Rlt (wavenumbers wl)).
Proof.
  intros wl irr dl Hl Hn. unfold SolarIrradianceSpectrum. cbn [String.eqb Ascii.eqb Bool.eqb].
  rewrite (solar_convert_eq _ wl irr) by (try reflexivity; auto).
  eexists _, (rev (nu_irr wl irr)). split; [reflexivity|]. cbn.
  split; [reflexivity|]. split; [reflexivity|]. split; [reflexivity|].
  pose proof (nu_irr_length _ _ Hl) as Hl2.
  split; [now rewrite rev_length|]. split.
  - intros k w e Hw He. exists (10000 / w), (e * w * w * (1/10)). 
    assert (Hw0 : w <> 0). { rewrite Forall_forall in Hn. apply Hn. eapply nth_error_In; eauto. }
    split; [|split; [|split; [reflexivity|]]].
    + unfold wavenumbers. rewrite <- (map_length (fun w => 10000 / w) wl). apply nth_error_rev.
      now rewrite nth_error_map, Hw.
    + rewrite <- Hl2. apply nth_error_rev. unfold nu_irr. rewrite nth_error_map.
      rewrite (Rvmul_nth _ wl k (e * w) w); auto. now apply Rvmul_nth.
    + field. auto.
  - intros Hs Hp. now apply wavenumbers_sorted.
Qed.

Lemma convert_twice : forall s s' : spectrum XRN, solar_convert2wavenumber s = Ok s' ->
  solar_convert2wavenumber s' = Err TypeError.
Proof.
  intros s s' H. unfold solar_convert2wavenumber in H. destruct (so_wavelength s); [|discriminate]. cbn [of_option bind] in H.
  destruct (vmul _ _); [|discriminate]. cbn [bind] in H. destruct (vmul _ _); [|discriminate]. cbn [bind] in H.
  injection H as <-. reflexivity.
Qed.

(** ** C29 *)
Lemma nu_trapz_bounds q : forall wl irr, List.length irr = List.length wl -> Sorted Rlt wl ->
  Forall (fun w => 0 < w) wl -> Forall (fun e => 0 <= e) irr -> ratio_at_most q wl -> 0 < q ->
  1000 / q * Rtrapz irr wl <= - Rtrapz (nu_irr wl irr) (map (fun w => 10000 / w) wl) <= 1000 * q * Rtrapz irr wl.
Proof.
  intros wl irr. revert irr. induction wl as [|w0 wl IH]; intros [|e0 irr] Hl Hs Hp Hn Hr Hq; try discriminate.
  - cbn. lra.
  - destruct wl as [|w1 wl]; destruct irr as [|e1 irr]; try discriminate.
    + cbn. lra.
    + specialize (IH (e1 :: irr)).
      assert (A : nu_irr (w0 :: w1 :: wl) (e0 :: e1 :: irr) = e0 * w0 * w0 * (1/10) :: nu_irr (w1 :: wl) (e1 :: irr)) by reflexivity.
      assert (B : nu_irr (w1 :: wl) (e1 :: irr) = e1 * w1 * w1 * (1/10) :: nu_irr wl irr) by reflexivity.
      rewrite A, B. cbn [map]. rewrite !Rtrapz_cons2. rewrite <- B.
      change (10000 / w1 :: map (fun w => 10000 / w) wl) with (map (fun w => 10000 / w) (w1 :: wl)).
      injection Hl as Hl. pose proof (Sorted_head2 _ _ _ _ Hs) as H01. pose proof (Sorted_head2 _ _ _ _ Hr) as Hr01. cbn beta in Hr01.
      inversion Hp as [|? ? Hw0 Hp']; subst. inversion Hp' as [|? ? Hw1 _]; subst.
      inversion Hn as [|? ? He0 Hn']; subst. inversion Hn' as [|? ? He1 _]; subst.
      destruct IH as [IH1 IH2]; auto.
      { cbn. now f_equal. } { now apply Sorted_tail in Hs. } { now apply Sorted_tail in Hr. }
      set (T := Rtrapz (nu_irr (w1 :: wl) (e1 :: irr)) (map (fun w => 10000 / w) (w1 :: wl))) in *.
      set (U := Rtrapz (e1 :: irr) (w1 :: wl)) in *.
      assert (E : - ((10000 / w1 - 10000 / w0) * (e1 * w1 * w1 * (1 / 10) + e0 * w0 * w0 * (1 / 10)) / 2)
                  = 1000 * ((w1 - w0) * (e1 * (w1 / w0) + e0 * (w0 / w1)) / 2)) by (field; lra).
      assert (R1 : w1 / w0 <= q). { apply (Rmult_le_reg_r w0); [lra|]. unfold Rdiv. rewrite Rmult_assoc, Rinv_l by lra. lra. }
      assert (R1' : 1 <= w1 / w0). { apply (Rmult_le_reg_r w0); [lra|]. unfold Rdiv. rewrite Rmult_assoc, Rinv_l by lra. lra. }
      assert (R2 : / q <= w0 / w1).
      { replace (w0 / w1) with (/ (w1 / w0)) by (field; lra). apply Rinv_le_contravar; lra. }
      assert (R2' : w0 / w1 <= 1). { apply (Rmult_le_reg_r w1); [lra|]. unfold Rdiv. rewrite Rmult_assoc, Rinv_l by lra. lra. }
      assert (R3 : / q <= 1). { rewrite <- Rinv_1. apply Rinv_le_contravar; lra. }
      assert (B1 : e1 * (w1 / w0) + e0 * (w0 / w1) <= q * (e1 + e0)).
      { assert (e1 * (w1 / w0) <= e1 * q) by (apply Rmult_le_compat_l; lra).
        assert (e0 * (w0 / w1) <= e0 * q) by (apply Rmult_le_compat_l; lra). lra. }
      assert (B2 : / q * (e1 + e0) <= e1 * (w1 / w0) + e0 * (w0 / w1)).
      { assert (e1 * / q <= e1 * (w1 / w0)) by (apply Rmult_le_compat_l; lra).
        assert (e0 * / q <= e0 * (w0 / w1)) by (apply Rmult_le_compat_l; lra). lra. }
      assert (C1 : (w1 - w0) * (/ q * (e1 + e0)) <= (w1 - w0) * (e1 * (w1 / w0) + e0 * (w0 / w1)))
        by (apply Rmult_le_compat_l; lra).
      assert (C2 : (w1 - w0) * (e1 * (w1 / w0) + e0 * (w0 / w1)) <= (w1 - w0) * (q * (e1 + e0)))
        by (apply Rmult_le_compat_l; lra).
      unfold Rdiv at 1 in IH1. unfold Rdiv at 1. split.
      * replace (1000 * / q * ((w1 - w0) * (e1 + e0) / 2 + U)) with
          (1000 * ((w1 - w0) * (/ q * (e1 + e0)) / 2) + 1000 * / q * U) by (field; lra).
        rewrite Ropp_plus_distr, E. lra.
      * replace (1000 * q * ((w1 - w0) * (e1 + e0) / 2 + U)) with
          (1000 * ((w1 - w0) * (q * (e1 + e0)) / 2) + 1000 * q * U) by (field; lra).
        rewrite Ropp_plus_distr, E. lra.
Qed.

Lemma solar_constants : forall wl irr q dl dl', List.length irr = List.length wl -> Sorted Rlt wl ->
  Forall (fun w => 0 < w) wl -> Forall (fun e => 0 <= e) irr -> 0 < q -> ratio_at_most q wl ->
  exists s1 s2 C1 C2,
    SolarIrradianceSpectrum (N := XRN) (map Fin wl) (map Fin irr) dl None = Ok s1 /\
    SolarIrradianceSpectrum (N := XRN) (map Fin wl) (map Fin irr) dl' (Some "wavenumber") = Ok s2 /\
    solar_constant s1 = Ok (Fin C1) /\ solar_constant s2 = Ok (Fin C2) /\
    1000 / q * C1 <= C2 <= 1000 * q * C1.
Proof.
  intros wl irr q dl dl' Hl Hs Hp Hn Hq Hr. unfold SolarIrradianceSpectrum. cbn [String.eqb Ascii.eqb Bool.eqb].
  assert (Hn0 : Forall (fun w => w <> 0) wl) by (eapply Forall_impl; [|exact Hp]; cbn; intros; lra).
  rewrite (solar_convert_eq _ wl irr) by (try reflexivity; auto).
  eexists _, _, (Rtrapz irr wl), (- Rtrapz (nu_irr wl irr) (map (fun w => 10000 / w) wl)).
  split; [reflexivity|]. split; [reflexivity|]. split; [|split].
  - unfold solar_constant. cbn [so_wavenumber so_wavelength so_irradiance]. now apply trapezoid_fin.
  - unfold solar_constant. cbn [so_wavenumber so_irradiance].
    unfold wavenumbers. change (num XRN) with XR in *.
    rewrite trapezoid_fin; rewrite ?rev_length, ?map_length, ?nu_irr_length; auto.
    rewrite Rtrapz_rev; [reflexivity|]. now rewrite nu_irr_length, map_length.
  - now apply nu_trapz_bounds.
Qed.

Lemma solar_constant_none : forall s : spectrum XRN, so_wavenumber s = None -> so_wavelength s = None ->
  solar_constant s = Err TypeError.
Proof. intros s H1 H2. unfold solar_constant. now rewrite H1, H2. Qed.

Section Bands.
  Variable spline : list XR -> list XR -> res (XR -> XR).

  Lemma band_flux_irr s d k det ws rs dl g h : band_ok spline s d k ws rs dl g h ->
    let a := hd 0 ws * k in let b := last ws 0 * k in
    exists n, nearest ((b - a) / dl) n /\
      let grid := even_grid a b n in
      let F := Rtrapz (Rvmul (map h grid) (map g grid)) grid in
      let W := Rtrapz (map g grid) grid in
      snd (inband_solarflux (N := XRN) spline s (FlatRsr d) (Fin k) det) = Ok (Fin F) /\
      snd (inband_solarirradiance (N := XRN) spline s (FlatRsr d) (Fin k) det) = Ok (xdiv (Fin F) (Fin W)) /\
      so_ipol (fst (inband_solarflux (N := XRN) spline s (FlatRsr d) (Fin k) det)) = Some (map Fin grid, map Fin (map h grid)).
  Proof.
    intros (key & xs & H1 & H2 & H3 & H4 & H5 & H6 & H7 & H8 & H9). cbv zeta. exists (steps (hd 0 ws * k) (last ws 0 * k) dl).
    split; [apply steps_nearest; lra|].
    unfold inband_solarflux, inband_solarirradiance.
    rewrite !(band_eq spline s key xs d k det _ ws rs dl g h) by (auto; lra).
    cbn [fst snd so_ipol with_ipol]. repeat split.
  Qed.

  Lemma inband_mean : forall s d k det ws rs dl g h, band_ok spline s d k ws rs dl g h ->
    exists n F W, nearest ((last ws 0 * k - hd 0 ws * k) / dl) n /\
      let grid := even_grid (hd 0 ws * k) (last ws 0 * k) n in
      W = Rtrapz (map g grid) grid /\
      snd (inband_solarflux (N := XRN) spline s (FlatRsr d) (Fin k) det) = Ok (Fin F) /\
      (W <> 0 -> exists I, snd (inband_solarirradiance (N := XRN) spline s (FlatRsr d) (Fin k) det) = Ok (Fin I) /\
                 F = I * W /\
                 (0 < W -> forall m M, (forall t, In t grid -> 0 <= g t) -> (forall t, In t grid -> m <= h t <= M) -> m <= I <= M)).
  Proof.
    intros s d k det ws rs dl g h Hb. destruct (band_flux_irr s d k det ws rs dl g h Hb) as (n & Hn & HF & HI & _).
    set (grid := even_grid (hd 0 ws * k) (last ws 0 * k) n) in *.
    exists n, (Rtrapz (Rvmul (map h grid) (map g grid)) grid), (Rtrapz (map g grid) grid).
    split; [exact Hn|]. split; [reflexivity|]. split; [exact HF|].
    intros HW. exists (Rtrapz (Rvmul (map h grid) (map g grid)) grid / Rtrapz (map g grid) grid).
    rewrite xdiv_fin in HI by exact HW. split; [exact HI|]. split; [field; exact HW|].
    intros HWp m M Hg Hh.
    assert (Hs : Sorted Rle grid).
    { apply grid_sorted. destruct Hb as (? & ? & _ & _ & _ & _ & _ & _ & Hlt & _). lra. }
    destruct (Rtrapz_weighted_bounds m M (map h grid) (map g grid) grid) as [B1 B2]; auto.
    - now rewrite !map_length.
    - rewrite Forall_map. rewrite Forall_forall. exact Hg.
    - rewrite Forall_map. rewrite Forall_forall. exact Hh.
    - split; (apply (Rmult_le_reg_r (Rtrapz (map g grid) grid)); [exact HWp|]);
        unfold Rdiv; rewrite ?Rmult_assoc, Rinv_l, Rmult_1_r by lra; lra.
  Qed.

  Lemma Rvmul_map_scale c (h g : R -> R) l : Rvmul (map (fun t => c * h t) l) (map g l) = map (Rmult c) (Rvmul (map h l) (map g l)).
  Proof. rewrite <- Rvmul_scale_l. now rewrite map_map. Qed.

  Lemma inband_scaling : forall s d k det ws rs dl g h c irr, linear_spline spline ->
    band_ok spline s d k ws rs dl g h -> so_irradiance s = map Fin irr ->
    (forall F, snd (inband_solarflux (N := XRN) spline s (FlatRsr d) (Fin k) det) = Ok (Fin F) ->
               snd (inband_solarflux (N := XRN) spline (scaled s c irr) (FlatRsr d) (Fin k) det) = Ok (Fin (c * F))) /\
    (forall I, snd (inband_solarirradiance (N := XRN) spline s (FlatRsr d) (Fin k) det) = Ok (Fin I) ->
               snd (inband_solarirradiance (N := XRN) spline (scaled s c irr) (FlatRsr d) (Fin k) det) = Ok (Fin (c * I))).
  Proof.
    intros s d k det ws rs dl g h c irr Hlin (key & xs & H1 & H2 & H3 & H4 & H5 & H6 & H7 & H8 & H9) Hi.
    assert (Hax : has_axis (scaled s c irr) key xs) by exact H1.
    assert (H9' : spline_is spline xs (so_irradiance (scaled s c irr)) (fun t => c * h t)).
    { cbn. apply Hlin. rewrite <- Hi. exact H9. }
    unfold inband_solarflux, inband_solarirradiance.
    rewrite !(band_eq spline s key xs d k det _ ws rs dl g h) by (auto; lra).
    rewrite !(band_eq spline (scaled s c irr) key xs d k det _ ws rs dl g (fun t => c * h t)) by (auto; lra).
    cbn [snd]. set (grid := even_grid _ _ _). rewrite Rvmul_map_scale, Rtrapz_scale. split.
    - intros F [= <-]. reflexivity.
    - intros I HI. set (F := Rtrapz (Rvmul _ _) grid) in *. set (W := Rtrapz (map g grid) grid) in *.
      cbn [xdiv] in *. destruct (Req_EM_T W 0) as [E|E].
      + exfalso. injection HI as HI. unfold xinf_sign in HI. destruct (Rlt_dec 0 F), (Rlt_dec F 0); discriminate.
      + injection HI as <-. do 2 f_equal. field. exact E.
  Qed.

  Lemma detector_choice : forall s b d k det flux, dget det b = Some d -> dget "response" b = None -> dhas "response" d = true ->
    band_calculations (N := XRN) spline s (NestedRsr b) flux k det =
    band_calculations (N := XRN) spline s (FlatRsr d) flux k det.
  Proof.
    intros s b d k det flux Hd Hb Hr. unfold band_calculations, rsr_curve. unfold dhas in *. rewrite Hb, Hd. cbn [of_option].
    destruct (dget "response" d); [reflexivity|discriminate].
  Qed.

  (** ** C31 *)
  Lemma grids_agree : forall s d k det flux ws rs dl g h, band_ok spline s d k ws rs dl g h ->
    exists n v, nearest ((last ws 0 * k - hd 0 ws * k) / dl) n /\
      let grid := even_grid (hd 0 ws * k) (last ws 0 * k) n in
      let call := band_calculations (N := XRN) spline s (FlatRsr d) flux (Fin k) det in
      snd call = Ok v /\ so_ipol (fst call) = Some (map Fin grid, map Fin (map h grid)) /\
      List.length grid = S n /\ hd 0 grid = hd 0 ws * k /\ Sorted Rlt grid /\
      ((0 < n)%nat -> last grid 0 = last ws 0 * k /\
         Rabs ((last ws 0 * k - hd 0 ws * k) / INR n - dl) <= dl / (2 * INR n)).
  Proof.
    intros s d k det flux ws rs dl g h (key & xs & H1 & H2 & H3 & H4 & H5 & H6 & H7 & H8 & H9).
    set (n := steps (hd 0 ws * k) (last ws 0 * k) dl).
    assert (Hn : nearest ((last ws 0 * k - hd 0 ws * k) / dl) n) by (apply steps_nearest; lra).
    eexists n, _. split; [exact Hn|]. cbv zeta.
    rewrite (band_eq spline s key xs d k det flux ws rs dl g h) by (auto; lra). cbn [fst snd so_ipol with_ipol].
    split; [reflexivity|]. split; [reflexivity|]. split; [apply grid_length|]. split; [apply grid_hd|].
    split; [now apply grid_sorted_lt|]. intros Hp. split; [now apply grid_last|]. now apply step_factor.
  Qed.

  (** a band narrower than half the resolution: one point, no flux, NaN irradiance *)
  Lemma narrow_band : forall s d k det ws rs dl g h, band_ok spline s d k ws rs dl g h ->
    (last ws 0 * k - hd 0 ws * k) < dl / 2 ->
    snd (inband_solarflux (N := XRN) spline s (FlatRsr d) (Fin k) det) = Ok (Fin 0) /\
    snd (inband_solarirradiance (N := XRN) spline s (FlatRsr d) (Fin k) det) = Ok NaN.
  Proof.
    intros s d k det ws rs dl g h (key & xs & H1 & H2 & H3 & H4 & H5 & H6 & H7 & H8 & H9) Hnar.
    unfold inband_solarflux, inband_solarirradiance.
    rewrite !(band_eq spline s key xs d k det _ ws rs dl g h) by (auto; lra). cbn [snd].
    assert (E : steps (hd 0 ws * k) (last ws 0 * k) dl = 0%nat).
    { assert (Hq : (last ws 0 * k - hd 0 ws * k) / dl < 1 / 2).
      { apply (Rmult_lt_reg_r dl); [lra|]. unfold Rdiv at 1. rewrite Rmult_assoc, Rinv_l by lra. lra. }
      assert (Hq0 : 0 < (last ws 0 * k - hd 0 ws * k) / dl) by (apply Rdiv_lt_0_compat; lra).
      unfold steps. unfold Rround. rewrite (Int_part_unique _ 0) by (cbn; lra).
      destruct (Rlt_dec _ (1/2)); [reflexivity|]. exfalso. lra. }
    rewrite E. cbn [even_grid map Rvmul combine Rtrapz fst snd]. split; [reflexivity|].
    cbn [xdiv]. destruct (Req_EM_T 0 0); [|congruence]. unfold xinf_sign.
    destruct (Rlt_dec 0 0); [lra|]. reflexivity.
  Qed.
End Bands.

(** ** C32 *)
Section Histories.
  Variable spline : list XR -> list XR -> res (XR -> XR).

  (** two objects that agree except for the last interpolation *)
  Definition same_but_ipol (s s' : spectrum XRN) : Prop :=
    so_wavelength s = so_wavelength s' /\ so_wavenumber s = so_wavenumber s' /\ so_irradiance s = so_irradiance s' /\
    so_wavespace s = so_wavespace s' /\ so_dlambda s = so_dlambda s'.

  Lemma same_ipol_form s s' : same_but_ipol s s' -> exists o, s' =
    {| so_wavelength := so_wavelength s; so_wavenumber := so_wavenumber s; so_irradiance := so_irradiance s;
       so_wavespace := so_wavespace s; so_dlambda := so_dlambda s; so_ipol := o |}.
  Proof. destruct s, s'; unfold same_but_ipol; cbn. intros (-> & -> & -> & -> & ->). eauto. Qed.

  Lemma same_refl s : same_but_ipol s s.
  Proof. repeat split. Qed.

  Lemma interp_out s s' d i : same_but_ipol s s' ->
    snd (interpolate (N := XRN) spline s d i) = snd (interpolate (N := XRN) spline s' d i).
  Proof.
    intros H. destruct (same_ipol_form _ _ H) as [o ->]. unfold interpolate. cbv zeta.
    assert (G : forall A B C (m : res A) (f f' : A -> B) (e e' : exn -> B) (r : A -> C) (q : exn -> C),
      snd (match m with Ok a => (f a, r a) | Err x => (e x, q x) end) =
      snd (match m with Ok a => (f' a, r a) | Err x => (e' x, q x) end)) by (intros; destruct m; reflexivity).
    destruct d; match goal with |- snd (match ?m with _ => _ end) = snd (match ?m' with _ => _ end) =>
      change m' with m; destruct m as [[? ?]|]; reflexivity end.
  Qed.

  Lemma interp_same s d i : d = None \/ d = Some (so_dlambda s) -> same_but_ipol s (fst (interpolate (N := XRN) spline s d i)).
  Proof.
    intros Hd. unfold interpolate.
    destruct Hd as [->| ->]; destruct (bind _ _) as [[x y]|e]; repeat split.
  Qed.

  Lemma band_out s s' r f k d : same_but_ipol s s' ->
    snd (band_calculations (N := XRN) spline s r f k d) = snd (band_calculations (N := XRN) spline s' r f k d) /\
    same_but_ipol s (fst (band_calculations (N := XRN) spline s r f k d)).
  Proof.
    intros H. destruct (same_ipol_form _ _ H) as [o ->]. unfold band_calculations.
    change (rsr_curve {| so_wavelength := so_wavelength s; so_wavenumber := so_wavenumber s;
      so_irradiance := so_irradiance s; so_wavespace := so_wavespace s; so_dlambda := so_dlambda s; so_ipol := o |} r d k)
      with (rsr_curve s r d k). cbn [so_dlambda].
    destruct (bind (rsr_curve s r d k) _) as [[[start stop] resp]|e]; [|split; [reflexivity|apply same_refl]].
    assert (HI : interpolate (N := XRN) spline s (Some (so_dlambda s)) (Some (start, stop)) =
                 let m := (xspl <- resample_grid (N := XRN) start stop (so_dlambda s) ;;
                           x <- of_option ValueError (coord s) ;;
                           ius <- spline x (so_irradiance s) ;; Ok (xspl, map ius xspl)) in
                 match m with Ok (x, y) => (with_ipol (with_dlambda s (so_dlambda s)) x y, Ok tt)
                            | Err e => (with_dlambda s (so_dlambda s), Err e) end) by reflexivity.
    rewrite HI. cbv zeta.
    match goal with |- snd (let (_, _) := match ?m with _ => _ end in _) = _ /\ _ => 
      set (m0 := m) end.
    match goal with |- context [interpolate spline ?s2 ?p1 ?p2] =>
      assert (HI2 : interpolate (N := XRN) spline s2 p1 p2 =
                 match m0 with Ok (x, y) => (with_ipol (with_dlambda s2 (so_dlambda s)) x y, Ok tt)
                            | Err e => (with_dlambda s2 (so_dlambda s), Err e) end) by reflexivity end.
    rewrite HI2. destruct m0 as [[gx gy]|e]; split; try reflexivity; repeat split.
  Qed.

  Lemma step_out s s' c : same_but_ipol s s' -> keeps_resolution c ->
    snd (solar_step spline s c) = snd (solar_step spline s' c) /\ same_but_ipol s (fst (solar_step spline s c)).
  Proof.
    intros H Hc. destruct c as [r k d|r k d| |d i]; cbn [solar_step].
    - unfold inband_solarflux. destruct (band_out s s' r true k d H) as [E1 E2].
      destruct (band_calculations _ s _ _ _ _), (band_calculations _ s' _ _ _ _). cbn in *. now subst.
    - unfold inband_solarirradiance. destruct (band_out s s' r false k d H) as [E1 E2].
      destruct (band_calculations _ s _ _ _ _), (band_calculations _ s' _ _ _ _). cbn in *. now subst.
    - split; [|apply same_refl]. destruct (same_ipol_form _ _ H) as [o ->]. reflexivity.
    - destruct d; [contradiction|]. pose proof (interp_out s s' None i H) as E1.
      pose proof (interp_same s None i (or_introl eq_refl)) as E2.
      destruct (interpolate _ s _ _), (interpolate _ s' _ _). cbn in *. now subst.
  Qed.

  Lemma same_trans a b c : same_but_ipol a b -> same_but_ipol b c -> same_but_ipol a c.
  Proof. unfold same_but_ipol. intuition congruence. Qed.
  Lemma same_sym a b : same_but_ipol a b -> same_but_ipol b a.
  Proof. unfold same_but_ipol. intuition congruence. Qed.

  Lemma histories_independent : forall l s, Forall keeps_resolution l ->
    solar_run spline s l = map (fun c => snd (solar_step spline s c)) l.
  Proof.
    intros l s Hl. assert (G : forall s', same_but_ipol s s' -> solar_run spline s' l = map (fun c => snd (solar_step spline s c)) l).
    { induction l as [|c l IH]; intros s' H; [reflexivity|]. inversion Hl; subst. cbn [solar_run map].
      destruct (step_out s s' c H H2) as [E1 _].
      destruct (step_out s' s c (same_sym _ _ H) H2) as [_ E2].
      destruct (solar_step spline s' c) as [s2 o]. cbn in *. rewrite E1. f_equal. apply IH; auto.
      eapply same_trans; eauto. }
    apply G, same_refl.
  Qed.
End Histories.

(** ** A concrete band *)

(** the straight line through the first and the last sample *)
Definition chord (x y : list XR) : res (XR -> XR) :=
  match hd NaN x, last x NaN, hd NaN y, last y NaN with
  | Fin x0, Fin x1, Fin y0, Fin y1 =>
      if Req_EM_T x0 x1 then Err ValueError
      else Ok (fun t => match t with Fin t => Fin (y0 + (y1 - y0) * ((t - x0) / (x1 - x0))) | _ => NaN end)
  | _, _, _, _ => Err ValueError
  end.

Lemma last_map {A B} (f : A -> B) l d : last (map f l) (f d) = f (last l d).
Proof. induction l as [|a [|b l] IH]; [reflexivity..|]. exact IH. Qed.

Lemma last_def {A} (l : list A) d d' : l <> [] -> last l d = last l d'.
Proof. induction l as [|a [|b l] IH]; [easy|reflexivity|]. intros _. cbn [last] in *. apply IH. discriminate. Qed.

Lemma chord_linear : linear_spline chord.
Proof.
  intros x ys c g (f & Hf & Hg). unfold chord in Hf.
  destruct (hd NaN x) as [x0| | |] eqn:E0; try discriminate. destruct (last x NaN) as [x1| | |] eqn:E1; try discriminate.
  destruct ys as [|y0 ys]; [discriminate|].
  cbn [map hd] in Hf. change (Fin y0 :: map Fin ys) with (map Fin (y0 :: ys)) in Hf.
  rewrite (last_def _ _ (Fin 0)) in Hf by discriminate. rewrite last_map in Hf.
  unfold spline_is, chord. rewrite E0, E1. cbn [map hd].
  change (Fin (c * y0) :: map Fin (map (Rmult c) ys)) with (map Fin (map (Rmult c) (y0 :: ys))).
  rewrite (last_def _ _ (Fin (c * 0))) by discriminate. rewrite last_map, last_map.
  destruct (Req_EM_T x0 x1); [discriminate|]. injection Hf as <-. eexists. split; [reflexivity|].
  intros t. cbn beta iota. specialize (Hg t). cbn beta iota in Hg. injection Hg as Hg. rewrite <- Hg. f_equal. cbn [last]. ring.
Qed.

Definition sample_sun (dl : R) : spectrum XRN :=
  {| so_wavelength := Some (map Fin [1; 2; 4]); so_wavenumber := None; so_irradiance := map Fin [4; 2; 1];
     so_wavespace := "wavelength"; so_dlambda := Fin dl; so_ipol := None |}.
Definition sun_det : detector XRN :=
  [("response", VArr (map Fin [1 / 2; 1; 1])); ("wavelength", VArr (map Fin [2; 5 / 2; 3]))].
Definition g_sun (t : R) : R := (t - 1) / 2.
Definition h_sun (t : R) : R := 5 - t.

Lemma sample_sun_constructed dl :
  SolarIrradianceSpectrum (N := XRN) (map Fin [1; 2; 4]) (map Fin [4; 2; 1]) (Some (Fin dl)) None = Ok (sample_sun dl).
Proof. reflexivity. Qed.

Lemma sample_band dl : 0 < dl -> band_ok chord (sample_sun dl) sun_det 1 [2; 5 / 2; 3] [1 / 2; 1; 1] dl g_sun h_sun.
Proof.
  intros H. exists "wavelength", (map Fin [1; 2; 4]). split; [left; repeat split|]. split; [reflexivity|]. split; [exact H|].
  split; [reflexivity|]. split; [reflexivity|]. split; [discriminate|]. cbn [hd last]. split; [lra|]. split.
  - unfold spline_is, chord. cbn [map hd last]. destruct (Req_EM_T (2 * 1) (3 * 1)) as [E|E]; [lra|].
    eexists; split; [reflexivity|]. intros t. unfold g_sun. f_equal. field.
  - unfold spline_is, chord. cbn -[Rdiv IZR Rplus Rmult Req_EM_T]. destruct (Req_EM_T 1 4) as [E|E]; [lra|].
    eexists; split; [reflexivity|]. intros t. unfold h_sun. f_equal. field.
Qed.

Lemma nearest_INR k n : nearest (INR k) n -> n = k.
Proof.
  unfold nearest. intros H. destruct (Nat.eq_dec n k) as [->|N]; [reflexivity|]. exfalso.
  assert (n < k \/ k < n)%nat as [L|L] by lia; apply lt_INR in L; [assert (n + 1 <= k)%nat by (apply INR_lt in L; lia)|assert (k + 1 <= n)%nat by (apply INR_lt in L; lia)];
    apply le_INR in H0; rewrite plus_INR in H0; cbn in H0;
    [rewrite Rabs_right in H by lra|rewrite Rabs_left in H by lra]; lra.
Qed.

Lemma sample_flux_half :
  snd (inband_solarflux (N := XRN) chord (sample_sun (1 / 2)) (FlatRsr sun_det) (Fin 1) "det-1") = Ok (Fin (29 / 16)) /\
  snd (inband_solarirradiance (N := XRN) chord (sample_sun (1 / 2)) (FlatRsr sun_det) (Fin 1) "det-1") = Ok (Fin (29 / 12)).
Proof.
  destruct (band_flux_irr chord (sample_sun (1/2)) sun_det 1 "det-1" _ _ _ _ _ (sample_band (1/2) ltac:(lra))) as (n & Hn & HF & HI & _).
  cbn [hd last] in *. replace ((3 * 1 - 2 * 1) / (1 / 2)) with (INR 2) in Hn by (cbn; lra).
  apply nearest_INR in Hn. subst n. rewrite HF, HI. clear HF HI.
  assert (EW : Rtrapz (map g_sun (even_grid (2 * 1) (3 * 1) 2)) (even_grid (2 * 1) (3 * 1) 2) = 3 / 4).
  { cbn [even_grid seq map Rtrapz INR]. unfold g_sun. lra. }
  assert (EF : Rtrapz (Rvmul (map h_sun (even_grid (2 * 1) (3 * 1) 2)) (map g_sun (even_grid (2 * 1) (3 * 1) 2))) (even_grid (2 * 1) (3 * 1) 2) = 29 / 16).
  { unfold Rvmul. cbn [even_grid seq map Rtrapz INR combine fst snd]. unfold g_sun, h_sun. field. }
  rewrite EW, EF. split; [reflexivity|]. rewrite xdiv_fin by lra. do 2 f_equal. lra.
Qed.

Lemma sample_flux_one :
  snd (inband_solarflux (N := XRN) chord (sample_sun 1) (FlatRsr sun_det) (Fin 1) "det-1") = Ok (Fin (7 / 4)).
Proof.
  destruct (band_flux_irr chord (sample_sun 1) sun_det 1 "det-1" _ _ _ _ _ (sample_band 1 ltac:(lra))) as (n & Hn & HF & _).
  cbn [hd last] in *. replace ((3 * 1 - 2 * 1) / 1) with (INR 1) in Hn by (cbn; lra).
  apply nearest_INR in Hn. subst n. rewrite HF. do 2 f_equal.
  unfold Rvmul. cbn [even_grid seq map Rtrapz INR combine fst snd]. unfold g_sun, h_sun. field.
Qed.

Lemma resolution_sticks : exists (spline : list XR -> list XR -> res (XR -> XR)) (s : spectrum XRN) rsr k det dl F F',
  solar_run spline s [SFlux rsr k det] = [SNum (Ok F)] /\
  solar_run spline s [SInterp (Some dl) None; SFlux rsr k det] = [SUnit (Ok tt); SNum (Ok F')] /\ F <> F'.
Proof.
  exists chord, (sample_sun (1/2)), (FlatRsr sun_det), (Fin 1), "det-1", (Fin 1), (Fin (29/16)), (Fin (7/4)).
  split; [|split].
  - cbn [solar_run solar_step]. pose proof (proj1 sample_flux_half) as E.
    destruct (inband_solarflux _ _ _ _ _) as [s' o]. cbn in E. now rewrite E.
  - cbn [solar_run].
    assert (E0 : exists o, solar_step chord (sample_sun (1/2)) (SInterp (Some (Fin 1)) None) =
       ({| so_wavelength := Some (map Fin [1; 2; 4]); so_wavenumber := None; so_irradiance := map Fin [4; 2; 1];
           so_wavespace := "wavelength"; so_dlambda := Fin 1; so_ipol := o |}, SUnit (Ok tt))).
    { unfold solar_step, interpolate. cbv zeta. 
      change (coord (with_dlambda (sample_sun (1 / 2)) (Fin 1))) with (Some (map Fin [1; 2; 4])).
      cbn [of_option bind]. change (first_last_of (map Fin [1; 2; 4])) with (Ok (Fin 1, Fin 4)). cbn [bind].
      change (so_dlambda (with_dlambda (sample_sun (1 / 2)) (Fin 1))) with (Fin 1).
      rewrite grid_fin by lra. cbn [bind].
      change (so_irradiance (with_dlambda (sample_sun (1 / 2)) (Fin 1))) with (map Fin [4; 2; 1]).
      unfold chord. cbn -[Rdiv IZR Rplus Rmult Req_EM_T grid_fin even_grid steps]. destruct (Req_EM_T 1 4) as [E|E]; [lra|].
      cbn [bind]. eexists. reflexivity. }
    destruct E0 as [o ->]. f_equal.
    assert (S : same_but_ipol (sample_sun 1) {| so_wavelength := Some (map Fin [1; 2; 4]); so_wavenumber := None; so_irradiance := map Fin [4; 2; 1];
           so_wavespace := "wavelength"; so_dlambda := Fin 1; so_ipol := o |}) by (repeat split).
    destruct (step_out chord _ _ (SFlux (FlatRsr sun_det) (Fin 1) "det-1") S I) as [E _].
    set (s2 := {| so_wavelength := Some (map Fin [1; 2; 4]); so_wavenumber := None; so_irradiance := map Fin [4; 2; 1];
           so_wavespace := "wavelength"; so_dlambda := Fin 1; so_ipol := o |}) in *. clearbody s2.
    destruct (solar_step chord s2 _) as [s3 o3]. cbn [snd] in E. rewrite <- E. f_equal.
    cbn [solar_step]. pose proof sample_flux_one as E1.
    destruct (inband_solarflux _ _ _ _ _) as [s4 o4]. cbn [snd] in E1. rewrite E1. reflexivity.
  - intros [=]. lra.
Qed.
