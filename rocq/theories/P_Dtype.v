(** Lemmas about element types (M_Dtype). *)
From Coq Require Import ZArith String List Bool Reals Lra Lia.
From Verif Require Import Base NumSig XR M_Blackbody M_Utils M_RadTb M_AtmIR M_Rayleigh M_Dtype S_Dtype P_Blackbody P_RadTb Samples11.
Import ListNotations.

Section Types.
  Context {N : Num} (np : numpy N).

  Lemma put64 : forall x : N, put np (Np Float64) x = x.
  Proof. reflexivity. Qed.

  Lemma rad2temp_type : forall (w r : tv N) d, is_float d = true -> ty r = Np d ->
    exists t, rad2temp_t np w r = Ok t /\ ty t = Np d.
  Proof.
    intros [tw w] [tr r] d Hd Hr. cbn in Hr. subst tr. unfold rad2temp_t; cbn [ty].
    assert (exists w', like np d {| ty := tw; val := w |} = Ok w' /\ ty w' = Np d) as (w' & -> & Hw).
    { unfold like; cbn [ty val]. rewrite Hd. destruct tw as [| |d'].
      - destruct (ntrunc N w); eexists; split; reflexivity.
      - destruct (ntrunc N w); eexists; split; reflexivity.
      - destruct (dtype_eqb d' d) eqn:E.
        + eexists; split; [reflexivity|]. destruct d', d; try discriminate; reflexivity.
        + destruct (ntrunc N w); eexists; split; reflexivity. }
    eexists; split; [reflexivity|]. destruct w' as [tw' w']. cbn in Hw. subst tw'.
    destruct d; try discriminate; reflexivity.
  Qed.

  Lemma rad2temp_double : forall (w r : tv N), ty r = Np Float64 ->
    rad2temp_t np w r = Ok {| ty := Np Float64; val := rad2temp (val w) (val r) |}.
  Proof.
    intros [tw w] [tr r] Hr. cbn in Hr. subst tr. unfold rad2temp_t; cbn [ty].
    assert (like np Float64 {| ty := tw; val := w |} = Ok {| ty := Np Float64; val := w |}) as ->.
    { unfold like; cbn. destruct tw as [| |d']; try (destruct (ntrunc N w); reflexivity).
      destruct d'; cbn; try (destruct (ntrunc N w); reflexivity); reflexivity. }
    reflexivity.
  Qed.

  Lemma wn_rad2temp_type : forall (w r : tv N) d, is_float d = true -> ty r = Np d ->
    ty (wn_rad2temp_t np w r) = match ty w with Np Float32 | PyInt | PyFloat => Np d | _ => Np Float64 end.
  Proof.
    intros [tw w] [tr r] d Hd Hr. cbn in Hr. subst tr.
    destruct d; try discriminate; destruct tw as [| |[]]; reflexivity.
  Qed.
  Lemma wn_rad2temp_double : forall (w r : tv N), (ty w = PyFloat \/ ty w = Np Float64) -> (exists d, ty r = Np d /\ d <> Float32) ->
    wn_rad2temp_t np w r = {| ty := Np Float64; val := wn_rad2temp (val w) (val r) |}.
  Proof.
    intros [tw w] [tr r] Hw (d & Hr & Hd). cbn in Hr, Hw. subst tr.
    destruct Hw as [-> | ->]; destruct d; try congruence; reflexivity.
  Qed.

  Lemma planck_type : forall wl (w t : tv N) dw dt, is_float dw = true -> ty w = Np dw -> ty t = Np dt -> is_float dt = true ->
    ty (planck_t np wl w t) = Np (wider dw dt).
  Proof.
    intros wl [tw w] [tt t] dw dt Hw Ew Et Ht. cbn in Ew, Et. subst.
    destruct wl, dw, dt; try discriminate; reflexivity.
  Qed.
  Lemma planck_double : forall wl (w t : tv N), ty w = Np Float64 -> (exists d, ty t = Np d /\ (d <> Float32)) ->
    planck_t np wl w t = {| ty := Np Float64; val := planck1 wl (val w) (val t) |}.
  Proof.
    intros wl [tw w] [tt t] Ew (d & Et & Hd). cbn in Ew, Et. subst.
    unfold planck1. destruct wl, d; try congruence; reflexivity.
  Qed.

  Lemma add_ty (a b : tv N) : ty (add np a b) = common (ty a) (ty b). Proof. reflexivity. Qed.

  Lemma trapz_type : forall d dx (ys xs : list (tv N)), is_float d = true -> is_float dx = true ->
    Forall (fun y => ty y = Np d) ys -> Forall (fun x => ty x = Np dx) xs -> List.length ys = List.length xs -> (2 <= List.length ys)%nat ->
    ty (trapz_t np ys xs) = Np (wider d dx).
  Proof.
    intros d dx ys. induction ys as [|y0 ys IH]; intros xs Hd Hx Fy Fx L G; [cbn in G; lia|].
    destruct xs as [|x0 xs]; [discriminate|]. destruct ys as [|y1 ys]; [cbn in G; lia|]. destruct xs as [|x1 xs]; [discriminate|].
    inversion Fy as [|? ? Y0 Fy']; subst. inversion Fx as [|? ? X0 Fx']; subst.
    pose proof (Forall_inv Fy') as Y1. pose proof (Forall_inv Fx') as X1.
    assert (T : ty (div np (mul np (sub np x1 x0) (add np y1 y0)) (py (nZ 2))) = Np (wider d dx)).
    { cbn. rewrite Y0, Y1, X0, X1. destruct d, dx; try discriminate; reflexivity. }
    destruct ys as [|y2 ys].
    - exact T.
    - change (trapz_t np (y0 :: y1 :: y2 :: ys) (x0 :: x1 :: xs)) with
        (add np (div np (mul np (sub np x1 x0) (add np y1 y0)) (py (nZ 2))) (trapz_t np (y1 :: y2 :: ys) (x1 :: xs))).
      rewrite add_ty, T, IH; auto; [|cbn; lia]. now destruct d, dx.
  Qed.

  Lemma band_type : forall wl (ws rs : list (tv N)) integral t norm dw dr di dt,
    Forall (floats dw) ws -> Forall (floats dr) rs -> floats di integral -> floats dt t ->
    List.length ws = List.length rs -> (2 <= List.length ws)%nat ->
    ty (band_radiance_t np wl ws rs integral t norm) = Np (wider dt (wider dw (if norm then wider dr di else dr))).
  Proof.
    intros wl ws rs i t norm dw dr di dt Fw Fr [Ei Di] [Et Dt] L G.
    assert (Dw : is_float dw = true) by (destruct ws; [cbn in G; lia|]; inversion Fw as [|? ? [] ?]; auto).
    assert (Dr : is_float dr = true) by (destruct rs; [destruct ws; cbn in *; lia|]; inversion Fr as [|? ? [] ?]; auto).
    assert (T : ty (trapz_t np (map (fun p => mul np (planck_t np wl (fst p) t) (snd p)) (combine ws rs)) ws) = Np (wider (wider (wider dw dt) dr) dw)).
    { apply trapz_type.
      - now destruct dw, dt, dr.
      - auto.
      - apply Forall_map, Forall_forall. intros [w r] H. cbn [fst snd].
        pose proof (in_combine_l _ _ _ _ H) as Hw. pose proof (in_combine_r _ _ _ _ H) as Hr.
        rewrite Forall_forall in Fw, Fr. destruct (Fw _ Hw) as [Ew _], (Fr _ Hr) as [Er _].
        unfold mul, arith; cbn [ty]. rewrite (planck_type wl w t dw dt Dw Ew Et Dt), Er. destruct dw, dt, dr; try discriminate; reflexivity.
      - eapply Forall_impl; [|exact Fw]. now intros a [].
      - rewrite map_length, combine_length. lia.
      - rewrite map_length, combine_length. lia. }
    unfold band_radiance_t. destruct norm.
    - unfold div, arith; cbn [ty]. rewrite T, Ei. destruct dt, dw, dr, di; try discriminate; reflexivity.
    - rewrite T. destruct dt, dw, dr; try discriminate; reflexivity.
  Qed.

  Lemma lut_type : forall oob scale lut one (t v : tv N) d, floats d t -> lut_radiance_t np oob scale lut one t = Ok v ->
    ty v = if one then PyFloat else Np d.
  Proof.
    intros oob scale lut one [tt t] v d [E D]. cbn in E. subst tt. unfold lut_radiance_t; cbn [ty]. intros H.
    destruct (lut_start lut scale) as [s|]; [|discriminate]. cbn -[Z.of_nat] in H.
    match type of H with context[if ?b then _ else _] => destruct b end; [discriminate|].
    match type of H with context[if ?b then _ else _] => destruct b end; [discriminate|].
    match type of H with context[bind ?e _] => destruct e end; [|discriminate]. cbn in H.
    injection H as <-. cbn. now rewrite D.
  Qed.

  Lemma reflectance_type : forall flux integral thr lim (rad11 rad3x sunz nir therm : tv N) co2 dn dt v,
    floats dn nir -> floats dt therm -> floats_or_item dt rad11 -> floats_or_item dn rad3x ->
    reflectance_t np flux integral thr lim rad11 rad3x sunz nir therm co2 = Ok v -> ty v = Np (wider dn dt).
  Proof.
    intros flux integral thr lim rad11 rad3x sunz nir therm co2 dn dt v [En Dn] [Et Dt] [[E1|E1] _] [[E3|E3] _];
      unfold reflectance_t; rewrite En, Et; intros H; injection H as <-;
      cbn; rewrite E1, E3; destruct dn, dt; try discriminate; reflexivity.
  Qed.
  Lemma reflectance_defined : forall flux integral thr lim (rad11 rad3x sunz nir therm : tv N) co2 dn dt,
    floats dn nir -> floats dt therm -> exists v, reflectance_t np flux integral thr lim rad11 rad3x sunz nir therm co2 = Ok v.
  Proof. intros. destruct H as [En _], H0 as [Et _]. unfold reflectance_t. rewrite En, Et. eexists; reflexivity. Qed.

  Lemma emissive_type : forall central (rad11 rad3x r3x : tv N) dn dt tb,
    floats_or_item dt rad11 -> floats_or_item dn rad3x -> ty r3x = Np (wider dn dt) ->
    exists v, emissive_t np central rad11 rad3x r3x tb = Ok v /\ ty v = Np (wider dn dt).
  Proof.
    intros central rad11 rad3x r3x dn dt tb [E1 Dt] [E3 Dn] Er. unfold emissive_t.
    set (e := where_t _ _ _ _).
    assert (Ee : ty e = Np (wider dn dt)).
    { unfold e. cbn. rewrite Er. destruct E1 as [-> | ->], E3 as [-> | ->]; destruct dn, dt; try discriminate; reflexivity. }
    destruct tb; [|eauto]. unfold radiance2tb_t. apply rad2temp_type; auto. now destruct dn, dt.
  Qed.

  Lemma seviri_types : forall c (x t r : tv N) d, floats d x ->
    (sev_radiance2tb_t np c x = Ok t -> ty t = Np d) /\ (sev_tb2radiance_t np c x = Ok r -> ty r = Np d).
  Proof.
    intros c [tx x] t r d [E D]. cbn in E. subst. unfold sev_radiance2tb_t, sev_tb2radiance_t.
    destruct (seviri_coeffs c) as [[[vc al] be]|]; [|split; discriminate]. cbn [bind].
    split; intros H; injection H as <-; destruct d; try discriminate; reflexivity.
  Qed.
  Lemma seviri_double : forall c (x : N), 
    (l <- seviri_radiance2tb c [x] ;; Ok (map (fun v => {| ty := Np Float64; val := v |}) l)) =
      (t <- sev_radiance2tb_t np c {| ty := Np Float64; val := x |} ;; Ok [t]) /\
    (l <- seviri_tb2radiance c [x] false true ;; Ok (map (fun v => {| ty := Np Float64; val := v |}) l)) =
      (t <- sev_tb2radiance_t np c {| ty := Np Float64; val := x |} ;; Ok [t]).
  Proof.
    intros c x. unfold sev_radiance2tb_t, sev_tb2radiance_t, seviri_radiance2tb, seviri_tb2radiance. cbn [negb].
    destruct (seviri_coeffs c) as [[[vc al] be]|]; split; reflexivity.
  Qed.
  Lemma limb_double : forall t z : N,
    val (dask_pixel_t np {| ty := Np Float64; val := t |} {| ty := Np Float64; val := z |}) = M_AtmIR.dask_pixel t z.
  Proof. reflexivity. Qed.
  Lemma relax_double : forall interp table (sunz : tv N) (red : N), exists v,
    rayleigh_t np interp (Some table) sunz (Some {| ty := Np Float64; val := red |}) = Ok (Np Float64, {| ty := Np Float64; val := v |}) /\
    v = nclip (M_Rayleigh.relax red (nmul N (interp table) (nlit N 100 1))) n0 (nlit N 100 1).
  Proof.
    intros. unfold rayleigh_t; cbn [ty]. eexists; split; [reflexivity|]. unfold lut_values_t. cbn. rewrite map_id. reflexivity.
  Qed.
  Lemma reduce_double : forall z r a b c : N,
    val (reduce_t np {| ty := Np Float64; val := z |} {| ty := Np Float64; val := r |} a b c) = nmul N r (M_Rayleigh.zenith_factor z a b c).
  Proof. reflexivity. Qed.
  Lemma lut_double : forall oob scale lut (t : N),
    (r <- lut_radiance_t np oob scale lut false {| ty := Np Float64; val := t |} ;; Ok [val r]) = lut_lookup oob scale lut [t].
  Proof.
    intros. unfold lut_radiance_t, lut_lookup, lut_index; cbn [ty]. destruct (lut_start lut scale) as [s|]; [|reflexivity].
    cbn -[Z.of_nat]. repeat match goal with |- context[if ?b then _ else _] => destruct b end; try reflexivity.
    match goal with |- context[idx ?a ?b] => destruct (idx a b) end; reflexivity.
  Qed.

  Lemma limb_types : forall (t z : tv N) d dz, floats d t -> floats dz z ->
    ty (dask_pixel_t np t z) = Np (wider d dz) /\ exists v, masked_pixel_t np t z = Ok v /\ ty v = Np d.
  Proof.
    intros [tt t] [tz z] d dz [E D] [Ez Dz]. cbn in E, Ez. subst. split.
    - destruct d, dz; try discriminate; reflexivity.
    - unfold masked_pixel_t, iadd_t. cbn [ty]. destruct d, dz; try discriminate;
        (cbn -[astype add mul tau0_t tau_t delta_t]; unfold bind; cbn -[astype add mul tau0_t tau_t delta_t nlit];
         repeat match goal with |- context[neqb N ?a ?b] => destruct (neqb N a b) end; cbn;
         repeat match goal with |- context[if ?b then _ else _] => destruct b end; eexists; split; reflexivity).
  Qed.
  Lemma limb_integers : forall (t z : tv N), integers t -> masked_pixel_t np t z = Err TypeError /\ (forall dz, floats dz z -> ty (dask_pixel_t np t z) = Np Float64).
  Proof.
    intros [tt t] [tz z] (d & E & D). cbn in E. subst. split.
    - destruct d; try discriminate; reflexivity.
    - intros dz [Ez Dz]. cbn in Ez. subst. destruct d, dz; try discriminate; reflexivity.
  Qed.

  Lemma rayleigh_type : forall interp table (sunz : tv N) red d, floats d (match red with Some r => r | None => sunz end) ->
    exists v, rayleigh_t np interp table sunz red = Ok (Np d, v) /\ ty v = Np d.
  Proof.
    intros interp table sunz red d [E D]. unfold rayleigh_t. rewrite E. eexists; split; [reflexivity|].
    destruct red as [[tr r]|]; cbn in E; [subst tr|]; destruct table, d; try discriminate; reflexivity.
  Qed.
  Lemma rayleigh_integers : forall interp table (sunz red : tv N), integers red ->
    exists d v, rayleigh_t np interp table sunz (Some red) = Ok (Np d, v) /\ is_float d = false /\ ty v = Np Float64.
  Proof.
    intros interp table sunz [tr r] (d & E & D). cbn in E. subst. unfold rayleigh_t. cbn [ty].
    exists d. eexists. split; [reflexivity|]. split; auto. destruct table, d; try discriminate; reflexivity.
  Qed.
  Lemma reduce_type : forall (z r : tv N) a b c dz d, floats dz z -> floats d r -> ty (reduce_t np z r a b c) = Np (wider dz d).
  Proof. intros [tz z] [tr r] a b c dz d [Ez Dz] [E D]. cbn in E, Ez. subst. destruct d, dz; try discriminate; reflexivity. Qed.
End Types.

Lemma Rtrunc_small r : (-1 < r < 1)%R -> Rtrunc r = 0%Z.
Proof.
  intros H. unfold Rtrunc. destruct (Rlt_dec r 0) as [A|A].
  - replace (Int_part (- r)) with 0%Z; [reflexivity|]. symmetry. apply Int_part_unique. lra.
  - apply Int_part_unique. lra.
Qed.
(** ** integers *)
Section Ints.
  Variable np : numpy XRN.
  Local Open Scope R_scope.

  Lemma store_int : forall d (x : XRN), is_float d = false -> exists z, store np d x = Fin (IZR z).
  Proof.
    intros d x D. destruct d; try discriminate; cbn -[nZ]; rewrite nZ_fin; eexists; reflexivity.
  Qed.
  Lemma fits0 d : fits_in d 0 = true. Proof. now destruct d. Qed.
  Lemma store_small : forall d x, is_float d = false -> Rabs x < 1 -> store np d (Fin x : XRN) = Fin 0.
  Proof.
    intros d x D H. assert (E : Rtrunc x = 0%Z) by (apply Rtrunc_small; apply Rabs_def2 in H; lra).
    destruct d; try discriminate; cbn -[nZ fits_in]; rewrite E, fits0, nZ_fin; reflexivity.
  Qed.
  Lemma like_small : forall d (w : tv XRN) x, is_float d = false -> (ty w = PyFloat \/ ty w = Np Float32 \/ ty w = Np Float64) ->
    val w = Fin x -> Rabs x < 1 -> like np d w = Ok {| ty := Np d; val := Fin 0 |}.
  Proof.
    intros d [tw w] x D T E H. cbn in T, E. subst w. unfold like, astype. cbn [ty val ntrunc XRN xtrunc].
    assert (S : store np d (Fin x : XRN) = Fin 0) by now apply store_small. rewrite S.
    destruct T as [-> | [-> | ->]]; destruct d; try discriminate; reflexivity.
  Qed.
  Lemma rad2temp_integers : forall (w r : tv XRN) x, integers r -> (ty w = PyFloat \/ ty w = Np Float32 \/ ty w = Np Float64) ->
    val w = Fin x -> Rabs x < 1 -> rad2temp_t np w r = Ok {| ty := Np Float64; val := NaN |}.
  Proof.
    intros w [tr r] x (d & E & D) T V H. cbn in E. subst tr. unfold rad2temp_t; cbn [ty].
    rewrite (like_small d w x D T V H). cbn [bind].
    assert (P : power np {| ty := Np d; val := (Fin 0 : XRN) |} 5 = {| ty := Np d; val := Fin 0 |}).
    { unfold power; cbn [ty val]. rewrite npow_fin.
      assert (store np d (Fin (0 ^ 5) : XRN) = Fin 0) as S by (apply store_small; auto; rewrite pow_i by lia; rewrite Rabs_R0; lra).
      destruct d; try discriminate; cbn [put]; now rewrite S. }
    rewrite P.
    assert (M : mul np {| ty := Np d; val := r |} {| ty := Np d; val := (Fin 0 : XRN) |} = {| ty := Np d; val := Fin 0 |}).
    { unfold mul, arith; cbn [ty val].
      assert (common (Np d) (Np d) = Np d) as -> by now destruct d.
      cbn [put]. destruct (store_int d r D) as (z & ->).
      rewrite (store_small d 0 D) by (rewrite Rabs_R0; lra). cbn [nmul XRN xmul].
      rewrite Rmult_0_r. now rewrite (store_small d 0 D) by (rewrite Rabs_R0; lra). }
    rewrite M.
    assert (Q : div np (py (PLANCK_C2 : XRN)) {| ty := Np d; val := (Fin 0 : XRN) |} = {| ty := Np Float64; val := PInf |}).
    { unfold div, arith; cbn [ty val py].
      assert (quotient PyFloat (Np d) = Np Float64) as -> by (destruct d; try discriminate; reflexivity).
      cbn [put store]. rewrite C2_eq. cbn [ndiv XRN xdiv]. destruct (Req_EM_T 0 0); [|lra].
      unfold xinf_sign. destruct (Rlt_dec 0 c2) as [_|N]; [reflexivity|]. destruct N. exact c2_pos. }
    rewrite Q. unfold add, arith; cbn [ty val py common is_float put store]. rewrite nZ_fin. cbn [nadd XRN xadd].
    unfold log_, func; cbn [ty val float_of nlog XRN xlog].
    assert (M2 : mul np {| ty := Np d; val := (Fin 0 : XRN) |} {| ty := Np Float64; val := PInf |} = {| ty := Np Float64; val := NaN |}).
    { unfold mul, arith; cbn [ty val]. assert (common (Np d) (Np Float64) = Np Float64) as -> by now destruct d.
      cbn [put store nmul XRN xmul]. unfold xinf_sign. destruct (Rlt_dec 0 0); [lra|]. destruct (Rlt_dec 0 0); [lra|]. reflexivity. }
    rewrite M2. unfold div, arith; cbn [ty val py quotient common is_float put store]. rewrite C1_eq. reflexivity.
  Qed.
  Lemma reflectance_double : forall E (c : M_Nir.calculator XRN) (rad11 rad3x sunz nir therm : XRN) (co2 : option XRN) corr,
    let one x := {| M_Nir.a_dtype := M_Nir.Float64; M_Nir.a_shape := [1%nat]; M_Nir.a_data := [x] |} in
    let dbl x := {| ty := Np Float64; val := x |} in
    match co2 with Some b => M_Nir.derive_rad39_corr (one therm) (one b) "rosenfeld" = Ok corr | None => corr = one (n1 : XRN) end ->
    (a <- M_Nir.calculate_r3x E c (one rad11) (one rad3x) corr (M_Nir.solar_radiance E c (one sunz) M_Nir.Float64) (one therm) (one sunz) (one nir) ;; Ok (M_Nir.a_data a)) =
    (v <- reflectance_t np (dbl (M_Nir.cl_solar_flux c)) (M_RadTb.cv_rsr_integral (M_Nir.cl_conv c)) (M_Nir.cl_sunz_threshold c) (M_Nir.cl_masking_limit c)
            (dbl rad11) (dbl rad3x) (dbl sunz) (dbl nir) (dbl therm) (option_map dbl co2) ;; Ok [val v]).
  Proof.
    intros E c rad11 rad3x sunz nir therm co2 corr one dbl H.
    assert (exists f, corr = one f /\ correction_t np (dbl therm) (option_map dbl co2) Float64 = dbl f) as (f & -> & Hf).
    { destruct co2 as [b|]; [|subst; eexists; split; reflexivity]. cbn in H. injection H as <-. eexists; split; reflexivity. }
    assert (Hs : solar_radiance_t np (dbl (M_Nir.cl_solar_flux c)) (M_Nir.cl_sunz_threshold c) Float64 (dbl sunz) =
                 dbl (ndiv XRN (nmul XRN (M_Nir.cl_solar_flux c) (ncos XRN (deg2rad (M_Nir.clip_sunz (M_Nir.cl_sunz_threshold c) sunz)))) (npi XRN))).
    { unfold solar_radiance_t. destruct (M_Nir.cl_sunz_threshold c); reflexivity. }
    unfold reflectance_t; cbn [ty dbl]. fold (dbl (M_Nir.cl_solar_flux c)) (dbl sunz) (dbl therm) (dbl rad11) (dbl rad3x) (dbl nir).
    rewrite Hf, Hs. unfold M_Nir.solar_radiance.
    match goal with |- context[M_Nir.astype E M_Nir.Float64 ?a] => change (M_Nir.astype E M_Nir.Float64 a) with
      (one (ndiv XRN (nmul XRN (M_Nir.cl_solar_flux c) (ncos XRN (deg2rad (M_Nir.clip_sunz (M_Nir.cl_sunz_threshold c) sunz)))) (npi XRN))) end.
    generalize (ndiv XRN (nmul XRN (M_Nir.cl_solar_flux c) (ncos XRN (deg2rad (M_Nir.clip_sunz (M_Nir.cl_sunz_threshold c) sunz)))) (npi XRN)) as sol.
    intros sol. unfold r3x_t.
    assert (F : forall b1 b2 : bool, M_Nir.nor (M_Nir.flag b1) (M_Nir.flag b2) = M_Nir.flag (N := XRN) (b1 || b2)).
    { intros. assert (Reqb (1 / 1) (0 / 1) = false) by (apply Reqb_false_iff; lra). assert (Reqb (0 / 1) (0 / 1) = true) by (apply Reqb_iff; reflexivity).
      destruct b1, b2; unfold M_Nir.nor, M_Nir.flag, n0, n1, nZ; cbn; rewrite ?H0, ?H1; reflexivity. }
    assert (G : forall (b : bool) (x y : XRN), (if neqb XRN (M_Nir.flag b) n0 then x else y) = if b then y else x).
    { intros. assert (Reqb (1 / 1) (0 / 1) = false) by (apply Reqb_false_iff; lra). assert (Reqb (0 / 1) (0 / 1) = true) by (apply Reqb_iff; reflexivity).
      destruct b; unfold M_Nir.flag, n0, n1, nZ; cbn; rewrite ?H0, ?H1; reflexivity. }
    unfold M_Nir.calculate_r3x, M_Nir.bmap2, M_Nir.arr_map, one, dbl.
    destruct (M_Nir.cl_masking_limit c) as [lim|]; cbn -[nlit nltb nisnan XRN neqb nmul nsub ndiv nnan M_Nir.nor M_Nir.flag];
      rewrite ?F, G; change (M_Nir.NIR_EPSILON (N := XRN)) with (nlit XRN 5 1000).
    - match goal with |- context[nltb XRN ?a (nlit XRN 5 1000)] => destruct (nltb XRN a (nlit XRN 5 1000)) end;
        rewrite ?Bool.orb_true_r, ?Bool.orb_false_r; reflexivity.
    - rewrite Bool.orb_false_r. reflexivity.
  Qed.
  Lemma lut_zeros : forall d (table : list XRN), is_float d = false -> Forall (fun v => exists x, v = Fin x /\ Rabs x < 1) table ->
    lut_values_t np d table = map (fun _ => Fin 0) table.
  Proof.
    intros d table D F. unfold lut_values_t. induction F as [|v l (x & -> & H) _ IH]; [reflexivity|]. cbn [map].
    now rewrite (store_small d x D H), IH.
  Qed.
  Lemma radiance2tb_integers : forall c (r : tv XRN), integers r -> (Rabs c < 1000000)%R ->
    radiance2tb_t np (Fin c : XRN) r = Ok {| ty := Np Float64; val := NaN |}.
  Proof.
    intros c r I H. unfold radiance2tb_t. apply (rad2temp_integers _ r (c * (1 / 1000000))); auto.
    rewrite Rabs_mult, (Rabs_pos_eq (1 / 1000000)) by lra. lra.
  Qed.
  Lemma rayleigh_zero : forall interp table (sunz red : tv XRN), integers red -> (exists x, val red = Fin x) ->
    Forall (fun v => exists x, v = Fin x /\ (Rabs x < 1)%R) table -> interp (map (fun _ => Fin 0) table) = Fin 0 ->
    exists s v, rayleigh_t np interp (Some table) sunz (Some red) = Ok (s, v) /\ val v = Fin 0.
  Proof.
    intros interp table sunz [tr r] (d & E & D) (x & V) F Z. cbn in E, V. subst. unfold rayleigh_t; cbn [ty].
    assert (L : interp (lut_values_t np d table) = Fin 0) by (rewrite (lut_zeros d table D F); exact Z). rewrite L.
    assert (S0 : store np d (Fin 0 : XRN) = Fin 0) by (apply store_small; auto; rewrite Rabs_R0; lra).
    rewrite S0.
    assert (M0 : nmul XRN (Fin 0) (nlit XRN 100 1) = Fin 0) by (cbn; f_equal; lra).
    rewrite M0, S0. eexists; eexists; split; [reflexivity|].
    set (res := {| ty := Np d; val := Fin 0 |}).
    set (m := mul np (sub np (pyint 1) _) res).
    assert (W : m = {| ty := Np Float64; val := Fin 0 |}).
    { unfold m. assert (exists z, sub np {| ty := Np d; val := Fin x : XRN |} (pyint 20) = {| ty := Np d; val := Fin (IZR z) |}) as [z Hz].
      { destruct (store_int d (nsub XRN (store np d (Fin x)) (store np d (nZ 20))) D) as [z Hz]. exists z. rewrite <- Hz. destruct d; reflexivity. }
      rewrite Hz. unfold res. destruct d; try discriminate;
        unfold mul, sub, div, arith; cbn [ty val pyint common quotient promote is_float put store]; f_equal;
        unfold nZ; cbn; unfold xdiv; destruct (Req_EM_T _ _); cbn; f_equal; try lra. }
    rewrite W. set (c := nltb XRN _ _). assert (Wh : where_t np c res {| ty := Np Float64; val := Fin 0 |} = {| ty := Np Float64; val := Fin 0 |})
      by (unfold res, where_t; destruct c, d; try discriminate; reflexivity).
    rewrite Wh. unfold clip_t; cbn [ty val pyint common put store is_float]. unfold nclip, nmin, nmax, nZ. cbn. unfold xlit.
    repeat match goal with |- context[Rltb ?a ?b] => unfold Rltb at 1; destruct (Rlt_dec a b); try lra; cbn end; try reflexivity; f_equal; lra.
  Qed.
End Ints.

Lemma reflectance_ok : forall (N : Num) (np : numpy N) flux integral thr lim (rad11 rad3x sunz nir therm : tv N) co2 dn dt,
  floats dn nir -> floats dt therm -> floats_or_item dt rad11 -> floats_or_item dn rad3x ->
  exists v, reflectance_t np flux integral thr lim rad11 rad3x sunz nir therm co2 = Ok v /\ ty v = Np (wider dn dt).
Proof.
  intros N np flux integral thr lim rad11 rad3x sunz nir therm co2 dn dt A B C D.
  destruct (reflectance_defined np flux integral thr lim rad11 rad3x sunz nir therm co2 dn dt A B) as [v H].
  exists v. split; auto. eapply reflectance_type; eauto.
Qed.
Lemma wn_keeps_not : ~ forall (N : Num) (np : numpy N) (w r : tv N) d, floats d r -> ty (wn_rad2temp_t np w r) = Np d.
Proof.
  intros H. specialize (H XRN real_np {| ty := Np Float64; val := Fin 1 |} {| ty := Np Float32; val := Fin 1 |} Float32).
  discriminate H. split; reflexivity.
Qed.
Lemma limb_differ : ~ forall (N : Num) (np : numpy N) (t z : tv N) d dz v, floats d t -> floats dz z ->
  masked_pixel_t np t z = Ok v -> ty (dask_pixel_t np t z) = ty v.
Proof.
  intros H. set (t := {| ty := Np Float32; val := Fin 240 : XRN |}). set (z := {| ty := Np Float64; val := Fin 50 : XRN |}).
  assert (A : floats Float32 t) by (split; reflexivity). assert (B : floats Float64 z) by (split; reflexivity).
  destruct (limb_types real_np t z Float32 Float64 A B) as (T & v & V & W).
  specialize (H XRN real_np t z Float32 Float64 v A B V). rewrite T, W in H. discriminate.
Qed.
Lemma integer_value_differs : ~ forall (np : numpy XRN) (w r r' : tv XRN), val r = val r' -> integers r -> ty r' = Np Float64 ->
  ty w = PyFloat -> exists t t', rad2temp_t np w r = Ok t /\ rad2temp_t np w r' = Ok t' /\ val t = val t'.
Proof.
  intros H. specialize (H real_np {| ty := PyFloat; val := Fin (11 / 1000000) |} {| ty := Np Int32; val := Fin 9573178 |} {| ty := Np Float64; val := Fin 9573178 |}).
  destruct H as (t & t' & A & B & C); auto; [exists Int32; split; reflexivity|].
  rewrite (rad2temp_integers real_np _ _ (11 / 1000000)%R) in A; auto; [|exists Int32; split; reflexivity|rewrite Rabs_pos_eq; lra].
  rewrite rad2temp_double in B by reflexivity. injection A as <-. injection B as <-. cbn [val] in C.
  pose proof (rad2temp_raw (11 / 1000000) 9573178 ltac:(lra) ltac:(lra)) as Q. apply (f_equal (fun v : XR => match v with NaN => true | _ => false end)) in C. pose proof (eq_trans C (f_equal (fun v : XR => match v with NaN => true | _ => false end) Q)). discriminate.
Qed.
Lemma wn_integers_fine : forall (N : Num) (np : numpy N) (w r r' : tv N), ty w = PyFloat \/ ty w = Np Float64 ->
  integers r -> ty r' = Np Float64 -> val r = val r' -> wn_rad2temp_t np w r = wn_rad2temp_t np w r'.
Proof.
  intros N np w r r' W (d & E & D) E' V. rewrite !wn_rad2temp_double; auto; [now rewrite V| |].
  - exists Float64; split; [auto|discriminate].
  - exists d; split; auto. destruct d; discriminate.
Qed.
Lemma all_doubles : forall (N : Num) (np : numpy N),
  (forall w r : tv N, ty r = Np Float64 -> rad2temp_t np w r = Ok {| ty := Np Float64; val := rad2temp (val w) (val r) |}) /\
  (forall w r : tv N, (ty w = PyFloat \/ ty w = Np Float64) -> (exists d, ty r = Np d /\ d <> Float32) ->
     wn_rad2temp_t np w r = {| ty := Np Float64; val := wn_rad2temp (val w) (val r) |}) /\
  (forall wl (w t : tv N), ty w = Np Float64 -> (exists d, ty t = Np d /\ d <> Float32) ->
     planck_t np wl w t = {| ty := Np Float64; val := planck1 wl (val w) (val t) |}) /\
  (forall oob scale lut (t : N),
     (r <- lut_radiance_t np oob scale lut false {| ty := Np Float64; val := t |} ;; Ok [val r]) = lut_lookup oob scale lut [t]) /\
  (forall c (x : N),
     (l <- seviri_radiance2tb c [x] ;; Ok (map (fun v => {| ty := Np Float64; val := v |}) l)) =
       (t <- sev_radiance2tb_t np c {| ty := Np Float64; val := x |} ;; Ok [t]) /\
     (l <- seviri_tb2radiance c [x] false true ;; Ok (map (fun v => {| ty := Np Float64; val := v |}) l)) =
       (t <- sev_tb2radiance_t np c {| ty := Np Float64; val := x |} ;; Ok [t])) /\
  (forall t z : N, val (dask_pixel_t np {| ty := Np Float64; val := t |} {| ty := Np Float64; val := z |}) = M_AtmIR.dask_pixel t z) /\
  (forall z r a b c : N, val (reduce_t np {| ty := Np Float64; val := z |} {| ty := Np Float64; val := r |} a b c) =
     nmul N r (M_Rayleigh.zenith_factor z a b c)).
Proof.
  intros N np. split; [exact (rad2temp_double np)|]. split; [exact (wn_rad2temp_double np)|]. split; [exact (planck_double np)|].
  split; [exact (lut_double np)|]. split; [exact (seviri_double np)|]. split; [exact (limb_double np)|exact (reduce_double np)].
Qed.
