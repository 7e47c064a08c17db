(** Lemmas: masked and lazy temperatures in the reflectance (C107). *)
From Coq Require Import Reals Lra ZArith String List Bool Arith Lia.
From Verif Require Import Base NumSig XR M_Tables M_Utils M_Rsr M_RadTb M_Solar M_World M_Nir S_Nir P_Arr P_RadTb P_Nir P_Nir2 M_NirKinds S_NirKinds Samples3.
Import ListNotations.
Local Open Scope nat_scope.
Local Close Scope R_scope.

Section Kinds.
  Context {N : Num}.

  Lemma kinds_of dask (E : nir_env N) row c sun nir therm lut r :
    reflectance_of_kinds dask E row c sun nir therm lut = Ok r ->
    (is_masked_result r <-> numpy_masked nir \/ numpy_masked therm) /\
    (is_lazy_result r <-> dask = true /\ ~ (numpy_masked nir \/ numpy_masked therm) /\ (k_lazy nir = true \/ k_lazy therm = true)).
  Proof.
    intros H. unfold reflectance_of_kinds in H. destruct (rsr_data _); [discriminate|]. cbv zeta in H.
    destruct (negb (shape_eqb _ _)); [discriminate|].
    destruct (kind_tb2rad E row _ therm _) as [rad11|]; [|discriminate]. destruct (kind_tb2rad E row _ nir _) as [rad3x|]; [|discriminate].
    cbn [bind] in H. destruct (calculate_r3x _ _ _ _ _ _ _ _ _) as [a|]; [|discriminate]. cbn [bind] in H. injection H as <-.
    assert (Q : forall b : karg N, has_mask b = true <-> numpy_masked b).
    { intros b. unfold has_mask, numpy_masked. destruct (k_lazy b), (k_mask b); cbn; split; try discriminate; try (intros [A B]; congruence); auto.
      intros _. split; [reflexivity|discriminate]. }
    rewrite <- !Q. destruct (has_mask nir) eqn:Mn; cbn [orb].
    { split; split; intros X; auto.
      - unfold is_masked_result, masked_invalid. eauto.
      - destruct X as [x Hx]. discriminate.
      - destruct X as (_ & A & _). exfalso. auto. }
    destruct (has_mask therm) eqn:Mt.
    { split; split; intros X; auto.
      - unfold is_masked_result, masked_invalid. eauto.
      - destruct X as [x Hx]. discriminate.
      - destruct X as (_ & A & _). exfalso. auto. }
    unfold has_compute, is_masked_result, is_lazy_result. split; split.
    - intros (x & y & Hx). destruct (dask && _)%bool; discriminate.
    - intros [A|A]; discriminate.
    - intros (x & Hx). destruct (dask && negb (negb (k_lazy nir || k_lazy therm)))%bool eqn:B; [|discriminate].
      apply andb_true_iff in B. destruct B as [B1 B2]. rewrite negb_involutive in B2. apply orb_true_iff in B2.
      split; [exact B1|]. split; [intros [A|A]; discriminate|exact B2].
    - intros (-> & _ & B). rewrite negb_involutive. apply orb_true_iff in B. rewrite B. cbn. eauto.
  Qed.

  Lemma masked_flags dask (E : nir_env N) row c sun nir therm lut r a m :
    reflectance_of_kinds dask E row c sun nir therm lut = Ok r -> r = RMasked a m ->
    length m = length (a_data a) /\ forall k x, nth_error (a_data a) k = Some x -> nth_error m k = Some (nisnan N x || nisinf N x).
  Proof.
    intros H ->. unfold reflectance_of_kinds in H. destruct (rsr_data _); [discriminate|]. cbv zeta in H.
    destruct (negb (shape_eqb _ _)); [discriminate|].
    destruct (kind_tb2rad E row _ therm _) as [rad11|]; [|discriminate]. destruct (kind_tb2rad E row _ nir _) as [rad3x|]; [|discriminate].
    cbn [bind] in H. destruct (calculate_r3x _ _ _ _ _ _ _ _ _) as [b|]; [|discriminate]. cbn [bind] in H.
    destruct (has_mask nir || has_mask therm); [|destruct (dask && _); discriminate]. injection H as <- <-.
    split; [now rewrite map_length|]. intros k x Hx. now rewrite nth_error_map, Hx.
  Qed.

  (** the radiances under and beside the mask *)
  Lemma combine_false (l : list N) : combine (map (fun _ => false) l) l = map (fun t => (false, t)) l.
  Proof. induction l; cbn; congruence. Qed.
  Lemma combine_nth {A B} (a : list A) : forall (b : list B) k x y, nth_error (combine a b) k = Some (x, y) <-> nth_error a k = Some x /\ nth_error b k = Some y.
  Proof.
    induction a as [|a0 a IH]; intros [|b0 b] [|k] x y; cbn; try (split; [discriminate|intros [P Q]; discriminate]).
    - split; [now intros [= -> ->]|now intros [[= ->] [= ->]]].
    - apply IH.
  Qed.

  Lemma idx_in {A} (l : list A) z : (0 <= z <= Z.of_nat (length l) - 1)%Z -> exists v, idx l (Z.to_nat z) = Ok v /\ In v l.
  Proof.
    intros H. unfold idx. destruct (nth_error l (Z.to_nat z)) as [v|] eqn:E.
    - exists v. split; [reflexivity|]. eapply nth_error_In; eauto.
    - apply nth_error_None in E. lia.
  Qed.

  Lemma masked_lookup_ok (row oob : N -> Z) scale lut mask tbs r : length mask = length tbs ->
    lut_lookup oob scale lut tbs = Ok r ->
    exists r', masked_lookup row oob scale lut mask tbs = Ok r' /\ length r' = length tbs /\
      (forall k, nth_error mask k = Some false -> nth_error r' k = nth_error r k) /\ Forall (fun v => In v (lut_radiance lut)) r'.
  Proof.
    intros HL H. unfold lut_lookup in H. unfold masked_lookup. destruct (lut_start lut scale) as [start|]; [|discriminate]. cbn [bind] in *. cbv zeta in *.
    set (last := (Z.of_nat (length (lut_radiance lut)) - 1)%Z) in *. destruct (last >? 32767)%Z; [discriminate|].
    revert mask r HL H. induction tbs as [|t tbs IH]; intros mask r HL H.
    - destruct mask; [|discriminate]. cbn in *. injection H as <-. exists []. repeat split; auto.
    - destruct mask as [|m mask]; [discriminate|]. cbn [length] in HL. cbn [mapM combine fst snd] in *.
      set (i0 := lut_index oob scale start last t) in *.
      destruct (i0 <? 0)%Z eqn:Ei; [discriminate|]. destruct (idx (lut_radiance lut) (Z.to_nat i0)) as [v|] eqn:Ev; [|discriminate]. cbn [bind] in H.
      match type of H with bind ?m _ = _ => destruct m as [vs|] eqn:Evs end; [|discriminate]. cbn [bind] in H. injection H as <-.
      destruct (IH mask vs ltac:(lia) eq_refl) as (r' & E' & L' & P' & F'). rewrite E'.
      assert (Hlast : (0 <= last)%Z).
      { unfold idx in Ev. destruct (nth_error (lut_radiance lut) _) eqn:En; [|discriminate]. assert (Z.to_nat i0 < length (lut_radiance lut))%nat by (apply nth_error_Some; congruence). unfold last. lia. }
      assert (Hi : (0 <= i0 <= last)%Z) by (unfold i0, lut_index, clipZ; lia).
      assert (Hm : (0 <= masked_row row oob scale start last m t <= last)%Z).
      { unfold masked_row. destruct m; [unfold clipZ; lia|exact Hi]. }
      destruct (masked_row row oob scale start last m t <? 0)%Z eqn:Em; [apply Z.ltb_lt in Em; lia|].
      destruct (idx_in (lut_radiance lut) _ Hm) as (v' & Ev' & Iv'). rewrite Ev'. cbn [bind].
      exists (v' :: r'). split; [reflexivity|]. split; [cbn; congruence|]. split; [|now constructor].
      intros [|k] Hk; cbn in *.
      + injection Hk as ->. cbn [masked_row] in Ev'. fold i0 in Ev'. congruence.
      + auto.
  Qed.

  Lemma kind_mask_length (a : karg N) : mask_fits a -> length (kind_mask a) = length (a_data (get_as_array (k_arg a))).
  Proof. intros H. unfold kind_mask. destruct (k_mask a) as [m|] eqn:E; [now apply H|now rewrite map_length]. Qed.
  Lemma kind_mask_false (a : karg N) k : mask_fits a -> ~ hidden k a -> (k < length (a_data (get_as_array (k_arg a))))%nat ->
    nth_error (kind_mask a) k = Some false.
  Proof.
    intros HF Hh Hk. rewrite <- (kind_mask_length a HF) in Hk. apply nth_error_Some in Hk.
    destruct (nth_error (kind_mask a) k) as [[|]|] eqn:En; [|reflexivity|contradiction].
    exfalso. unfold kind_mask in En. destruct (k_mask a) as [m|] eqn:Em.
    - apply Hh. exists m. auto.
    - rewrite nth_error_map in En. destruct (nth_error _ k); discriminate.
  Qed.

  Lemma kind_tb2rad_ok (E : nir_env N) row c s (a : karg N) t rp : is_image s (get_as_array (k_arg a)) -> mask_fits a ->
    tb2rad E c (get_as_array (k_arg a)) (Some t) = Ok rp ->
    exists r, kind_tb2rad E row c a t = Ok r /\ fits s r /\ (forall k, (k < size s)%nat -> ~ hidden k a -> pix k r = pix k rp) /\
      (forall k v, (k < size s)%nat -> pix k r = Some v -> In v (map (cast E (a_dtype (get_as_array (k_arg a)))) (lut_radiance t))).
  Proof.
    intros [H1 H2] HF H. cbn [tb2rad] in H. unfold kind_tb2rad. cbv zeta in *.
    set (b := get_as_array (k_arg a)) in *. set (t' := {| lut_tb := _ |}) in *. cbn [tb2radiance] in H.
    destruct (lut_lookup (nx_oob16 E) (cv_tb_scale c) t' (a_data b)) as [l|] eqn:El; [|discriminate]. cbn [bind] in H. injection H as <-.
    destruct (masked_lookup_ok row _ _ _ (kind_mask a) _ _ (kind_mask_length a HF) El) as (r' & E' & L' & P' & F').
    change (get_as_array (k_arg a)) with b in E', L'. rewrite E'. cbn [bind]. eexists. split; [reflexivity|].
    assert (Ll : length l = length (a_data b)) by (eapply (tb2radiance_length _ c _ (Some t') true); exact El).
    split; [apply item_fits; split; [exact H1|cbn; lia]|]. split.
    - intros k Hk Hh. rewrite !pix_item. assert (Hk' : (k < length (a_data b))%nat) by lia.
      pose proof (P' k (kind_mask_false a k HF Hh Hk')) as Q.
      assert (exists v, nth_error l k = Some v) as [v Hv].
      { destruct (nth_error l k) as [v|] eqn:Ev; [eauto|]. apply nth_error_None in Ev. lia. }
      rewrite Hv in Q. transitivity (Some v); [|symmetry]; apply pix_nth; cbn; try lia; auto.
    - intros k v Hk Hp. rewrite pix_item in Hp. apply pix_nth in Hp; [|cbn; lia]. cbn in Hp.
      rewrite Forall_forall in F'. apply (F' v). eapply nth_error_In; eauto.
  Qed.

  Lemma kinds_pixels dask (E : nir_env N) row c s sun nir therm lut st st' a :
    reflectance_from_tbs E c sun (k_arg nir) (k_arg therm) None (option_map Some lut) st = (st', Ok a) ->
    one_image s sun (k_arg nir) (k_arg therm) None (option_map Some lut) -> mask_fits nir -> mask_fits therm ->
    exists r, reflectance_of_kinds dask E row c sun nir therm lut = Ok r /\ fits s (result_values r) /\
      (forall k, (k < size s)%nat -> ~ hidden k nir -> ~ hidden k therm -> pix k (result_values r) = pix k a) /\
      forall k, (k < size s)%nat -> exists z tn L T,
        pix k (get_as_array sun) = Some z /\ pix k (get_as_array (k_arg nir)) = Some tn /\
        In L (map (cast E (a_dtype (get_as_array (k_arg nir)))) (lut_radiance (match lut with None => cl_lut c | Some l => l end))) /\
        In T (map (cast E (a_dtype (get_as_array (k_arg therm)))) (lut_radiance (match lut with None => cl_lut c | Some l => l end))) /\
        pix k (result_values r) = Some (pixel_raw (cl_masking_limit c) (cast E (a_dtype (get_as_array (k_arg therm))) (cv_rsr_integral (cl_conv c)))
                          (cast E (a_dtype (get_as_array (k_arg nir))) (solar_raw c z)) z tn L T
                          (cast E (a_dtype (get_as_array (k_arg nir))) (nlit N 1 1))).
  Proof.
    intros H Him HMn HMt. set (tbl := match lut with None => cl_lut c | Some l => l end).
    assert (Ht : table_of c (option_map Some lut) = Some tbl) by (destruct lut; reflexivity).
    destruct (reflectance_pixels _ _ _ _ _ _ _ _ _ _ _ H Him) as (rad11 & rad3x & solar & corr & E11 & E3 & _ & F11 & F3 & Fa & Fc & P).
    rewrite Ht in E11, E3. destruct Him as (In_ & It & Iz & _ & _).
    destruct (kind_tb2rad_ok E row _ s therm tbl rad11 It HMt E11) as (q11 & K11 & G11 & S11 & J11).
    destruct (kind_tb2rad_ok E row _ s nir tbl rad3x In_ HMn E3) as (q3 & K3 & G3 & S3 & J3).
    assert (Fn : fits s (get_as_array (k_arg nir))) by (left; exact In_).
    set (dn := a_dtype (get_as_array (k_arg nir))) in *. set (sol := solar_radiance E c (get_as_array sun) dn).
    set (cor := astype E dn (scalar (nlit N 1 1))).
    assert (Fs : fits s sol) by (apply fits_astype, fits_map; exact Iz).
    assert (Fk : fits s cor) by (apply fits_astype; right; eexists; split; [reflexivity|auto]).
    destruct (r3x_pixels E c s q11 q3 cor sol (get_as_array (k_arg therm)) (get_as_array sun) (get_as_array (k_arg nir)) G11 G3 Fk Fs Iz Fn) as (r0 & Er & Fr & Pr).
    assert (V : exists r, reflectance_of_kinds dask E row c sun nir therm lut = Ok r /\ result_values r = r0).
    { unfold reflectance_of_kinds. unfold reflectance_from_tbs in H. destruct (rsr_data _) as [|d0 ds]; [discriminate|]. cbv zeta.
      replace (shape_eqb (a_shape (get_as_array (k_arg therm))) (a_shape (get_as_array (k_arg nir)))) with true
        by (symmetry; apply shape_eqb_iff; destruct In_, It; congruence).
      cbn [negb]. fold tbl. rewrite K11. cbn [bind]. rewrite K3. cbn [bind]. fold dn sol cor. rewrite Er. cbn [bind].
      eexists. split; [reflexivity|]. destruct (has_mask nir || has_mask therm); [reflexivity|]. destruct (dask && _)%bool; reflexivity. }
    destruct V as (r & Ek & Ev). exists r. rewrite Ev. split; [exact Ek|]. split; [exact Fr|].
    assert (PX : forall k, (k < size s)%nat -> exists z tn L T,
      pix k (get_as_array sun) = Some z /\ pix k (get_as_array (k_arg nir)) = Some tn /\ pix k q3 = Some L /\ pix k q11 = Some T /\
      pix k r0 = Some (pixel_raw (cl_masking_limit c) (cast E (a_dtype (get_as_array (k_arg therm))) (cv_rsr_integral (cl_conv c)))
                          (cast E dn (solar_raw c z)) z tn L T (cast E dn (nlit N 1 1)))).
    { intros k Hk. destruct (P k Hk) as (z & tn & _ & _ & _ & Qz & Qn & _).
      destruct (pix_some s _ k G3 Hk) as [L PL]. destruct (pix_some s _ k G11 Hk) as [T PT].
      exists z, tn, L, T. repeat (split; [assumption|]). apply Pr; auto.
      unfold sol, solar_radiance. rewrite pix_astype, pix_map, Qz. reflexivity. }
    split.
    - intros k Hk Hn Hth. destruct (PX k Hk) as (z & tn & L & T & Qz & Qn & QL & QT & QR).
      destruct (P k Hk) as (z' & tn' & L' & T' & F' & Qz' & Qn' & QL' & QT' & QF' & _ & _ & QR').
      rewrite (S3 k Hk Hn) in QL. rewrite (S11 k Hk Hth) in QT. cbn in QF'. rewrite QR, QR'. unfold factor_raw in QF'. congruence.
    - intros k Hk. destruct (PX k Hk) as (z & tn & L & T & Qz & Qn & QL & QT & QR). exists z, tn, L, T.
      split; [exact Qz|]. split; [exact Qn|]. split; [eapply J3; eauto|]. split; [eapply J11; eauto|exact QR].
  Qed.
End Kinds.

Lemma mapM_map_in {A B C} (f : B -> res C) (g : A -> B) l : mapM f (map g l) = mapM (fun x => f (g x)) l.
Proof. induction l as [|a l IH]; cbn [map mapM]; [reflexivity|]. now rewrite IH. Qed.
Lemma kind_tb2rad_plain (N : Num) (E : nir_env N) row c (a : karg N) t : k_mask a = None ->
  kind_tb2rad E row c a t = tb2rad E c (get_as_array (k_arg a)) (Some t).
Proof.
  intros H. unfold kind_tb2rad, kind_mask. rewrite H. cbn [tb2rad tb2radiance]. unfold masked_lookup, lut_lookup.
  destruct (lut_start _ _) as [start|]; [|reflexivity]. cbn [bind]. cbv zeta. destruct (_ >? 32767)%Z; [reflexivity|].
  rewrite combine_false, mapM_map_in. reflexivity.
Qed.
Lemma kinds_plain : forall (N : Num) dask (E : nir_env N) row c sun nir therm lut st, k_mask nir = None -> k_mask therm = None ->
  snd (reflectance_from_tbs E c sun (k_arg nir) (k_arg therm) None (option_map Some lut) st) =
    (r <- reflectance_of_kinds dask E row c sun nir therm lut ;; Ok (result_values r)).
Proof.
  intros N dask E row c sun nir therm lut st Hn Ht. unfold reflectance_from_tbs, reflectance_of_kinds.
  destruct (rsr_data _); [reflexivity|]. cbv zeta. destruct (negb (shape_eqb _ _)); [reflexivity|].
  replace (match option_map Some lut with None => Some (cl_lut c) | Some l => l end) with (Some (match lut with None => cl_lut c | Some l => l end)) by (destruct lut; reflexivity).
  rewrite !kind_tb2rad_plain by assumption. set (tbl := match lut with None => _ | Some _ => _ end).
  unfold mbind, mlift, mset.
  destruct (tb2rad E (cl_conv c) (get_as_array (k_arg therm)) (Some tbl)) as [rad11|]; [|reflexivity].
  destruct (tb2rad E (cl_conv c) (get_as_array (k_arg nir)) (Some tbl)) as [rad3x|]; [|reflexivity]. cbn [bind ns_correction with_corr with_solar with_rad3x with_rad11].
  destruct (calculate_r3x _ _ _ _ _ _ _ _ _) as [r|]; [|reflexivity]. cbn [bind snd].
  destruct (_ || _); [reflexivity|]. destruct (_ && _); reflexivity.
Qed.

Lemma kinds_values : forall (N : Num) dask (E : nir_env N) row c s sun nir therm lut st st' a,
  reflectance_from_tbs E c sun (k_arg nir) (k_arg therm) None (option_map Some lut) st = (st', Ok a) ->
  one_image s sun (k_arg nir) (k_arg therm) None (option_map Some lut) -> mask_fits nir -> mask_fits therm ->
  exists r, reflectance_of_kinds dask E row c sun nir therm lut = Ok r /\
    forall k, (k < size s)%nat -> ~ hidden k nir -> ~ hidden k therm -> pix k (result_values r) = pix k a.
Proof.
  intros N dask E row c s sun nir therm lut st st' a H Him Hn Ht.
  destruct (kinds_pixels dask E row c s sun nir therm lut st st' a H Him Hn Ht) as (r & A & _ & B & _). eauto.
Qed.

Local Open Scope R_scope.
Lemma mask_lost : forall dask (E : nir_env XRN) row c s sun nir therm lut st st' a I flux thr lim,
  reflectance_from_tbs E c sun (k_arg nir) (k_arg therm) None (option_map Some lut) st = (st', Ok a) ->
  one_image s sun (k_arg nir) (k_arg therm) None (option_map Some lut) -> floats (k_arg nir) (k_arg therm) -> mask_fits nir -> mask_fits therm ->
  settings c I flux thr lim ->
  exists r, reflectance_of_kinds dask E row c sun nir therm lut = Ok r /\
    forall k z tn, (k < size s)%nat -> pix k (get_as_array sun) = Some (Fin z) -> pix k (get_as_array (k_arg nir)) = Some tn -> tn <> NaN ->
      ~ sun_out lim z ->
      (forall v, In v (lut_radiance (match lut with None => cl_lut c | Some l => l end)) -> exists x, v = Fin x /\ 5 / 1000 <= solar_term flux thr z - x * I) ->
      (exists x, pix k (result_values r) = Some (Fin x)) /\ ~ masked_out k r.
Proof.
  intros dask E row c s sun nir therm lut st st' a I flux thr lim H Him [Fn Ft] HMn HMt Hs.
  destruct (kinds_pixels dask E row c s sun nir therm lut st st' a H Him HMn HMt) as (r & Ek & Fr & _ & P).
  exists r. split; [exact Ek|]. intros k z tn Hk Pz Pn Hnan Hsun Htab.
  destruct (P k Hk) as (z' & tn' & L & T & Qz & Qn & QL & QT & QR).
  rewrite Pz in Qz. injection Qz as <-. rewrite Pn in Qn. injection Qn as <-.
  rewrite Fn, Ft in *. cbn [cast] in *. rewrite map_id in QL, QT.
  destruct (Htab _ QL) as (l & -> & _). destruct (Htab _ QT) as (t & -> & Hd).
  rewrite (solar_fin c I flux thr lim z Hs) in QR. destruct Hs as (HI & _ & _ & Hl). rewrite HI, Hl in QR.
  change (nlit XRN 1 1) with (Fin (IZR 1 / IZR (Z.pos 1))) in QR. rewrite pixel_fin in QR. cbv zeta in QR.
  destruct (out_of_reach lim z tn _) eqn:Eo.
  { exfalso. apply out_iff in Eo. destruct Eo as [A|[A|A]]; [contradiction| |contradiction]. replace (t * I * (1 / 1)) with (t * I) in A by field. lra. }
  split; [eexists; exact QR|]. intros (b & m & Er & Hm). subst r. cbn [result_values] in QR, Fr.
  destruct (masked_flags _ _ _ _ _ _ _ _ _ _ _ Ek eq_refl) as [_ Q].
  assert (Hb : (k < length (a_data b))%nat).
  { destruct Fr as [[_ Hb]|(x & Hx & Hsh)]; [lia|]. destruct Him as ((_ & Hi) & _). rewrite Hx. cbn.
    assert (nth_error m k <> None) as Hne by (rewrite Hm; discriminate). apply nth_error_Some in Hne.
    destruct (masked_flags _ _ _ _ _ _ _ _ _ _ _ Ek eq_refl) as [Lm _]. rewrite Lm, Hx in Hne. exact Hne. }
  apply pix_nth in QR; [|exact Hb]. specialize (Q k _ QR). rewrite Hm in Q. cbn in Q. discriminate.
Qed.

Lemma sample_plain : exists st' a, reflectance_from_tbs nir_E (nir_calc (2 * PI) (Some 88) nir_lut) nir_sun nir_tb nir_therm None (Some (Some nir_lut)) fresh_state = (st', Ok a) /\
  pix 2 a = Some NaN.
Proof.
  destruct (nir_call (2 * PI) (Some 88) nir_lut fresh_state) as (st' & r & H). exists st', r. split; [exact H|].
  pose proof (masked_exactly _ _ _ _ _ _ _ _ _ _ _ _ _ _ _ 2%nat (-10) _ _ _ 1 H nir_image nir_floats (nir_settings _ _ _) ltac:(cbn; lia)
    (nir_pixel (2 * PI) (Some 88) nir_lut 2 _ _ _ _ eq_refl)) as (v & P & Q & _).
  rewrite P. f_equal. apply Q. right. right. cbn. lra.
Qed.
Lemma sample_table v : In v (lut_radiance nir_lut) -> exists x, v = Fin x /\ 5 / 1000 <= solar_term (2 * PI) (Some 85) 60 - x * (15 / 100000000).
Proof.
  pose proof PI_RGT_0. rewrite nir_sun60. replace (2 * PI / 2 / PI) with 1 by (field; lra).
  cbn. intros [<-|[<-|[<-|[]]]]; eexists; (split; [reflexivity|lra]).
Qed.

Lemma masked_case : forall dask row, exists r x,
  reflectance_of_kinds dask nir_E row (nir_calc (2 * PI) (Some 88) nir_lut) nir_sun (masked_nir nir_tb [true; true; false; false]) (masked_nir nir_therm [true; false; false; false]) (Some nir_lut) = Ok r /\
  hidden 0 (masked_nir nir_tb [true; true; false; false]) /\ pix 0 (result_values r) = Some (Fin x) /\ ~ masked_out 0 r /\
  ~ hidden 2 (masked_nir nir_tb [true; true; false; false]) /\ ~ hidden 2 (masked_nir nir_therm [true; false; false; false]) /\ masked_out 2 r.
Proof.
  intros dask row. destruct sample_plain as (st' & a & H & H2).
  set (nir := masked_nir nir_tb _). set (therm := masked_nir nir_therm _).
  assert (Mn : mask_fits nir) by (intros m [= <-]; reflexivity). assert (Mt : mask_fits therm) by (intros m [= <-]; reflexivity).
  destruct (mask_lost dask nir_E row (nir_calc (2 * PI) (Some 88) nir_lut) [4%nat] nir_sun nir therm (Some nir_lut) fresh_state st' a
    _ _ _ _ H nir_image nir_floats Mn Mt (nir_settings _ _ _)) as (r & Er & P).
  destruct (kinds_values XRN dask nir_E row (nir_calc (2 * PI) (Some 88) nir_lut) [4%nat] nir_sun nir therm (Some nir_lut) fresh_state st' a H nir_image Mn Mt) as (r1 & Er1 & V).
  rewrite Er in Er1. injection Er1 as <-.
  destruct (P 0%nat 60 (Fin (1502 / 10)) ltac:(cbn; lia) eq_refl eq_refl ltac:(discriminate)) as [[x Hx] Hm]; [cbn; lra|exact sample_table|].
  exists r, x. split; [exact Er|]. split; [eexists; split; reflexivity|]. split; [exact Hx|]. split; [exact Hm|].
  assert (N1 : ~ hidden 2 nir) by (intros (m & [= <-] & Q); discriminate).
  assert (N2 : ~ hidden 2 therm) by (intros (m & [= <-] & Q); discriminate).
  split; [exact N1|]. split; [exact N2|].
  destruct (kinds_of _ _ _ _ _ _ _ _ _ Er) as [[_ K] _]. destruct K as (b & m & ->). { left. split; [reflexivity|discriminate]. }
  exists b, m. split; [reflexivity|]. destruct (masked_flags _ _ _ _ _ _ _ _ _ _ _ Er eq_refl) as [_ F].
  specialize (V 2%nat ltac:(cbn; lia) N1 N2). rewrite H2 in V. cbn [result_values] in V.
  destruct (kinds_pixels dask nir_E row (nir_calc (2 * PI) (Some 88) nir_lut) [4%nat] nir_sun nir therm (Some nir_lut) fresh_state st' a H nir_image Mn Mt) as (r2 & Er2 & Fr & _).
  rewrite Er in Er2. injection Er2 as <-. cbn [result_values] in *.
  assert (Hv : nth_error (a_data b) 2 = Some NaN).
  { destruct Fr as [[_ Hl]|(y & Hy & _)].
    - apply pix_nth; [rewrite Hl; cbn; lia|exact V].
    - exfalso. unfold pix in Hx, V. rewrite Hy in Hx, V. congruence. }
  apply (F 2%nat _ Hv).
Qed.
Lemma mask_kept_fails : forall dask row, exists (E : nir_env XRN) c sun nir therm lut r k,
  reflectance_of_kinds dask E row c sun nir therm lut = Ok r /\ is_masked_result r /\ numpy_masked nir /\ mask_fits nir /\
  hidden k nir /\ hidden k therm /\ (k < List.length (a_data (result_values r)))%nat /\ ~ masked_out k r.
Proof.
  intros dask row. destruct (masked_case dask row) as (r & x & Er & Hh & Hx & Hm & _).
  exists nir_E, (nir_calc (2 * PI) (Some 88) nir_lut), nir_sun, (masked_nir nir_tb [true; true; false; false]), (masked_nir nir_therm [true; false; false; false]), (Some nir_lut), r, 0%nat.
  split; [exact Er|]. assert (Nm : numpy_masked (masked_nir nir_tb [true; true; false; false])) by (split; [reflexivity|discriminate]).
  split; [apply (kinds_of _ _ _ _ _ _ _ _ _ Er); auto|]. split; [exact Nm|]. split; [intros m [= <-]; reflexivity|].
  split; [exact Hh|]. split; [eexists; split; reflexivity|]. split; [|exact Hm].
  unfold pix in Hx. destruct (a_data (result_values r)); [discriminate|cbn; lia].
Qed.
Lemma dask_only (E : nir_env XRN) row c sun nir therm lut : reflectance_of_kinds false E row c sun nir therm lut =
  match reflectance_of_kinds true E row c sun nir therm lut with Ok (RLazy a) => Ok (RArray a) | x => x end.
Proof.
  unfold reflectance_of_kinds. destruct (rsr_data _); [reflexivity|]. cbv zeta. destruct (negb (shape_eqb _ _)); [reflexivity|].
  destruct (kind_tb2rad E row _ therm _); [|reflexivity]. destruct (kind_tb2rad E row _ nir _); [|reflexivity]. cbn [bind].
  destruct (calculate_r3x _ _ _ _ _ _ _ _ _); [|reflexivity]. cbn [bind]. destruct (has_mask nir || has_mask therm)%bool; [reflexivity|].
  cbn [andb]. destruct (negb _); reflexivity.
Qed.
Lemma lazy_case : forall row, exists r,
  reflectance_of_kinds true nir_E row (nir_calc (2 * PI) (Some 88) nir_lut) nir_sun {| k_arg := nir_tb; k_lazy := true; k_mask := None |} (plain nir_therm) (Some nir_lut) = Ok (RLazy r) /\
  reflectance_of_kinds false nir_E row (nir_calc (2 * PI) (Some 88) nir_lut) nir_sun {| k_arg := nir_tb; k_lazy := true; k_mask := None |} (plain nir_therm) (Some nir_lut) = Ok (RArray r).
Proof.
  intros row. set (nir := {| k_arg := nir_tb; k_lazy := true; k_mask := None |}). destruct sample_plain as (st' & a & H & _).
  destruct (kinds_values XRN true nir_E row (nir_calc (2 * PI) (Some 88) nir_lut) [4%nat] nir_sun nir (plain nir_therm) (Some nir_lut) fresh_state st' a H nir_image) as (r & Er & _);
    try (intros m; discriminate).
  destruct (kinds_of _ _ _ _ _ _ _ _ _ Er) as [_ [_ K]]. destruct K as [b ->].
  { split; [reflexivity|]. split; [intros [[A B]|[A B]]; [discriminate|now apply B]|now left]. }
  exists b. split; [exact Er|]. rewrite dask_only, Er. reflexivity.
Qed.
