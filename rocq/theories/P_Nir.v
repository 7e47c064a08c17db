(** Lemmas about the reflectance: from whole arrays to single pixels. *)
From Coq Require Import Reals Lra ZArith String List Bool Arith Lia.
From Verif Require Import Base NumSig XR M_Tables M_Utils M_Rsr M_Blackbody M_RadTb M_Nir S_Nir P_Arr P_RadTb.
Import ListNotations.
Local Open Scope nat_scope.
Local Close Scope R_scope.

Section Pixels.
  Context {N : Num}.
  Local Open Scope num_scope.

  Lemma bmap2_pix f s (a b c : arr N) k x y : fits s a -> fits s b -> bmap2 f a b = Ok c -> (k < size s)%nat ->
    pix k a = Some x -> pix k b = Some y -> pix k c = Some (f x y).
  Proof.
    intros Ha Hb E Hk Px Py. destruct (bmap2_fits f s a b Ha Hb) as (c' & E' & _ & _ & P).
    rewrite E in E'. injection E' as <-. destruct (P k Hk) as (x' & y' & A & B & C). congruence.
  Qed.
  Lemma bmap2_shape f s (a b : arr N) : fits s a -> fits s b -> exists c, bmap2 f a b = Ok c /\ fits s c.
  Proof. intros Ha Hb. destruct (bmap2_fits f s a b Ha Hb) as (c & E & _ & F & _). eauto. Qed.

  (** the value of one pixel *)
  Definition pixel_raw (lim : option N) (I S z tn L T F : N) : N :=
    let e := T * I * F in
    let d := S - e in
    let m0 := @flag N (d <? NIR_EPSILON) in
    let m1 := match lim with Some l => nor (@flag N ((z <? n0) || (l <? z))%bool) m0 | None => m0 end in
    let m2 := nor m1 (@flag N (nisnan N tn)) in
    if m2 =? n0 then (L * I - e) / d else nnan N.

  Lemma r3x_pixels E (c : calculator N) s rad11 rad3x corr solar therm sunz nir :
    fits s rad11 -> fits s rad3x -> fits s corr -> fits s solar -> fits s sunz -> fits s nir ->
    exists r, calculate_r3x E c rad11 rad3x corr solar therm sunz nir = Ok r /\ fits s r /\
      forall k T L F S z tn, (k < size s)%nat -> pix k rad11 = Some T -> pix k rad3x = Some L -> pix k corr = Some F ->
        pix k solar = Some S -> pix k sunz = Some z -> pix k nir = Some tn ->
        pix k r = Some (pixel_raw (cl_masking_limit c) (cast E (a_dtype therm) (cv_rsr_integral (cl_conv c))) S z tn L T F).
  Proof.
    intros H11 H3 Hc Hs Hz Hn. unfold calculate_r3x. set (I := cast _ _ _). clearbody I.
    pose proof (fits_map (fun x => x * I) s _ H11) as Hth.
    destruct (bmap2_shape (nmul N) s _ _ Hth Hc) as (cor & E1 & F1). rewrite E1. cbn [bind].
    pose proof (fits_map (fun x => x * I) s _ H3) as Hl.
    destruct (bmap2_shape (nsub N) s _ _ Hl F1) as (nomin & E2 & F2). rewrite E2. cbn [bind].
    destruct (bmap2_shape (nsub N) s _ _ Hs F1) as (denom & E3 & F3). rewrite E3. cbn [bind].
    destruct (bmap2_shape (ndiv N) s _ _ F2 F3) as (data & E4 & F4). rewrite E4. cbn [bind].
    pose proof (fits_map (fun x => @flag N (x <? NIR_EPSILON)) s _ F3) as Fm.
    set (m0 := arr_map (fun x => @flag N (x <? NIR_EPSILON)) denom) in *.
    assert (HM : exists m1, (match cl_masking_limit c with
             | Some lim => bmap2 nor (arr_map (fun z => @flag N ((z <? n0) || (lim <? z))%bool) sunz) m0
             | None => Ok m0 end) = Ok m1 /\ fits s m1 /\
             forall k z d, (k < size s)%nat -> pix k sunz = Some z -> pix k denom = Some d ->
               pix k m1 = Some (match cl_masking_limit c with
                                | Some l => nor (@flag N ((z <? n0) || (l <? z))%bool) (@flag N (d <? NIR_EPSILON))
                                | None => @flag N (d <? NIR_EPSILON) end)).
    { destruct (cl_masking_limit c) as [l|].
      - pose proof (fits_map (fun z => @flag N ((z <? n0) || (l <? z))%bool) s _ Hz) as Fz.
        destruct (bmap2_shape nor s _ _ Fz Fm) as (m1 & Em & Fm1). exists m1. split; [exact Em|]. split; [exact Fm1|].
        intros k z d Hk Pz Pd. apply (bmap2_pix nor s _ _ _ k _ _ Fz Fm Em Hk); [now rewrite pix_map, Pz|].
        unfold m0. now rewrite pix_map, Pd.
      - exists m0. split; [reflexivity|]. split; [exact Fm|]. intros k z d Hk Pz Pd. unfold m0. now rewrite pix_map, Pd. }
    destruct HM as (m1 & Em1 & Fm1 & Pm1). rewrite Em1. cbn [bind].
    pose proof (fits_map (fun x => @flag N (nisnan N x)) s _ Hn) as Fn.
    destruct (bmap2_shape nor s _ _ Fm1 Fn) as (m2 & Em2 & Fm2). rewrite Em2. cbn [bind].
    destruct (bmap2_shape (fun m x => if m =? n0 then x else nnan N) s _ _ Fm2 F4) as (r & Er & Fr). rewrite Er.
    exists r. split; [reflexivity|]. split; [exact Fr|].
    intros k T L F S z tn Hk PT PL PF PS Pz Ptn.
    assert (Pc : pix k cor = Some (T * I * F)).
    { apply (bmap2_pix _ s _ _ _ k _ _ Hth Hc E1 Hk); [now rewrite pix_map, PT|exact PF]. }
    assert (Pno : pix k nomin = Some (L * I - T * I * F)).
    { apply (bmap2_pix _ s _ _ _ k _ _ Hl F1 E2 Hk); [now rewrite pix_map, PL|exact Pc]. }
    assert (Pd : pix k denom = Some (S - T * I * F)) by (apply (bmap2_pix _ s _ _ _ k _ _ Hs F1 E3 Hk); auto).
    assert (Pda : pix k data = Some ((L * I - T * I * F) / (S - T * I * F))) by (apply (bmap2_pix _ s _ _ _ k _ _ F2 F3 E4 Hk); auto).
    specialize (Pm1 k _ _ Hk Pz Pd).
    assert (Pm2 : pix k m2 = Some (nor (match cl_masking_limit c with
                                | Some l => nor (@flag N ((z <? n0) || (l <? z))%bool) (@flag N (S - T * I * F <? NIR_EPSILON))
                                | None => @flag N (S - T * I * F <? NIR_EPSILON) end) (@flag N (nisnan N tn)))).
    { apply (bmap2_pix _ s _ _ _ k _ _ Fm1 Fn Em2 Hk); [exact Pm1|now rewrite pix_map, Ptn]. }
    rewrite (bmap2_pix _ s _ _ _ k _ _ Fm2 F4 Er Hk Pm2 Pda). reflexivity.
  Qed.

  Lemma mapM_length {A B} (f : A -> res B) l r : mapM f l = Ok r -> List.length r = List.length l.
  Proof. intros H. apply mapM_Forall2 in H. induction H; cbn; congruence. Qed.

  Lemma planck_rows wsp (ws ts : list N) : List.length (blackbody_function wsp ws ts) = List.length ts.
  Proof. unfold blackbody_function, blackbody_wn, blackbody, planck. destruct (String.eqb _ _); now rewrite !map_length. Qed.

  Lemma tb2radiance_length oob (c : converter N) l t norm r : tb2radiance oob c l t norm = Ok r -> List.length r = List.length l.
  Proof.
    destruct t as [t|]; cbn [tb2radiance].
    - unfold lut_lookup. destruct (lut_start t _); [|discriminate]. cbn [bind].
      match goal with |- context [if ?b then _ else _] => destruct b; [discriminate|] end. apply mapM_length.
    - unfold planck_radiance. destruct (cv_waves c); [discriminate|]. destruct l as [|t l]; [discriminate|].
      intros H. apply mapM_length in H. now rewrite planck_rows in H.
  Qed.

  Lemma item_fits s (a : arr N) : is_image s a -> fits s (item a).
  Proof.
    intros [H1 H2]. unfold item. destruct (a_data a) as [|x [|y l]] eqn:E.
    - left. rewrite E. auto.
    - right. exists x. cbn. auto.
    - left. rewrite E. auto.
  Qed.
  Lemma pix_item k (a : arr N) : pix k (item a) = pix k a.
  Proof. unfold item. destruct (a_data a) as [|x [|y l]] eqn:E; auto. unfold pix. now rewrite E. Qed.

  Lemma tb2rad_fits E (c : converter N) s a tbl r : tb2rad E c a tbl = Ok r -> is_image s a ->
    (tbl = None -> exists n, s = [n]) -> fits s r.
  Proof.
    intros H [H1 H2] HL. destruct tbl as [t|]; cbn [tb2rad] in H.
    - match type of H with bind ?m _ = _ => destruct m as [l|] eqn:El end; [|discriminate]. cbn [bind] in H.
      injection H as <-. apply item_fits. split; [exact H1|]. cbn. apply tb2radiance_length in El. congruence.
    - match type of H with bind ?m _ = _ => destruct m as [l|] eqn:El end; [|discriminate]. cbn [bind] in H.
      injection H as <-. destruct (HL eq_refl) as [n ->]. apply tb2radiance_length in El. cbn in H2.
      left. cbn. split; [f_equal; lia|lia].
  Qed.

  Lemma mapM_nth_ok {A B} (f : A -> res B) : forall a b i v, mapM f a = Ok b -> nth_error a i = Some v ->
    exists y, f v = Ok y /\ nth_error b i = Some y.
  Proof.
    induction a as [|a0 a IH]; intros b i v Hm Hi; [destruct i; discriminate|].
    cbn [mapM] in Hm. destruct (f a0) as [b0|] eqn:E0; [|discriminate]. cbn [bind] in Hm.
    destruct (mapM f a) as [bs|] eqn:E1; [|discriminate]. cbn [bind] in Hm. injection Hm as <-.
    destruct i as [|i].
    - injection Hi as <-. exists b0. split; [exact E0|reflexivity].
    - apply (IH bs i v eq_refl Hi).
  Qed.

  (** radiances are looked up pixel by pixel *)
  Lemma lookup_pixels oob (c : converter N) t l l' r r' norm norm' : tb2radiance oob c l t norm = Ok r -> tb2radiance oob c l' t norm' = Ok r' ->
    norm = norm' -> forall k k' x, nth_error l k = Some x -> nth_error l' k' = Some x ->
    nth_error r k = nth_error r' k' /\ exists y, nth_error r k = Some y.
  Proof.
    intros H H' <- k k' x Hx Hx'. destruct t as [t|]; cbn [tb2radiance] in *.
    - unfold lut_lookup in *. destruct (lut_start t _) as [st|]; [|discriminate]. cbn [bind] in *.
      match type of H with context [if ?b then _ else _] => destruct b; [discriminate|] end.
      destruct (mapM_nth_ok _ _ _ _ _ H Hx) as (y & A & B). destruct (mapM_nth_ok _ _ _ _ _ H' Hx') as (y' & A' & B').
      rewrite A in A'. injection A' as <-. split; [congruence|eauto].
    - unfold planck_radiance in *. destruct (cv_waves c) as [|w0 ws] eqn:Ew; [discriminate|]. rewrite <- Ew in *.
      destruct l as [|t0 l]; [discriminate|]. destruct l' as [|t0' l']; [discriminate|].
      assert (Q : exists g : N -> list N, forall m, blackbody_function (cv_wavespace c) (cv_waves c) m = map g m).
      { unfold blackbody_function, blackbody_wn, blackbody, planck.
        destruct (String.eqb _ _); eexists; intros m; rewrite map_map; reflexivity. }
      destruct Q as [g Hg]. rewrite Hg in *.
      destruct (mapM_nth_ok _ _ _ _ _ H (map_nth_error g _ _ Hx)) as (y & A & B). destruct (mapM_nth_ok _ _ _ _ _ H' (map_nth_error g _ _ Hx')) as (y' & A' & B').
      rewrite A in A'. injection A' as <-. split; [congruence|eauto].
  Qed.

  Lemma tb2rad_pixels E (c : converter N) s s' a a' tbl r r' k k' x : tb2rad E c a tbl = Ok r -> tb2rad E c a' tbl = Ok r' ->
    a_dtype a = a_dtype a' -> is_image s a -> is_image s' a' -> (k < size s)%nat -> (k' < size s')%nat ->
    pix k a = Some x -> pix k' a' = Some x -> pix k r = pix k' r'.
  Proof.
    intros H H' Hd [_ HL] [_ HL'] Hk Hk' Px Px'.
    apply pix_nth in Px; [|lia]. apply pix_nth in Px'; [|lia].
    destruct tbl as [t|]; cbn [tb2rad] in *.
    - match type of H with bind ?m _ = _ => destruct m as [l|] eqn:El end; [|discriminate]. cbn [bind] in H. injection H as <-.
      rewrite <- Hd in H'. match type of H' with bind ?m _ = _ => destruct m as [l'|] eqn:El' end; [|discriminate]. cbn [bind] in H'. injection H' as <-.
      destruct (lookup_pixels _ _ _ _ _ _ _ _ _ El El' eq_refl _ _ _ Px Px') as [Q [y Qy]].
      rewrite !pix_item. apply tb2radiance_length in El, El'.
      transitivity (Some y); [|symmetry]; (apply pix_nth; cbn [a_data]; [lia|congruence]).
    - match type of H with bind ?m _ = _ => destruct m as [l|] eqn:El end; [|discriminate]. cbn [bind] in H. injection H as <-.
      match type of H' with bind ?m _ = _ => destruct m as [l'|] eqn:El' end; [|discriminate]. cbn [bind] in H'. injection H' as <-.
      destruct (lookup_pixels _ _ _ _ _ _ _ _ _ El El' eq_refl _ _ _ Px Px') as [Q [y Qy]].
      apply tb2radiance_length in El, El'.
      transitivity (Some y); [|symmetry]; (apply pix_nth; cbn [a_data]; [lia|congruence]).
  Qed.

  (** the CO2 factor *)
  Definition corr_raw (t11 t13 : N) : N :=
    npow (t11 - nlit N 25 100 * (t11 - t13)) 4 / npow t11 4.
  Lemma corr_pixels s (a b : arr N) : fits s a -> fits s b ->
    exists c, derive_rad39_corr a b "rosenfeld" = Ok c /\ fits s c /\
      forall k x y, (k < size s)%nat -> pix k a = Some x -> pix k b = Some y -> pix k c = Some (corr_raw x y).
  Proof.
    intros Ha Hb. unfold derive_rad39_corr. cbn [String.eqb Ascii.eqb Bool.eqb negb].
    destruct (bmap2_shape (nsub N) s a b Ha Hb) as (d & E1 & F1). cbn. rewrite E1. cbn [bind].
    pose proof (fits_map (fun v => nlit N 25 100 * v) s _ F1) as F1'.
    destruct (bmap2_shape (nsub N) s a _ Ha F1') as (x & E2 & F2). rewrite E2. cbn [bind].
    pose proof (fits_map (fun v => npow v 4) s _ F2) as F2'. pose proof (fits_map (fun v => npow v 4) s _ Ha) as Fa'.
    destruct (bmap2_shape (ndiv N) s _ _ F2' Fa') as (c & E3 & F3). exists c. split; [exact E3|]. split; [exact F3|].
    intros k u v Hk Pu Pv. apply (bmap2_pix _ s _ _ _ k _ _ F2' Fa' E3 Hk); [|now rewrite pix_map, Pu].
    rewrite pix_map. erewrite (bmap2_pix _ s _ _ _ k _ _ Ha F1' E2 Hk); [reflexivity|exact Pu|].
    rewrite pix_map. erewrite (bmap2_pix _ s _ _ _ k _ _ Ha Hb E1 Hk); [reflexivity|exact Pu|exact Pv].
  Qed.

  Lemma pix_astype E d k (a : arr N) : pix k (astype E d a) = option_map (cast E d) (pix k a).
  Proof. apply (pix_map (cast E d) a k). Qed.
  Lemma fits_astype E d s (a : arr N) : fits s a -> fits s (astype E d a).
  Proof. apply (fits_map (cast E d) s a). Qed.

  (** the CO2 factor a call uses at one pixel *)
  Definition factor_raw (therm : arr N) (co2 : option (nirarg N)) (k : nat) : option N :=
    match co2 with
    | None => Some (nlit N 1 1)
    | Some a => match pix k therm, pix k (get_as_array a) with
                | Some x, Some y => Some (corr_raw x y)
                | _, _ => None
                end
    end.
  Definition solar_raw (c : calculator N) (z : N) : N :=
    cl_solar_flux c * ncos N (deg2rad (clip_sunz (cl_sunz_threshold c) z)) / npi N.

  Lemma reflectance_pixels E (c : calculator N) s sun nir therm co2 lut st st' r :
    reflectance_from_tbs E c sun nir therm co2 lut st = (st', Ok r) -> one_image s sun nir therm co2 lut ->
    exists rad11 rad3x solar corr,
      tb2rad E (cl_conv c) (get_as_array therm) (table_of c lut) = Ok rad11 /\
      tb2rad E (cl_conv c) (get_as_array nir) (table_of c lut) = Ok rad3x /\
      st' = {| ns_e3x := ns_e3x st; ns_r3x := Some r; ns_rad3x := Some rad3x; ns_rad3x_t11 := Some rad11;
               ns_correction := corr; ns_solar := Some solar |} /\
      fits s rad11 /\ fits s rad3x /\ fits s r /\ fits s corr /\
      forall k, (k < size s)%nat -> exists z tn L T F,
        pix k (get_as_array sun) = Some z /\ pix k (get_as_array nir) = Some tn /\ pix k rad3x = Some L /\ pix k rad11 = Some T /\
        factor_raw (get_as_array therm) co2 k = Some F /\
        pix k solar = Some (cast E (a_dtype (get_as_array nir)) (solar_raw c z)) /\
        pix k corr = Some (cast E (a_dtype (get_as_array nir)) F) /\
        pix k r = Some (pixel_raw (cl_masking_limit c) (cast E (a_dtype (get_as_array therm)) (cv_rsr_integral (cl_conv c)))
                          (cast E (a_dtype (get_as_array nir)) (solar_raw c z)) z tn L T
                          (cast E (a_dtype (get_as_array nir)) F)).
  Proof.
    intros H (Hn & Ht & Hz & Hc & Hl). unfold reflectance_from_tbs in H.
    destruct (rsr_data _) as [|d0 ds]; [discriminate|].
    replace (shape_eqb (a_shape (get_as_array therm)) (a_shape (get_as_array nir))) with true in H
      by (symmetry; apply shape_eqb_iff; destruct Hn, Ht; congruence).
    cbn [negb] in H. fold (table_of c lut) in H. unfold mbind, mlift, mset in H.
    destruct (tb2rad E (cl_conv c) (get_as_array therm) (table_of c lut)) as [rad11|] eqn:E11; [|discriminate].
    destruct (tb2rad E (cl_conv c) (get_as_array nir) (table_of c lut)) as [rad3x|] eqn:E3; [|discriminate].
    assert (HL : table_of c lut = None -> exists n, s = [n]).
    { destruct lut as [[t|]|]; cbn; try discriminate. auto. }
    pose proof (tb2rad_fits _ _ _ _ _ _ E11 Ht HL) as F11. pose proof (tb2rad_fits _ _ _ _ _ _ E3 Hn HL) as F3.
    assert (Fn : fits s (get_as_array nir)) by (left; exact Hn). assert (Ft : fits s (get_as_array therm)) by (left; exact Ht).
    set (dn := a_dtype (get_as_array nir)) in *. set (solar := solar_radiance E c (get_as_array sun) dn) in *.
    assert (Fs : fits s solar) by (apply fits_astype, fits_map; exact Hz).
    assert (HC : exists corr0, fits s corr0 /\ (forall k, (k < size s)%nat -> factor_raw (get_as_array therm) co2 k = pix k corr0) /\
       (let corr := astype E dn corr0 in
        exists r0, calculate_r3x E c rad11 rad3x corr solar (get_as_array therm) (get_as_array sun) (get_as_array nir) = Ok r0 /\
        fits s r0 /\
        (st', Ok r) = ({| ns_e3x := ns_e3x st; ns_r3x := Some r0; ns_rad3x := Some rad3x; ns_rad3x_t11 := Some rad11;
               ns_correction := corr; ns_solar := Some solar |}, Ok r0) /\
        forall k T L F S z tn, (k < size s)%nat -> pix k rad11 = Some T -> pix k rad3x = Some L -> pix k corr = Some F ->
        pix k solar = Some S -> pix k (get_as_array sun) = Some z -> pix k (get_as_array nir) = Some tn ->
        pix k r0 = Some (pixel_raw (cl_masking_limit c) (cast E (a_dtype (get_as_array therm)) (cv_rsr_integral (cl_conv c))) S z tn L T F))).
    { destruct co2 as [a|].
      - specialize (Hc a eq_refl). destruct (corr_pixels s _ _ Ft Hc) as (corr0 & Ec & Fc & Pc).
        unfold m_derive_rad39_corr, mbind, mlift, mset in H. rewrite Ec in H. cbn [with_corr ns_correction with_rad11 with_rad3x with_solar] in H.
        exists corr0. split; [exact Fc|]. split.
        + intros k Hk. unfold factor_raw. destruct (pix_some s _ k Ft Hk) as [x Px]. destruct (pix_some s _ k Hc Hk) as [y Py].
          rewrite Px, Py. symmetry. now apply Pc.
        + destruct (r3x_pixels E c s rad11 rad3x (astype E dn corr0) solar (get_as_array therm) (get_as_array sun) (get_as_array nir)) as (r0 & Er & Fr & Pr); auto.
          { now apply fits_astype. }
          exists r0. rewrite Er in H. split; [exact Er|]. split; [exact Fr|]. split; [|exact Pr]. now rewrite <- H.
      - cbn [with_corr ns_correction with_rad11 with_rad3x with_solar] in H.
        assert (Fc : fits s (@scalar N (nlit N 1 1))) by (right; eexists; split; [reflexivity|auto]).
        exists (scalar (nlit N 1 1)). split; [exact Fc|]. split; [reflexivity|].
        destruct (r3x_pixels E c s rad11 rad3x (astype E dn (scalar (nlit N 1 1))) solar (get_as_array therm) (get_as_array sun) (get_as_array nir)) as (r0 & Er & Fr & Pr); auto.
        { now apply fits_astype. }
        exists r0. rewrite Er in H. split; [exact Er|]. split; [exact Fr|]. split; [|exact Pr]. now rewrite <- H. }
    destruct HC as (corr0 & Fc & Pc & r0 & Er & Fr & Heq & Pr). injection Heq as -> ->.
    exists rad11, rad3x, solar, (astype E dn corr0). split; [reflexivity|]. split; [reflexivity|]. split; [reflexivity|].
    split; [exact F11|]. split; [exact F3|]. split; [exact Fr|]. split; [now apply fits_astype|].
    intros k Hk. destruct (pix_some s _ k Hz Hk) as [z Pz]. destruct (pix_some s _ k Fn Hk) as [tn Pn].
    destruct (pix_some s _ k F3 Hk) as [L PL]. destruct (pix_some s _ k F11 Hk) as [T PT]. destruct (pix_some s _ k Fc Hk) as [F PF].
    exists z, tn, L, T, F. split; [exact Pz|]. split; [exact Pn|]. split; [exact PL|]. split; [exact PT|].
    split; [now rewrite Pc|].
    assert (PS : pix k solar = Some (cast E dn (solar_raw c z))).
    { unfold solar, solar_radiance. rewrite pix_astype, pix_map, Pz. reflexivity. }
    assert (PC : pix k (astype E dn corr0) = Some (cast E dn F)) by now rewrite pix_astype, PF.
    split; [exact PS|]. split; [exact PC|]. apply Pr; auto.
  Qed.
End Pixels.
