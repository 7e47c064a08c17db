(** Lemmas about band selection by wavelength, names of instruments, shapes of
    arguments and default arguments. *)
From Coq Require Import Reals Lra ZArith String Ascii List Bool Lia.
From Verif Require Import Base NumSig XR M_Tables M_Utils M_Rsr M_Blackbody M_RadTb M_Solar M_World M_Config M_Hdf5 M_Download M_Nir M_Raw
     S_RadTb S_Rsr S_Utils S_Nir S_Nir2 S_Raw S_Download S_Select P_Arr P_Central P_Nir P_Nir2 P_Nir3 P_Raw.
Import ListNotations.
Local Open Scope string_scope.

(** ** Names of instruments *)
Section Names.
  Context {N : Num}.
  Lemma text_instrument options ex strict bns ins b p (ld : string -> res (raw N)) o :
    text_rsr options ex strict bns ins b p ld = Ok o -> ir_instrument o = ins.
  Proof.
    intros H. destruct (text_inv _ _ _ _ _ _ _ _ _ H) as (out & f & P). rewrite (text_eq _ _ _ _ _ _ _ _ _ _ P) in H.
    destruct (ex f).
    - destruct (ld f); cbn in H; [|discriminate]. now injection H as <-.
    - destruct strict; [discriminate|]. now injection H as <-.
  Qed.
  Lemma instrument_named k options ex (cols : string -> nat -> res (list (list N))) b p o :
    make k options ex cols b p = Ok o -> named k p (ir_instrument o).
  Proof.
    assert (F : forall k, k = Abi \/ k = Mersi3 \/ k = Ami \/ k = MsuGs \/ k = SlstrTxt \/ ~ fixed k).
    { unfold fixed. intros []; tauto || (repeat right; intuition discriminate). }
    destruct k; cbn [make]; intros H;
      try (apply text_instrument in H; rewrite H; apply named_fixed; unfold fixed; tauto).
    all: match goal with |- named ?k _ _ => assert (NF : ~ fixed k) by (unfold fixed; intuition discriminate) end.
    - unfold AvhrrRSR in H. destruct (dget p INSTRUMENTS) as [[i|l]|] eqn:D; cbn [bind of_option as_name] in H; try discriminate.
      destruct (dget i AVHRR_BAND_NAMES); cbn [bind of_option] in H; [|discriminate]. apply text_instrument in H. rewrite H. now apply named_table.
    - unfold CoctsRSR, instrument_of in H. destruct (dget p INSTRUMENTS) as [[i|l]|] eqn:D; cbn [bind as_name] in H; try discriminate;
        apply text_instrument in H; rewrite H; [now apply named_table|now apply named_unknown].
    - unfold Mersi1RSR, instrument_of in H. apply text_instrument in H. rewrite H.
      destruct (dget p INSTRUMENTS) as [[i|l]|] eqn:D; cbn [or_name]; [now apply named_table|apply named_several with l; auto|now apply named_unknown].
    - unfold Mersi2RSR, instrument_of in H. destruct (dget p INSTRUMENTS) as [[i|l]|] eqn:D; cbn [bind as_name] in H; try discriminate;
        apply text_instrument in H; rewrite H; [now apply named_table|now apply named_unknown].
    - unfold MersiRMRSR, instrument_of in H. destruct (dget p INSTRUMENTS) as [[i|l]|] eqn:D; cbn [bind as_name] in H; try discriminate;
        apply text_instrument in H; rewrite H; [now apply named_table|now apply named_unknown].
    - unfold VirrRSR, instrument_of in H. destruct (dget p VIRR_BAND_NAMES) as [vb|]; cbn [bind of_option] in H; [|discriminate].
      destruct (dget p INSTRUMENTS) as [[i|l]|] eqn:D; cbn [bind as_name] in H; try discriminate;
        apply text_instrument in H; rewrite H; [now apply named_table|now apply named_unknown].
    - unfold AgriRSR, instrument_of in H. apply text_instrument in H. rewrite H.
      destruct (dget p INSTRUMENTS) as [[i|l]|] eqn:D; cbn [or_name]; [now apply named_table|apply named_several with l; auto|now apply named_unknown].
    - unfold GhiRSR, instrument_of in H. apply text_instrument in H. rewrite H.
      destruct (dget p INSTRUMENTS) as [[i|l]|] eqn:D; cbn [or_name]; [now apply named_table|apply named_several with l; auto|now apply named_unknown].
  Qed.
End Names.

(** ** Shapes *)
Lemma bshape_clash : forall i a b x y, nth_error a i = Some x -> nth_error b i = Some y -> x <> y -> x <> 1%nat -> y <> 1%nat -> bshape a b = None.
Proof.
  induction i as [|i IH]; intros [|u a] [|v b] x y A B Hxy Hx Hy; try discriminate; cbn in A, B |- *.
  - injection A as <-. injection B as <-. destruct (bshape a b); [|easy].
    rewrite (proj2 (Nat.eqb_neq u v)), (proj2 (Nat.eqb_neq u 1)), (proj2 (Nat.eqb_neq v 1)); auto.
  - now rewrite (IH _ _ _ _ A B).
Qed.
Lemma clash_ne s t : clash s t -> s <> t /\ s <> [] /\ t <> [] /\ size s <> 1%nat.
Proof.
  intros (i & x & y & A & B & Hxy & Hx & Hy). repeat split.
  - intros ->. congruence.
  - intros ->. destruct i; discriminate.
  - intros ->. destruct i; discriminate.
  - apply nth_error_In in A. apply in_rev in A. clear - A Hx. induction s as [|u s IH]; [easy|].
    cbn [size fold_right]. intros E. change (u * size s = 1)%nat in E. apply Nat.eq_mul_1 in E as [E1 E]. destruct A as [A|A]; [congruence|]. now apply IH.
Qed.
Lemma clash_sym s t : clash s t -> clash t s.
Proof. intros (i & x & y & A & B & Hxy & Hx & Hy). exists i, y, x. auto. Qed.

Section Shapes.
  Context {N : Num}.
  Lemma bmap2_clash f (a b : arr N) : clash (a_shape a) (a_shape b) -> bmap2 f a b = Err ValueError.
  Proof.
    intros H. destruct (clash_ne _ _ H) as (Hne & Ha & Hb & _). destruct H as (i & x & y & A & B & Hxy & Hx & Hy).
    unfold bmap2. rewrite (shape_eqb_false _ _ Hne). rewrite (bshape_clash _ _ _ _ _ A B Hxy Hx Hy).
    destruct (a_shape a) as [|u s]; [congruence|]. destruct (a_shape b) as [|v t]; [congruence|].
    now destruct (a_data a) as [|? [|]], (a_data b) as [|? [|]].
  Qed.
  Lemma image_fits s (a : arr N) : is_image s a -> fits s a. Proof. now left. Qed.
  Lemma bmap2_image f s (a b : arr N) : size s <> 1%nat -> is_image s a -> fits s b -> exists c, bmap2 f a b = Ok c /\ is_image s c.
  Proof.
    intros S [A1 A2] [[B1 B2]|(y & Hy & B)].
    - rewrite bmap2_same by congruence. eexists. split; [reflexivity|]. split; [exact A1|]. cbn. rewrite zip_length. lia.
    - edestruct (bmap2_single_r f a b y) as (s' & E & Hs); [congruence|exact Hy|exact B|]. rewrite E.
      eexists. split; [reflexivity|]. destruct Hs as [-> | [H0 ->]].
      + split; [exact A1|]. cbn. rewrite map_length. congruence.
      + exfalso. apply S. rewrite <- A1, H0. reflexivity.
  Qed.
  Lemma tb2rad_image E (c : converter N) s a tbl r : size s <> 1%nat -> tb2rad E c a tbl = Ok r -> is_image s a ->
    (tbl = None -> exists n, s = [n]) -> is_image s r.
  Proof.
    intros S H [H1 H2] HL. destruct tbl as [t|]; cbn [tb2rad] in H.
    - match type of H with bind ?m _ = _ => destruct m as [l|] eqn:El end; [|discriminate]. cbn [bind] in H.
      injection H as <-. apply tb2radiance_length in El. unfold item. cbn [a_data a_shape a_dtype].
      destruct l as [|x [|y l]]; [split; [exact H1|cbn in *; congruence]| |split; [exact H1|cbn in *; congruence]].
      exfalso. apply S. rewrite <- H2, <- El. reflexivity.
    - match type of H with bind ?m _ = _ => destruct m as [l|] eqn:El end; [|discriminate]. cbn [bind] in H.
      injection H as <-. destruct (HL eq_refl) as [n ->]. apply tb2radiance_length in El. cbn in H2.
      cbn. split; cbn; [f_equal; lia|lia].
  Qed.
  Lemma r3x_clash E (c : calculator N) s rad11 rad3x corr solar therm sunz nir : clash s (a_shape solar) ->
    is_image s rad11 -> is_image s rad3x -> fits s corr ->
    calculate_r3x E c rad11 rad3x corr solar therm sunz nir = Err ValueError.
  Proof.
    intros C I11 I3 Fc. destruct (clash_ne _ _ C) as (_ & _ & _ & S). unfold calculate_r3x.
    set (k := cast E (a_dtype therm) (cv_rsr_integral (cl_conv c))).
    assert (M : forall a : arr N, is_image s a -> is_image s (arr_map (fun x => nmul N x k) a)).
    { intros a [A B]. split; [exact A|]. cbn. now rewrite map_length. }
    destruct (bmap2_image (nmul N) s _ corr S (M _ I11) Fc) as (cor & E1 & C1). rewrite E1. cbn [bind].
    destruct (bmap2_image (nsub N) s _ cor S (M _ I3) (image_fits _ _ C1)) as (nom & E2 & C2). rewrite E2. cbn [bind].
    rewrite bmap2_clash; [reflexivity|]. rewrite (proj1 C1). now apply clash_sym.
  Qed.
  Lemma sun_clash (E : nir_env N) c s sun nir therm co2 lut st rad11 rad3x : rsr_data (cv_rsr (cl_conv c)) <> [] ->
    is_image s (get_as_array nir) -> is_image s (get_as_array therm) -> (forall a, co2 = Some a -> fits s (get_as_array a)) ->
    (lut = Some None -> exists n, s = [n]) -> clash s (a_shape (get_as_array sun)) ->
    tb2rad E (cl_conv c) (get_as_array therm) (table_of c lut) = Ok rad11 ->
    tb2rad E (cl_conv c) (get_as_array nir) (table_of c lut) = Ok rad3x ->
    exists st', reflectance_from_tbs E c sun nir therm co2 lut st = (st', Err ValueError) /\ ns_r3x st' = ns_r3x st.
  Proof.
    intros Hr Hn Ht Hc Hl C E11 E3. destruct (clash_ne _ _ C) as (_ & _ & _ & S). unfold reflectance_from_tbs. destruct (rsr_data _); [congruence|].
    replace (shape_eqb (a_shape (get_as_array therm)) (a_shape (get_as_array nir))) with true
      by (symmetry; apply shape_eqb_iff; destruct Hn, Ht; congruence).
    cbn [negb]. fold (table_of c lut). unfold mbind, mlift, mset. rewrite E11, E3.
    assert (HL : table_of c lut = None -> exists n, s = [n]).
    { destruct lut as [[t|]|]; cbn; try discriminate. auto. }
    pose proof (tb2rad_image _ _ _ _ _ _ S E11 Ht HL) as F11. pose proof (tb2rad_image _ _ _ _ _ _ S E3 Hn HL) as F3.
    assert (Ft : fits s (get_as_array therm)) by (left; exact Ht).
    set (dn := a_dtype (get_as_array nir)) in *. set (solar := solar_radiance E c (get_as_array sun) dn) in *.
    destruct co2 as [a|].
    - specialize (Hc a eq_refl). destruct (corr_pixels s _ _ Ft Hc) as (corr0 & Ec & Fc & _).
      unfold m_derive_rad39_corr, mbind, mlift, mset. rewrite Ec. cbn [with_corr ns_correction with_rad11 with_rad3x with_solar].
      rewrite (r3x_clash E c s); auto; [|now apply fits_astype]. eexists. split; [reflexivity|]. reflexivity.
    - cbn [with_corr ns_correction with_rad11 with_rad3x with_solar].
      assert (Fc : fits s (@scalar N (nlit N 1 1))) by (right; eexists; split; [reflexivity|auto]).
      rewrite (r3x_clash E c s); auto; [|now apply fits_astype]. eexists. split; [reflexivity|]. reflexivity.
  Qed.
  Lemma co2_clash (E : nir_env N) c s sun nir therm a lut st rad11 rad3x : rsr_data (cv_rsr (cl_conv c)) <> [] ->
    is_image s (get_as_array nir) -> is_image s (get_as_array therm) -> clash s (a_shape (get_as_array a)) ->
    tb2rad E (cl_conv c) (get_as_array therm) (table_of c lut) = Ok rad11 ->
    tb2rad E (cl_conv c) (get_as_array nir) (table_of c lut) = Ok rad3x ->
    exists st', reflectance_from_tbs E c sun nir therm (Some a) lut st = (st', Err ValueError) /\ ns_r3x st' = ns_r3x st /\
      ns_correction st' = ns_correction st.
  Proof.
    intros Hr Hn Ht C E11 E3. unfold reflectance_from_tbs. destruct (rsr_data _); [congruence|].
    replace (shape_eqb (a_shape (get_as_array therm)) (a_shape (get_as_array nir))) with true
      by (symmetry; apply shape_eqb_iff; destruct Hn, Ht; congruence).
    cbn [negb]. fold (table_of c lut). unfold mbind, mlift, mset. rewrite E11, E3.
    unfold m_derive_rad39_corr, mbind, mlift, mset. unfold derive_rad39_corr. cbn [String.eqb Ascii.eqb Bool.eqb negb].
    rewrite (bmap2_clash (nsub N) (get_as_array therm) (get_as_array a)) by (now rewrite (proj1 Ht)).
    eexists. split; [reflexivity|]. split; reflexivity.
  Qed.

  Lemma value_type_eq (a : nirarg N) : value_type a = a_dtype (get_as_array a).
  Proof. now destruct a. Qed.
End Shapes.

(** ** Default arguments *)
Lemma default_limits E p i b w w' (c : calculator XRN) : Calculator_defaults E p i b w = (w', Ok c) ->
  cl_sunz_threshold c = Some (Fin 85) /\ cl_masking_limit c = Some (Fin 85).
Proof.
  unfold Calculator_defaults, Calculator, iobind, M_Download.lift, ret. intros H.
  assert (L : @TERMINATOR_LIMIT XRN = Fin 85) by (unfold TERMINATOR_LIMIT; cbn; unfold xlit; f_equal; lra).
  repeat match type of H with
  | (let (_, _) := ?m in _) = _ => destruct m as [? [?|]]; [|discriminate]
  | match ?m with Ok _ => _ | Err _ => _ end = _ => destruct m; [|discriminate]
  end.
  injection H as <- <-. cbn. split; f_equal; exact L.
Qed.
Lemma default_night E p i b w w' (c : calculator XRN) s sun nir therm co2 lut st st' r I flux :
  Calculator_defaults E p i b w = (w', Ok c) -> cv_rsr_integral (cl_conv c) = Fin I -> cl_solar_flux c = Fin flux ->
  reflectance_from_tbs E c sun nir therm co2 lut st = (st', Ok r) -> one_image s sun nir therm co2 lut -> floats nir therm ->
  forall k z tn L T F, (k < size s)%nat -> pixel E c sun nir therm co2 lut k z tn L T F ->
  (((z < 0)%R \/ (85 < z)%R) -> pix k r = Some NaN) /\
  ((0 <= z <= 85)%R -> exists v, pix k r = Some v /\
     (v = NaN <-> tn = NaN \/ (flux * cos (z * PI / 180) / PI - T * I * F < 5 / 1000)%R)).
Proof.
  intros B HI Hf H Him Hfl k z tn L T F Hk Hp. destruct (default_limits _ _ _ _ _ _ _ B) as [D1 D2].
  assert (Hs : settings c I flux (Some 85%R) (Some 85%R)) by (repeat split; auto).
  destruct (masked_exactly E c s sun nir therm co2 lut st st' r I flux (Some 85%R) (Some 85%R) k z tn L T F H Him Hfl Hs Hk Hp) as (v & Pv & Hv & _).
  cbn [sun_out] in Hv. split.
  - intros Hz. rewrite Pv, (proj2 Hv); auto.
  - intros Hz. exists v. split; [exact Pv|]. rewrite Hv.
    replace (solar_term flux (Some 85%R) z) with (flux * cos (z * PI / 180) / PI)%R.
    2:{ unfold solar_term, clipped. rewrite Rmax_left, Rmin_left by lra. reflexivity. }
    split; [intros [?|[?|[?|?]]]; auto; lra|tauto].
Qed.

(** ** A band selected by its wavelength *)
Section Select.
  Local Open Scope R_scope.
  Variable load : string -> string -> res (rsr_state XRN).
  Variables (p i det : string) (x : R) (tbr : XR) (s : rsr_state XRN).
  Hypothesis Hload : load p i = Ok s.
  Hypothesis Hnd : NoDup (dkeys (rs_rsr s)).
  Hypothesis Hcw : Forall (fun kb => first_cw (snd kb) <> None) (rs_rsr s).
  Hypothesis Htb : tbr <> Fin 0.
  Notation conv b := (RadTbConverter load p i b det WAVE_LENGTH tbr).

  Lemma tbr_ok : neqb XRN tbr n0 = false.
  Proof. rewrite n0_fin. destruct tbr as [r| | |]; try reflexivity. cbn. apply Reqb_false_iff. congruence. Qed.
  Lemma conv_step b : conv b =
    ' (bandname, bandwavelength) <- resolve_band i b (RsrDict (rs_instrument s) (rs_rsr s)) ;;
    e <- band_entry (RsrDict (rs_instrument s) (rs_rsr s)) bandname ;;
    d <- of_option KeyError (dget det e) ;;
    w <- get_arr WAVE_LENGTH d ;;
    response <- get_arr "response" d ;;
    rsr_integral <- trapezoid response (map (fun v => nmul XRN v (rs_si_scale s)) w) ;;
    Ok {| cv_platform := p; cv_instrument := i; cv_band := b;
          cv_wavespace := WAVE_LENGTH; cv_detector := det;
          cv_tb_resolution := tbr; cv_tb_scale := ndiv XRN (nlit XRN 1 1) tbr;
          cv_rsr := RsrDict (rs_instrument s) (rs_rsr s); cv_unit := rs_unit s; cv_si_scale := rs_si_scale s;
          cv_bandname := bandname; cv_bandwavelength := bandwavelength;
          cv_waves := map (fun v => nmul XRN v (rs_si_scale s)) w; cv_response := response; cv_rsr_integral := rsr_integral |}.
  Proof.
    unfold RadTbConverter. change (check_wavespace WAVE_LENGTH) with (Ok tt). cbn [bind]. rewrite tbr_ok. cbn [bind].
    rewrite Hload. cbn [bind]. reflexivity.
  Qed.
  Lemma resolve_number : resolve_band i (BNumber (Fin x)) (RsrDict (rs_instrument s) (rs_rsr s)) =
    match map (fun kb => translate_band i (fst kb)) (filter (near x (1 / 10)) (rs_rsr s)) with
    | [] => Ok (None, Some (Fin x))
    | [b] => Ok (Some b, Some (Fin x))
    | _ => Err AttributeError
    end.
  Proof.
    unfold resolve_band. cbn [rsr_data].
    pose proof (bandname_spec i x (1 / 10) false (rs_rsr s) Hnd Hcw) as B.
    etransitivity; [apply (f_equal (fun m => bind m _)); exact B|].
    destruct (map _ _) as [|b [|b' l]]; reflexivity.
  Qed.
  Lemma near_iff k b c : first_cw b = Some c -> near x (1 / 10) (k, b) = true <-> Rabs (c - x) < 1 / 10.
  Proof.
    intros H. unfold near. cbn [snd]. rewrite H. rewrite Bool.andb_true_iff, !Rltb_iff. split; [tauto|]. intros. split; lra.
  Qed.
  Lemma filter_unique k b : In (k, b) (rs_rsr s) -> near x (1 / 10) (k, b) = true ->
    (forall k' b', In (k', b') (rs_rsr s) -> near x (1 / 10) (k', b') = true -> k' = k) ->
    filter (near x (1 / 10)) (rs_rsr s) = [(k, b)].
  Proof.
    intros Hin Hn Hu. assert (Hf : forall kb, In kb (filter (near x (1 / 10)) (rs_rsr s)) <-> kb = (k, b)).
    { intros [k' b']. rewrite filter_In. split.
      - intros [A B]. specialize (Hu _ _ A B). subst k'. f_equal.
        pose proof (dget_in_nodup _ _ _ Hnd A). pose proof (dget_in_nodup _ _ _ Hnd Hin). congruence.
      - intros [= -> ->]. auto. }
    assert (ND : NoDup (filter (near x (1 / 10)) (rs_rsr s))) by (apply NoDup_filter; unfold dkeys in Hnd; now apply NoDup_map_inv in Hnd).
    destruct (filter _ _) as [|a [|a' l]].
    - destruct (proj2 (Hf (k, b)) eq_refl).
    - now rewrite (proj1 (Hf a) (or_introl eq_refl)).
    - pose proof (proj1 (Hf a) (or_introl eq_refl)). pose proof (proj1 (Hf a') (or_intror (or_introl eq_refl))). subst.
      inversion ND as [|? ? Hx _]. destruct Hx. now left.
  Qed.

  Lemma centred_near k b c : In (k, b) (rs_rsr s) -> first_cw b = Some c -> centred (rs_rsr s) k c.
  Proof.
    unfold first_cw. intros H. destruct (dget "det-1" b) as [d|] eqn:D; [|discriminate].
    destruct (dget "central_wavelength" d) as [[l|[v| | |]|d']|] eqn:W; try discriminate. intros [= <-]. exists b, d. auto.
  Qed.
  Lemma centred_first k c : centred (rs_rsr s) k c -> exists b, In (k, b) (rs_rsr s) /\ first_cw b = Some c.
  Proof. intros (b & d & A & B & C). exists b. split; [exact A|]. unfold first_cw. now rewrite B, C. Qed.
  Lemma near_centred k b : In (k, b) (rs_rsr s) -> near x (1 / 10) (k, b) = true -> exists c, centred (rs_rsr s) k c /\ Rabs (c - x) < 1 / 10.
  Proof.
    intros H Hn. destruct (first_cw b) as [c|] eqn:F.
    - exists c. split; [now apply centred_near with b|]. now apply (near_iff k b c F).
    - unfold near in Hn. cbn [snd] in Hn. rewrite F in Hn. discriminate.
  Qed.

  Definition relabel (b : bandarg XRN) (w : option XR) (c : converter XRN) : converter XRN :=
    {| cv_platform := cv_platform c; cv_instrument := cv_instrument c; cv_band := b;
       cv_wavespace := cv_wavespace c; cv_detector := cv_detector c;
       cv_tb_resolution := cv_tb_resolution c; cv_tb_scale := cv_tb_scale c;
       cv_rsr := cv_rsr c; cv_unit := cv_unit c; cv_si_scale := cv_si_scale c;
       cv_bandname := cv_bandname c; cv_bandwavelength := w;
       cv_waves := cv_waves c; cv_response := cv_response c; cv_rsr_integral := cv_rsr_integral c |}.

  Lemma unique_filter k c : centred (rs_rsr s) k c -> Rabs (c - x) < 1 / 10 ->
    (forall k' c', centred (rs_rsr s) k' c' -> Rabs (c' - x) < 1 / 10 -> k' = k) ->
    exists b, filter (near x (1 / 10)) (rs_rsr s) = [(k, b)].
  Proof.
    intros Hc Hx Hu. destruct (centred_first _ _ Hc) as (b & Hin & F). exists b.
    apply filter_unique; [exact Hin|now apply (near_iff k b c F)|].
    intros k' b' Hin' Hn'. destruct (near_centred _ _ Hin' Hn') as (c' & C' & X'). now apply (Hu k' c').
  Qed.
  Lemma number_conv k c : centred (rs_rsr s) k c -> Rabs (c - x) < 1 / 10 ->
    (forall k' c', centred (rs_rsr s) k' c' -> Rabs (c' - x) < 1 / 10 -> k' = k) ->
    conv (BNumber (Fin x)) = match conv (BStr k) with Ok cv => Ok (relabel (BNumber (Fin x)) (Some (Fin x)) cv) | Err e => Err e end.
  Proof.
    intros Hc Hx Hu. destruct (unique_filter _ _ Hc Hx Hu) as (b & Hf).
    rewrite !conv_step, resolve_number, Hf. cbn [map fst bind resolve_band].
    destruct (band_entry _ _) as [e|]; [|reflexivity]. cbn [bind].
    destruct (of_option KeyError (dget det e)) as [d|]; [|reflexivity]. cbn [bind].
    destruct (get_arr WAVE_LENGTH d) as [w|]; [|reflexivity]. cbn [bind].
    destruct (get_arr "response" d) as [r|]; [|reflexivity]. cbn [bind].
    destruct (trapezoid r _) as [t|]; reflexivity.
  Qed.
  Lemma select_one k c : centred (rs_rsr s) k c -> Rabs (c - x) < 1 / 10 ->
    (forall k' c', centred (rs_rsr s) k' c' -> Rabs (c' - x) < 1 / 10 -> k' = k) ->
    same_conversions (conv (BNumber (Fin x))) (conv (BStr k)).
  Proof.
    intros Hc Hx Hu. rewrite (number_conv k c Hc Hx Hu). destruct (conv (BStr k)) as [cv|e]; [|reflexivity].
    split; [|split]; intros; [destruct lut| |]; reflexivity.
  Qed.
  Lemma select_none : (forall k c, centred (rs_rsr s) k c -> 1 / 10 <= Rabs (c - x)) -> conv (BNumber (Fin x)) = Err KeyError.
  Proof.
    intros H. rewrite conv_step, resolve_number.
    destruct (filter (near x (1 / 10)) (rs_rsr s)) as [|[k b] l] eqn:F; [reflexivity|]. exfalso.
    assert (I : In (k, b) (filter (near x (1 / 10)) (rs_rsr s))) by (rewrite F; now left). apply filter_In in I as [I1 I2].
    destruct (near_centred _ _ I1 I2) as (c & C & X). specialize (H _ _ C). lra.
  Qed.
  Lemma select_several k c k' c' : k <> k' -> centred (rs_rsr s) k c -> centred (rs_rsr s) k' c' ->
    Rabs (c - x) < 1 / 10 -> Rabs (c' - x) < 1 / 10 -> conv (BNumber (Fin x)) = Err AttributeError.
  Proof.
    intros Hk C C' X X'. rewrite conv_step, resolve_number.
    destruct (centred_first _ _ C) as (b & I & F). destruct (centred_first _ _ C') as (b' & I' & F').
    assert (J : In (k, b) (filter (near x (1 / 10)) (rs_rsr s))) by (apply filter_In; split; [auto|now apply (near_iff k b c F)]).
    assert (J' : In (k', b') (filter (near x (1 / 10)) (rs_rsr s))) by (apply filter_In; split; [auto|now apply (near_iff k' b' c' F')]).
    destruct (filter _ _) as [|u [|v l]]; [destruct J| |reflexivity]. exfalso.
    destruct J as [J|[]]. destruct J' as [J'|[]]. congruence.
  Qed.
End Select.

Lemma well_centred_inv (rsr : rsrdata XRN) : well_centred rsr -> NoDup (dkeys rsr) /\ Forall (fun kb => first_cw (snd kb) <> None) rsr.
Proof.
  intros [A B]. split; [exact A|]. apply Forall_forall. intros [k b] H. cbn [snd].
  destruct (B _ _ H) as (c & b0 & d & [[= <-]|[]] & D & W). unfold first_cw. now rewrite D, W.
Qed.

Section SelectT.
  Local Open Scope R_scope.
  Lemma by_number_one load p i det x tbr (s : rsr_state XRN) k c : load p i = Ok s -> well_centred (rs_rsr s) -> tbr <> Fin 0 ->
    centred (rs_rsr s) k c -> Rabs (c - x) < 1 / 10 ->
    (forall k' c', centred (rs_rsr s) k' c' -> Rabs (c' - x) < 1 / 10 -> k' = k) ->
    same_conversions (RadTbConverter load p i (BNumber (Fin x)) det WAVE_LENGTH tbr) (RadTbConverter load p i (BStr k) det WAVE_LENGTH tbr).
  Proof. intros L W T. destruct (well_centred_inv _ W) as [A B]. now apply (select_one load p i det x tbr s L A B T k c). Qed.
  Lemma by_number_none load p i det x tbr (s : rsr_state XRN) : load p i = Ok s -> well_centred (rs_rsr s) -> tbr <> Fin 0 ->
    (forall k c, centred (rs_rsr s) k c -> 1 / 10 <= Rabs (c - x)) ->
    RadTbConverter load p i (BNumber (Fin x)) det WAVE_LENGTH tbr = Err KeyError.
  Proof. intros L W T. destruct (well_centred_inv _ W) as [A B]. now apply (select_none load p i det x tbr s L A B T). Qed.
  Lemma by_number_several load p i det x tbr (s : rsr_state XRN) k c k' c' : load p i = Ok s -> well_centred (rs_rsr s) -> tbr <> Fin 0 ->
    k <> k' -> centred (rs_rsr s) k c -> centred (rs_rsr s) k' c' -> Rabs (c - x) < 1 / 10 -> Rabs (c' - x) < 1 / 10 ->
    RadTbConverter load p i (BNumber (Fin x)) det WAVE_LENGTH tbr = Err AttributeError.
  Proof. intros L W T. destruct (well_centred_inv _ W) as [A B]. now apply (select_several load p i det x tbr s L A B T k c k' c'). Qed.

  Lemma by_number_calculator (E : nir_env XRN) p i det fl sz ml w w' x (s : rsr_state XRN) k c cl : nx_load E p i = Ok s -> well_centred (rs_rsr s) ->
    centred (rs_rsr s) k c -> Rabs (c - x) < 1 / 10 ->
    (forall k' c', centred (rs_rsr s) k' c' -> Rabs (c' - x) < 1 / 10 -> k' = k) -> 35 / 10 <= x <= 395 / 100 ->
    Calculator E p i (BStr k) det WAVE_LENGTH fl sz ml w = (w', Ok cl) ->
    exists cl', Calculator E p i (BNumber (Fin x)) det WAVE_LENGTH fl sz ml w = (w', Ok cl') /\ same_reflectances (w', Ok cl') (w', Ok cl).
  Proof.
    intros L W C X U Hx H. destruct (well_centred_inv _ W) as [Hnd Hcw].
    assert (T : (nlit XRN 1 10 : XR) <> Fin 0). { cbn. unfold xlit. intros [= K]. lra. }
    destruct (unique_filter x s Hnd _ _ C X U) as (b & Hf).
    pose proof (number_conv (nx_load E) p i det x (nlit XRN 1 10) s L Hnd Hcw T k c C X U) as NC.
    unfold Calculator in H |- *. unfold M_Download.lift, iobind, ret in H |- *.
    destruct (RadTbConverter (nx_load E) p i (BStr k) det WAVE_LENGTH (nlit XRN 1 10)) as [cv|] eqn:CV; [|discriminate].
    rewrite NC.
    assert (R : cv_rsr cv = RsrDict (rs_instrument s) (rs_rsr s)).
    { rewrite (conv_step (nx_load E) p i det (nlit XRN 1 10) s L T) in CV. cbn [resolve_band bind] in CV.
      destruct (band_entry _ _) as [e|]; [|discriminate]. cbn [bind] in CV.
      destruct (of_option KeyError (dget det e)) as [d|]; [|discriminate]. cbn [bind] in CV.
      destruct (get_arr WAVE_LENGTH d) as [v|]; [|discriminate]. cbn [bind] in CV.
      destruct (get_arr "response" d) as [r|]; [|discriminate]. cbn [bind] in CV.
      destruct (trapezoid r _) as [t|]; [|discriminate]. cbn [bind] in CV. injection CV as <-. reflexivity. }
    destruct (nir_band cv i (BStr k)) as [[bn bw]|] eqn:NB; [|discriminate]. cbn [fst snd] in H.
    assert (Hbn : bn = translate_band i k).
    { unfold nir_band in NB. destruct (rsr_getitem (cv_rsr cv) (translate_band i k)) as [e|]; [|discriminate]. cbn [bind] in NB.
      destruct (of_option KeyError (dget "det-1" e)) as [d|]; [|discriminate]. cbn [bind] in NB.
      destruct (get_num "central_wavelength" d) as [v|]; [|discriminate]. cbn [bind] in NB.
      destruct (_ || _)%bool; [discriminate|]. now injection NB as <- <-. }
    assert (NN : nir_band (relabel (BNumber (Fin x)) (Some (Fin x)) cv) i (BNumber (Fin x)) = Ok (bn, Fin x)).
    { unfold nir_band. cbn [cv_rsr relabel]. rewrite R. cbn [rsr_data].
      pose proof (bandname_spec i x (1 / 10) false (rs_rsr s) Hnd Hcw) as B. rewrite Hf in B. cbn [map fst] in B.
      etransitivity; [apply (f_equal (fun m => bind (bind m _) _)); exact B|]. cbn [bind]. rewrite <- Hbn.
      replace (_ || _)%bool with false; [reflexivity|]. symmetry. cbn. unfold xlit. apply Bool.orb_false_iff.
      split; apply Rltb_false_iff; lra. }
    rewrite NN. cbn [fst snd].
    change (get_solarflux E (relabel (BNumber (Fin x)) (Some (Fin x)) cv) bn) with (get_solarflux E cv bn).
    destruct (match fl with Some f => Ok f | None => get_solarflux E cv bn end) as [fx|]; [|discriminate].
    destruct (set_lutfile E p i bn w) as [w1 [f|]]; [|discriminate].
    change (set_lut E (relabel (BNumber (Fin x)) (Some (Fin x)) cv) f w1) with (set_lut E cv f w1).
    destruct (set_lut E cv f w1) as [w2 [t|]]; [|discriminate]. injection H as <- <-.
    eexists. split; [reflexivity|]. split; [reflexivity|]. cbn [snd]. split; reflexivity.
  Qed.
End SelectT.
