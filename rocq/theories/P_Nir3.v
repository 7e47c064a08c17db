(** Histories of one calculator (C23, C24) and its construction (C25-C27, C16). *)
From Coq Require Import Reals Lra ZArith String Ascii List Bool Arith Lia.
From Verif Require Import Base NumSig XR M_Tables M_Utils M_Rsr M_Blackbody M_RadTb M_World M_Config M_Download M_Nir S_Nir
     P_Arr P_RadTb P_RadTb2 P_Nir P_Nir2.
Import ListNotations.
Local Open Scope nat_scope.

Section Generic.
  Context {N : Num}.

  (** ** C23 *)
  (** the attributes that a reflectance call determines *)
  Definition same_but_e3x (a b : nirstate N) : Prop :=
    ns_r3x a = ns_r3x b /\ ns_rad3x a = ns_rad3x b /\ ns_rad3x_t11 a = ns_rad3x_t11 b /\
    ns_correction a = ns_correction b /\ ns_solar a = ns_solar b.

  Lemma refl_history_free (E : nir_env N) c sun nir therm co2 lut st st' :
    let (s1, o1) := reflectance_from_tbs E c sun nir therm co2 lut st in
    let (s2, o2) := reflectance_from_tbs E c sun nir therm co2 lut st' in
    o1 = o2 /\ (is_ok o1 = true -> same_but_e3x s1 s2).
  Proof.
    unfold reflectance_from_tbs. destruct (rsr_data _); [split; [reflexivity|discriminate]|].
    destruct (negb _); [split; [reflexivity|discriminate]|]. unfold mbind, mlift, mset.
    destruct (tb2rad E (cl_conv c) (get_as_array therm) _) as [rad11|]; [|split; [reflexivity|discriminate]].
    destruct (tb2rad E (cl_conv c) (get_as_array nir) _) as [rad3x|]; [|split; [reflexivity|discriminate]].
    destruct co2 as [a|].
    - unfold m_derive_rad39_corr, mbind, mlift, mset. destruct (derive_rad39_corr _ _ _); [|split; [reflexivity|discriminate]].
      cbn [ns_correction with_corr with_solar with_rad3x with_rad11].
      destruct (calculate_r3x _ _ _ _ _ _ _ _ _); [|split; [reflexivity|discriminate]]. split; [reflexivity|]. intros _. repeat split.
    - cbn [ns_correction with_corr with_solar with_rad3x with_rad11].
      destruct (calculate_r3x _ _ _ _ _ _ _ _ _); [|split; [reflexivity|discriminate]]. split; [reflexivity|]. intros _. repeat split.
  Qed.

  (** A call on an image succeeds as soon as the temperatures convert. *)
  Lemma reflectance_ok (E : nir_env N) c s sun nir therm co2 lut st rad11 rad3x : rsr_data (cv_rsr (cl_conv c)) <> [] ->
    one_image s sun nir therm co2 lut ->
    tb2rad E (cl_conv c) (get_as_array therm) (table_of c lut) = Ok rad11 ->
    tb2rad E (cl_conv c) (get_as_array nir) (table_of c lut) = Ok rad3x ->
    exists st' r, reflectance_from_tbs E c sun nir therm co2 lut st = (st', Ok r).
  Proof.
    intros Hr (Hn & Ht & Hz & Hc & Hl) E11 E3. unfold reflectance_from_tbs. destruct (rsr_data _); [congruence|].
    replace (shape_eqb (a_shape (get_as_array therm)) (a_shape (get_as_array nir))) with true
      by (symmetry; apply shape_eqb_iff; destruct Hn, Ht; congruence).
    cbn [negb]. fold (table_of c lut). unfold mbind, mlift, mset. rewrite E11, E3.
    assert (HL : table_of c lut = None -> exists n, s = [n]).
    { destruct lut as [[t|]|]; cbn; try discriminate. auto. }
    pose proof (tb2rad_fits _ _ _ _ _ _ E11 Ht HL) as F11. pose proof (tb2rad_fits _ _ _ _ _ _ E3 Hn HL) as F3.
    assert (Fn : fits s (get_as_array nir)) by (left; exact Hn). assert (Ft : fits s (get_as_array therm)) by (left; exact Ht).
    set (dn := a_dtype (get_as_array nir)) in *. set (solar := solar_radiance E c (get_as_array sun) dn) in *.
    assert (Fs : fits s solar) by (apply fits_astype, fits_map; exact Hz).
    destruct co2 as [a|].
    - specialize (Hc a eq_refl). destruct (corr_pixels s _ _ Ft Hc) as (corr0 & Ec & Fc & _).
      unfold m_derive_rad39_corr, mbind, mlift, mset. rewrite Ec. cbn [with_corr ns_correction with_rad11 with_rad3x with_solar].
      destruct (r3x_pixels E c s rad11 rad3x (astype E dn corr0) solar (get_as_array therm) (get_as_array sun) (get_as_array nir)) as (r0 & Er & _ & _); auto.
      { now apply fits_astype. }
      rewrite Er. eauto.
    - cbn [with_corr ns_correction with_rad11 with_rad3x with_solar].
      assert (Fc : fits s (@scalar N (nlit N 1 1))) by (right; eexists; split; [reflexivity|auto]).
      destruct (r3x_pixels E c s rad11 rad3x (astype E dn (scalar (nlit N 1 1))) solar (get_as_array therm) (get_as_array sun) (get_as_array nir)) as (r0 & Er & _ & _); auto.
      { now apply fits_astype. }
      rewrite Er. eauto.
  Qed.

  Lemma refl_sets (E : nir_env N) c sun nir therm co2 lut st st' r :
    reflectance_from_tbs E c sun nir therm co2 lut st = (st', Ok r) ->
    exists rad11 rad3x, ns_r3x st' = Some r /\ ns_rad3x st' = Some rad3x /\ ns_rad3x_t11 st' = Some rad11.
  Proof.
    unfold reflectance_from_tbs. destruct (rsr_data _); [discriminate|].
    destruct (negb _); [discriminate|]. unfold mbind, mlift, mset.
    destruct (tb2rad E (cl_conv c) (get_as_array therm) _) as [rad11|]; [|discriminate].
    destruct (tb2rad E (cl_conv c) (get_as_array nir) _) as [rad3x|]; [|discriminate].
    destruct co2 as [a|].
    - unfold m_derive_rad39_corr, mbind, mlift, mset. destruct (derive_rad39_corr _ _ _); [|discriminate].
      cbn [ns_correction with_corr with_solar with_rad3x with_rad11].
      destruct (calculate_r3x _ _ _ _ _ _ _ _ _); [|discriminate]. intros [= <- <-]. eexists _, _. repeat split.
    - cbn [ns_correction with_corr with_solar with_rad3x with_rad11].
      destruct (calculate_r3x _ _ _ _ _ _ _ _ _); [|discriminate]. intros [= <- <-]. eexists _, _. repeat split.
  Qed.

  Lemma emissive_history_free (c : calculator N) tb a b : same_but_e3x a b -> ns_r3x a <> None -> ns_rad3x_t11 a <> None ->
    ns_rad3x a <> None ->
    snd (emissive_part_3x c tb a) = snd (emissive_part_3x c tb b).
  Proof.
    intros (H1 & H2 & H3 & _) N1 N2 N3. unfold emissive_part_3x. rewrite <- H1, <- H2, <- H3.
    destruct (ns_rad3x_t11 a) as [t|]; [|congruence]. destruct (ns_r3x a) as [r|]; [|congruence].
    destruct (ns_rad3x a) as [l|]; [|congruence].
    destruct (bmap2 _ t _) as [e|]; [|reflexivity]. destruct (bmap2 _ e l) as [e'|]; reflexivity.
  Qed.

  (** Whatever was called before, a call gives what it gives on a new object, and
      the emissive part after it as well. *)
  Lemma history_free (E : nir_env N) c ks sun nir therm co2 lut :
    let (s1, o1) := reflectance_from_tbs E c sun nir therm co2 lut (run_calls E c ks fresh_state) in
    let (s2, o2) := reflectance_from_tbs E c sun nir therm co2 lut fresh_state in
    o1 = o2 /\
    (is_ok o1 = true -> ns_solar s1 = ns_solar s2 /\ ns_correction s1 = ns_correction s2 /\
       forall tb, snd (emissive_part_3x c tb s1) = snd (emissive_part_3x c tb s2)).
  Proof.
    pose proof (refl_history_free E c sun nir therm co2 lut (run_calls E c ks fresh_state) fresh_state) as H.
    destruct (reflectance_from_tbs E c sun nir therm co2 lut (run_calls E c ks fresh_state)) as [s1 o1] eqn:E1.
    destruct (reflectance_from_tbs E c sun nir therm co2 lut fresh_state) as [s2 o2]. destruct H as [-> H].
    split; [reflexivity|]. destruct o2 as [r|]; [|discriminate]. intros _. specialize (H eq_refl).
    destruct (refl_sets _ _ _ _ _ _ _ _ _ _ E1) as (rad11 & rad3x & A & B & C).
    split; [apply H|]. split; [apply H|]. intros tb. apply emissive_history_free; [exact H|congruence|congruence|congruence].
  Qed.

  (** ** C24 *)

  Lemma never_called (E : nir_env N) c ks : forallb no_reflectance ks = true ->
    let s := run_calls E c ks fresh_state in ns_e3x s = None /\ ns_r3x s = None.
  Proof.
    intros H. cbv zeta. unfold run_calls. assert (G : forall s, ns_e3x s = None -> ns_r3x s = None ->
      let s' := fold_left (fun s k => run_call E c k s) ks s in ns_e3x s' = None /\ ns_r3x s' = None); [|now apply G].
    induction ks as [|k ks IH]; intros s He Hr; [auto|]. cbn [forallb] in H. apply andb_true_iff in H. destruct H as [Hk H].
    cbn [fold_left]. apply (IH H); destruct k; cbn [no_reflectance] in Hk; try discriminate; cbn [run_call].
    - unfold emissive_part_3x. rewrite Hr. destruct (ns_rad3x_t11 s); exact He.
    - unfold m_derive_rad39_corr, mbind, mlift, mset. destruct (derive_rad39_corr _ _ _); exact He.
    - unfold emissive_part_3x. rewrite Hr. destruct (ns_rad3x_t11 s); exact Hr.
    - unfold m_derive_rad39_corr, mbind, mlift, mset. destruct (derive_rad39_corr _ _ _); exact Hr.
  Qed.

  Lemma emissive_without (E : nir_env N) c ks : forallb no_reflectance ks = true ->
    let s := run_calls E c ks fresh_state in
    emissive_part_3x c false s = (s, Ok None) /\
    forall b d cw, band_entry (cv_rsr (cl_conv c)) (cv_bandname (cl_conv c)) = Ok b -> dget (cv_detector (cl_conv c)) b = Some d ->
      get_num "central_wavelength" d = Ok cw -> emissive_part_3x c true s = (s, Err AttributeError).
  Proof.
    intros H. cbv zeta. destruct (never_called E c ks H) as [He Hr]. set (s := run_calls E c ks fresh_state) in *. clearbody s.
    unfold emissive_part_3x. rewrite Hr. split.
    - destruct (ns_rad3x_t11 s); cbn [bind]; now rewrite He.
    - intros b d cw H1 H2 H3. assert (Q : converter_radiance2tb (cl_conv c) PyNone = Err AttributeError).
      { unfold converter_radiance2tb. rewrite H1. cbn [bind]. rewrite H2. cbn [of_option bind]. rewrite H3. reflexivity. }
      destruct (ns_rad3x_t11 s); cbn [bind]; rewrite He, Q; reflexivity.
  Qed.

  (** a call that fails after the radiances were computed *)
  Lemma failed_half_way (E : nir_env N) c sun nir therm co2 lut st st' e rad11 rad3x :
    reflectance_from_tbs E c sun nir therm co2 lut st = (st', Err e) ->
    rsr_data (cv_rsr (cl_conv c)) <> [] -> a_shape (get_as_array therm) = a_shape (get_as_array nir) ->
    tb2rad E (cl_conv c) (get_as_array therm) (table_of c lut) = Ok rad11 ->
    tb2rad E (cl_conv c) (get_as_array nir) (table_of c lut) = Ok rad3x ->
    ns_rad3x_t11 st' = Some rad11 /\ ns_rad3x st' = Some rad3x /\ ns_r3x st' = ns_r3x st /\ ns_e3x st' = ns_e3x st.
  Proof.
    intros H Hr Hsh E1 E2. unfold reflectance_from_tbs in H. destruct (rsr_data _); [congruence|].
    rewrite Hsh, shape_eqb_refl in H. cbn [negb] in H. fold (table_of c lut) in H. unfold mbind, mlift, mset in H. rewrite E1, E2 in H.
    destruct co2 as [a|].
    - unfold m_derive_rad39_corr, mbind, mlift, mset in H. destruct (derive_rad39_corr _ _ _); [|injection H as <- <-; repeat split].
      cbn [ns_correction with_corr with_solar with_rad3x with_rad11] in H.
      destruct (calculate_r3x _ _ _ _ _ _ _ _ _); [discriminate|]. injection H as <- <-. repeat split.
    - cbn [ns_correction with_corr with_solar with_rad3x with_rad11] in H.
      destruct (calculate_r3x _ _ _ _ _ _ _ _ _); [discriminate|]. injection H as <- <-. repeat split.
  Qed.

  (** ** C27 *)
  Lemma shape_mismatch (E : nir_env N) c sun nir therm co2 lut st : rsr_data (cv_rsr (cl_conv c)) <> [] ->
    a_shape (get_as_array therm) <> a_shape (get_as_array nir) ->
    reflectance_from_tbs E c sun nir therm co2 lut st = (st, Err ValueError).
  Proof.
    intros Hr H. unfold reflectance_from_tbs. destruct (rsr_data _); [congruence|].
    rewrite shape_eqb_false by exact H. reflexivity.
  Qed.
End Generic.

(** the emissive part, given the three arrays *)
Lemma emissive_pixels (c : calculator XRN) s st rad11 rad3x r tb :
  ns_rad3x_t11 st = Some rad11 -> ns_rad3x st = Some rad3x -> ns_r3x st = Some r -> fits s rad11 -> fits s rad3x -> fits s r ->
  exists a, ns_e3x (fst (emissive_part_3x c tb st)) = Some a /\
    snd (emissive_part_3x c tb st) =
      (if tb then q <- converter_radiance2tb (cl_conv c) (NpArray (a_data a)) ;; Ok (Some (arg_values q)) else Ok (Some (a_data a))) /\
    forall k L T v, k < size s -> pix k rad3x = Some (Fin L) -> pix k rad11 = Some (Fin T) -> pix k r = Some v ->
      (v = NaN -> pix k a = Some (Fin L)) /\ (forall x, v = Fin x -> pix k a = Some (Fin (T * (1 - x)))).
Proof.
  intros H11 H3 Hr F11 F3 Fr. unfold emissive_part_3x. rewrite H11, Hr, H3.
  pose proof (fits_map (fun x => nsub XRN (nlit XRN 1 1) x) s _ Fr) as Fr'.
  destruct (bmap2_shape (nmul XRN) s _ _ F11 Fr') as (e & E1 & Fe). rewrite E1.
  destruct (bmap2_shape (fun m x => if nisnan XRN m then x else m) s _ _ Fe F3) as (a & E2 & Fa). rewrite E2.
  exists a. split; [reflexivity|]. split; [destruct tb; reflexivity|].
  intros k L T v Hk PL PT Pv.
  assert (Pe : pix k e = Some (nmul XRN (Fin T) (nsub XRN (nlit XRN 1 1) v))).
  { apply (bmap2_pix _ s _ _ _ k _ _ F11 Fr' E1 Hk PT). now rewrite pix_map, Pv. }
  pose proof (bmap2_pix _ s _ _ _ k _ _ Fe F3 E2 Hk Pe PL) as Pa. change (num XRN) with XR in *. rewrite Pa. split.
  - intros ->. reflexivity.
  - intros x ->. cbn. unfold xlit. repeat f_equal. lra.
Qed.

Lemma emissive_after E c s sun nir therm co2 lut st st' r I flux thr lim :
  reflectance_from_tbs E c sun nir therm co2 lut st = (st', Ok r) -> one_image s sun nir therm co2 lut -> floats nir therm ->
  settings c I flux thr lim -> forall tb,
  exists a, snd (emissive_part_3x c tb st') =
      (if tb then q <- converter_radiance2tb (cl_conv c) (NpArray (a_data a)) ;; Ok (Some (arg_values q)) else Ok (Some (a_data a))) /\
    forall k z tn L T F, k < size s -> pixel E c sun nir therm co2 lut k z tn L T F ->
      (pix k r = Some NaN -> pix k a = Some (Fin L)) /\ (forall x, pix k r = Some (Fin x) -> pix k a = Some (Fin (T * (1 - x)))).
Proof.
  intros H Him Hf Hs tb. destruct (reflectance_pixels _ _ _ _ _ _ _ _ _ _ _ H Him) as (rad11 & rad3x & solar & corr & E11 & E3 & -> & F11 & F3 & Fr & Fc & P).
  match goal with |- context [emissive_part_3x c tb ?s] => set (s1 := s) end.
  destruct (emissive_pixels c s s1 rad11 rad3x r tb eq_refl eq_refl eq_refl F11 F3 Fr) as (a & _ & Ho & Pa).
  exists a. split; [exact Ho|]. intros k z tn L T F Hk (_ & _ & (a3 & Q3 & PL) & (a11 & Q11 & PT) & _).
  rewrite E3 in Q3. injection Q3 as <-. rewrite E11 in Q11. injection Q11 as <-. split.
  - intros Pr. now apply (Pa k L T NaN Hk PL PT Pr).
  - intros x Pr. now apply (Pa k L T (Fin x) Hk PL PT Pr).
Qed.

(** After a call that failed half way: new radiances, old reflectance. *)
Lemma emissive_mixed E c s sun nir therm co2 lut st st' e r_old :
  reflectance_from_tbs E c sun nir therm co2 lut st = (st', Err e) ->
  rsr_data (cv_rsr (cl_conv c)) <> [] -> is_image s (get_as_array nir) -> is_image s (get_as_array therm) ->
  (lut = Some None -> exists n, s = [n]) -> ns_r3x st = Some r_old -> fits s r_old ->
  forall rad11 rad3x, tb2rad E (cl_conv c) (get_as_array therm) (table_of c lut) = Ok rad11 ->
  tb2rad E (cl_conv c) (get_as_array nir) (table_of c lut) = Ok rad3x ->
  exists a, snd (emissive_part_3x c false st') = Ok (Some (a_data a)) /\
    forall k L T v, k < size s -> pix k rad3x = Some (Fin L) -> pix k rad11 = Some (Fin T) -> pix k r_old = Some v ->
      (v = NaN -> pix k a = Some (Fin L)) /\ (forall x, v = Fin x -> pix k a = Some (Fin (T * (1 - x)))).
Proof.
  intros H Hr Hn Ht Hl Ho Fo rad11 rad3x E11 E3.
  assert (Hsh : a_shape (get_as_array therm) = a_shape (get_as_array nir)) by (destruct Hn, Ht; congruence).
  destruct (failed_half_way E c sun nir therm co2 lut st st' e rad11 rad3x H Hr Hsh E11 E3) as (A & B & C & _).
  assert (HL : table_of c lut = None -> exists n, s = [n]).
  { destruct lut as [[t|]|]; cbn; try discriminate. auto. }
  rewrite Ho in C.
  destruct (emissive_pixels c s st' rad11 rad3x r_old false A B C) as (a & _ & Hs & Pa); [now apply (tb2rad_fits _ _ _ _ _ _ E11 Ht)|now apply (tb2rad_fits _ _ _ _ _ _ E3 Hn)|exact Fo|].
  exists a. split; [exact Hs|exact Pa].
Qed.
