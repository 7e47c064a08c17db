(** Lemmas about the SEVIRI regression conversion. *)
From Coq Require Import Reals Lra ZArith String List Lia Bool.
From Verif Require Import Base NumSig XR M_Tables M_Utils M_Rsr M_Blackbody M_RadTb
     S_Planck S_Seviri P_Blackbody P_RadTb.
Import ListNotations.
Open Scope R_scope.

Definition sv_class (p s : string) : option exn :=
  let s' := translate_band "seviri" s in
  if existsb_str s' seviri_internal then
    if existsb_str p seviri_satellites then None
    else if String.eqb s' "IR3.9" && String.eqb p "Meteosat-10" then Some IndexError else Some KeyError
  else Some KeyError.

Lemma coeffs_class p s :
  match sv_class p s with
  | None => exists v a b, @seviri_coeffs XRN {| sv_platform := p; sv_bandname := translate_band "seviri" s |}
                          = Ok (Fin v, Fin a, Fin b) /\ 0 < v /\ 0 < a /\ 0 < b
  | Some e => @seviri_coeffs XRN {| sv_platform := p; sv_bandname := translate_band "seviri" s |} = Err e
  end.
Proof.
  unfold sv_class, seviri_coeffs. cbn [sv_platform sv_bandname].
  generalize (translate_band "seviri" s). intros s'.
  unfold SEVIRI, existsb_str, seviri_internal, seviri_satellites. cbn [dget existsb].
  repeat match goal with
  | |- context [String.eqb s' ?x] =>
      let E := fresh in destruct (String.eqb_spec s' x) as [E|E]; [subst s'|];
      cbn [orb andb of_option bind dget existsb]
  end; try reflexivity;
  repeat match goal with
  | |- context [String.eqb p ?x] =>
      let E := fresh in destruct (String.eqb_spec p x) as [E|E]; [subst p|];
      cbn [orb andb of_option bind dget existsb]
  end; try reflexivity;
  try match goal with |- exists _, _ => idtac end;
  try (unfold row, idx; cbn [nth_error of_option bind]; unfold nZ; rewrite !nlit_fin;
       cbn [nmul XRN xmul]; do 3 eexists; split; [reflexivity|]; lra).
Qed.

Lemma sv_class_none p s : sv_class p s = None <-> seviri_supported p s.
Proof.
  unfold sv_class, translate_band, seviri_supported. cbn [dget BANDNAMES String.eqb Ascii.eqb Bool.eqb].
  unfold BN_seviri. cbn [dget].
  split.
  - intros H. split.
    + destruct (existsb_str p seviri_satellites) eqn:E.
      * apply existsb_exists in E as (x & Hx & E). apply String.eqb_eq in E. now subst.
      * exfalso. destruct (existsb_str _ seviri_internal); [|discriminate].
        destruct (_ && _); discriminate.
    + revert H. 
      repeat match goal with
      | |- context [String.eqb s ?x] =>
          destruct (String.eqb_spec s x); [subst s|]
      end; try (intros HH; exfalso; cbv in HH; discriminate HH); try (intros _; right; simpl; tauto);
        try (intros _; left; simpl; tauto).
      intros HH. left.
      destruct (existsb_str s seviri_internal) eqn:E; [|discriminate].
      apply existsb_exists in E as (x & Hx & E). apply String.eqb_eq in E. now subst.
  - intros [Hp Hs].
    assert (existsb_str p seviri_satellites = true) as ->.
    { apply existsb_exists. exists p. split; auto. apply String.eqb_refl. }
    simpl in Hs.
    repeat (destruct Hs as [Hs|Hs]); try contradiction; subst s; reflexivity.
Qed.

Lemma sv_c1_eq : @sv_c1 XRN = Fin c2.
Proof. exact C2_eq. Qed.
Lemma sv_c2_eq : @sv_c2 XRN = Fin c1.
Proof. exact C1_eq. Qed.

Lemma seviri_rad1 v a b t : 0 < v -> 0 < a * t + b ->
  ndiv XRN (nmul XRN (@sv_c1 XRN) (@npow XRN (Fin v) 3))
    (nsub XRN (nexp XRN (ndiv XRN (nmul XRN (@sv_c2 XRN) (Fin v)) (nadd XRN (nmul XRN (Fin a) (Fin t)) (Fin b)))) (@nZ XRN 1))
  = Fin (B_nu v (a * t + b)).
Proof.
  intros Hv Ht. rewrite sv_c1_eq, sv_c2_eq, npow_fin, nZ_fin.
  cbn [ndiv nmul nadd nsub nexp XRN xmul xadd]. rewrite xdiv_fin by lra. cbn [xexp xsub].
  rewrite xdiv_fin.
  - now rewrite B_nu_raw by auto.
  - pose proof (exp_m1_pos (c1 * v / (a * t + b))) as H. pose proof (argn_pos v (a * t + b)). lra.
Qed.

Lemma seviri_tb1 v a b l : 0 < v -> 0 < a -> 0 < l ->
  nsub XRN (ndiv XRN (nmul XRN (@sv_c2 XRN) (Fin v))
     (nmul XRN (Fin a) (nlog XRN (nadd XRN (ndiv XRN (nmul XRN (@sv_c1 XRN) (@npow XRN (Fin v) 3)) (Fin l)) (@nZ XRN 1)))))
   (ndiv XRN (Fin b) (Fin a))
  = Fin ((T_nu v l - b) / a).
Proof.
  intros Hv Ha Hl. rewrite sv_c1_eq, sv_c2_eq, npow_fin, nZ_fin.
  cbn [ndiv nmul nadd nsub nlog XRN xmul]. rewrite xdiv_fin by lra. cbn [xadd].
  pose proof (T_nu_arg v l Hv Hl) as Hx. rewrite xlog_pos by lra. cbn [xmul].
  pose proof (ln_p1_pos _ Hx) as Hln.
  rewrite !xdiv_fin; [|lra|apply Rgt_not_eq, Rmult_lt_0_compat; auto].
  cbn [xsub]. f_equal. rewrite T_nu_raw by auto. field. lra.
Qed.

(** ** Statements of T_Seviri *)
Lemma seviri_ctor p s wsp tbr (c : seviri) :
  @SeviriRadTbConverter XRN p (BStr s) wsp tbr = Ok c ->
  c = {| sv_platform := p; sv_bandname := translate_band "seviri" s |}.
Proof.
  unfold SeviriRadTbConverter. intros H. inv_bind H. inv_bind H. now injection H as <-.
Qed.

Lemma supported_coeffs p s : seviri_supported p s ->
  exists v a b, @seviri_coeffs XRN {| sv_platform := p; sv_bandname := translate_band "seviri" s |}
                = Ok (Fin v, Fin a, Fin b) /\ 0 < v /\ 0 < a /\ 0 < b.
Proof.
  intros H. apply sv_class_none in H. pose proof (coeffs_class p s) as C. now rewrite H in C.
Qed.

Lemma seviri_roundtrip_T :
  forall p s wsp tbr c ts, @SeviriRadTbConverter XRN p (BStr s) wsp tbr = Ok c ->
  seviri_supported p s -> Forall (fun t => 0 <= t) ts ->
  exists Ls, @seviri_tb2radiance XRN c (map Fin ts) false true = Ok (map Fin Ls) /\
             Forall (fun l => 0 < l) Ls /\
             @seviri_radiance2tb XRN c (map Fin Ls) = Ok (map Fin ts).
Proof.
  intros p s wsp tbr c ts Hc Hs Ht. apply seviri_ctor in Hc. subst c.
  destruct (supported_coeffs p s Hs) as (v & a & b & HC & Hv & Ha & Hb).
  assert (Hpos : Forall (fun t => 0 < a * t + b) ts).
  { eapply Forall_impl; [|exact Ht]. intros t H. pose proof (Rmult_le_pos a t). lra. }
  exists (map (fun t => B_nu v (a * t + b)) ts). unfold seviri_tb2radiance, seviri_radiance2tb.
  cbn [negb]. rewrite HC. cbn [bind]. split; [|split].
  - f_equal. rewrite !map_map. apply map_ext_in. intros t Hin. apply seviri_rad1; auto.
    rewrite Forall_forall in Hpos. auto.
  - apply Forall_map. eapply Forall_impl; [|exact Hpos]. intros t H. now apply B_nu_pos.
  - f_equal. rewrite !map_map. apply map_ext_in. intros t Hin. rewrite Forall_forall in Hpos.
    specialize (Hpos t Hin). rewrite seviri_tb1; auto using B_nu_pos.
    rewrite T_of_B_nu by auto. f_equal. field. lra.
Qed.

Lemma seviri_roundtrip_L :
  forall p s wsp tbr c Ls, @SeviriRadTbConverter XRN p (BStr s) wsp tbr = Ok c ->
  seviri_supported p s -> Forall (fun l => 0 < l) Ls ->
  exists ts, @seviri_radiance2tb XRN c (map Fin Ls) = Ok (map Fin ts) /\
             @seviri_tb2radiance XRN c (map Fin ts) false true = Ok (map Fin Ls).
Proof.
  intros p s wsp tbr c Ls Hc Hs HL. apply seviri_ctor in Hc. subst c.
  destruct (supported_coeffs p s Hs) as (v & a & b & HC & Hv & Ha & Hb).
  exists (map (fun l => (T_nu v l - b) / a) Ls). unfold seviri_tb2radiance, seviri_radiance2tb.
  cbn [negb]. rewrite HC. cbn [bind]. rewrite Forall_forall in HL. split.
  - f_equal. rewrite !map_map. apply map_ext_in. intros l Hin. apply seviri_tb1; auto.
  - f_equal. rewrite !map_map. apply map_ext_in. intros l Hin.
    assert (E : a * ((T_nu v l - b) / a) + b = T_nu v l) by (field; lra).
    rewrite seviri_rad1; auto.
    + rewrite E, B_of_T_nu by auto. reflexivity.
    + rewrite E. apply T_nu_pos; auto.
Qed.

Lemma seviri_incr :
  forall p s wsp tbr c t t', @SeviriRadTbConverter XRN p (BStr s) wsp tbr = Ok c ->
  seviri_supported p s -> 0 <= t -> t < t' ->
  exists l l', @seviri_tb2radiance XRN c [Fin t; Fin t'] false true = Ok [Fin l; Fin l'] /\ 0 < l < l'.
Proof.
  intros p s wsp tbr c t t' Hc Hs H0 Htt. apply seviri_ctor in Hc. subst c.
  destruct (supported_coeffs p s Hs) as (v & a & b & HC & Hv & Ha & Hb).
  pose proof (Rmult_le_pos a t). assert (a * t < a * t') by (apply Rmult_lt_compat_l; auto).
  exists (B_nu v (a * t + b)), (B_nu v (a * t' + b)). unfold seviri_tb2radiance.
  cbn [negb]. rewrite HC. cbn [bind map]. rewrite !seviri_rad1 by (auto; lra). split; [reflexivity|].
  split; [apply B_nu_pos|apply B_nu_incr]; auto; lra.
Qed.

Lemma seviri_which :
  forall p s wsp tbr c tb rad, @SeviriRadTbConverter XRN p (BStr s) wsp tbr = Ok c ->
  (seviri_supported p s ->
     is_ok (@seviri_tb2radiance XRN c tb false true) = true /\ is_ok (@seviri_radiance2tb XRN c rad) = true) /\
  (~ seviri_supported p s ->
     let e := if String.eqb p "Meteosat-10" && (String.eqb s "IR3.9" || String.eqb s "IR_039")
              then IndexError else KeyError in
     @seviri_tb2radiance XRN c tb false true = Err e /\ @seviri_radiance2tb XRN c rad = Err e).
Proof.
  intros p s wsp tbr c tb rad Hc. apply seviri_ctor in Hc. subst c.
  unfold seviri_tb2radiance, seviri_radiance2tb. cbn [negb].
  pose proof (coeffs_class p s) as C. split.
  - intros Hs. apply sv_class_none in Hs. rewrite Hs in C. destruct C as (v & a & b & -> & _). auto.
  - intros Hs.
    assert (He : sv_class p s = Some (if (String.eqb p "Meteosat-10" && (String.eqb s "IR3.9" || String.eqb s "IR_039"))%bool
              then IndexError else KeyError)).
    { destruct (sv_class p s) as [e|] eqn:E; [|exfalso; apply Hs; now apply sv_class_none].
      f_equal. revert E. unfold sv_class, translate_band.
      cbn [dget BANDNAMES String.eqb Ascii.eqb Bool.eqb]. unfold BN_seviri. cbn [dget].
      destruct (String.eqb_spec p "Meteosat-10") as [->|Hp].
      - cbn [andb]. repeat match goal with
        | |- context [String.eqb s ?x] =>
          destruct (String.eqb_spec s x); [subst s; cbv; intros [= <-]; reflexivity|]
        end. cbn [orb andb].
        destruct (existsb_str s seviri_internal); cbv; intros [= <-]; reflexivity.
      - rewrite !andb_false_r. cbn [andb].
        destruct (existsb_str _ seviri_internal); [|intros [= <-]; reflexivity].
        destruct (existsb_str p seviri_satellites); [discriminate|]. intros [= <-]; reflexivity. }
    rewrite He in C. rewrite C. cbn [bind]. auto.
Qed.

Lemma seviri_refuse :
  forall p band wsp tbr c tb, @SeviriRadTbConverter XRN p band wsp tbr = Ok c ->
  (forall norm, @seviri_tb2radiance XRN c tb true norm = Err NotImplementedError) /\
  (forall lut, @seviri_tb2radiance XRN c tb lut false = Err NotImplementedError).
Proof. intros. split; intros b; unfold seviri_tb2radiance; [reflexivity|]. destruct b; reflexivity. Qed.

Lemma seviri_nonstring :
  forall p (x : XR) wsp tbr, In wsp ["wavelength"; "wavenumber"]%string -> tbr <> Fin 0 ->
  @SeviriRadTbConverter XRN p (BNumber x) wsp tbr = Err AttributeError /\
  @SeviriRadTbConverter XRN p BOther wsp tbr = Err AttributeError.
Proof.
  intros p x wsp tbr Hw Ht. unfold SeviriRadTbConverter.
  assert (Hc : check_wavespace wsp = Ok tt) by (destruct Hw as [<-|[<-|[]]]; reflexivity).
  assert (Hn : neqb XRN tbr (@n0 XRN) = false).
  { rewrite n0_fin. destruct tbr; auto. apply Reqb_false_iff. congruence. }
  rewrite Hc. cbn [bind]. rewrite Hn. auto.
Qed.
