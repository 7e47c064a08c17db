(** Property theorems C14-C15, C86 (SeviriRadTbConverter). *)
From Coq Require Import Reals Lra ZArith String List Bool.
From Verif Require Import Base NumSig XR M_Tables M_RadTb S_Planck S_Seviri P_Seviri P_Seviri2.
Import ListNotations.
Open Scope R_scope.

(** C14 *)
Theorem C14_seviri_roundtrip_temperature :
  forall p s wsp tbr c ts, @SeviriRadTbConverter XRN p (BStr s) wsp tbr = Ok c ->
  seviri_supported p s -> Forall (fun t => 0 <= t) ts ->
  exists Ls, @seviri_tb2radiance XRN c (map Fin ts) false true = Ok (map Fin Ls) /\
             Forall (fun l => 0 < l) Ls /\
             @seviri_radiance2tb XRN c (map Fin Ls) = Ok (map Fin ts).
Proof. exact seviri_roundtrip_T. Qed.
Print Assumptions C14_seviri_roundtrip_temperature.

Theorem C14_seviri_roundtrip_radiance :
  forall p s wsp tbr c Ls, @SeviriRadTbConverter XRN p (BStr s) wsp tbr = Ok c ->
  seviri_supported p s -> Forall (fun l => 0 < l) Ls ->
  exists ts, @seviri_radiance2tb XRN c (map Fin Ls) = Ok (map Fin ts) /\
             @seviri_tb2radiance XRN c (map Fin ts) false true = Ok (map Fin Ls).
Proof. exact seviri_roundtrip_L. Qed.
Print Assumptions C14_seviri_roundtrip_radiance.

Theorem C14_seviri_increasing :
  forall p s wsp tbr c t t', @SeviriRadTbConverter XRN p (BStr s) wsp tbr = Ok c ->
  seviri_supported p s -> 0 <= t -> t < t' ->
  exists l l', @seviri_tb2radiance XRN c [Fin t; Fin t'] false true = Ok [Fin l; Fin l'] /\ 0 < l < l'.
Proof. exact seviri_incr. Qed.
Print Assumptions C14_seviri_increasing.

Example C14_case : exists c Ls,
  @SeviriRadTbConverter XRN "Meteosat-9" (BStr "IR_108"%string) "wavelength" (Fin (1/10)) = Ok c /\
  @seviri_tb2radiance XRN c (map Fin [0; 203.2; 300]) false true = Ok (map Fin Ls) /\
  @seviri_radiance2tb XRN c (map Fin Ls) = Ok (map Fin [0; 203.2; 300]).
Proof.
  assert (E : @SeviriRadTbConverter XRN "Meteosat-9" (BStr "IR_108"%string) "wavelength" (Fin (1/10))
              = Ok {| sv_platform := "Meteosat-9"; sv_bandname := "IR10.8" |}).
  { unfold SeviriRadTbConverter. cbn [check_wavespace bind]. rewrite n0_fin. cbn [neqb XRN xeqb].
    replace (Reqb (1/10) 0) with false by (symmetry; apply Reqb_false_iff; lra). reflexivity. }
  destruct (C14_seviri_roundtrip_temperature _ _ _ _ _ [0; 203.2; 300] E) as (Ls & H1 & _ & H2).
  - split; simpl; tauto.
  - repeat constructor; lra.
  - eauto.
Qed.

(** C15 *)
Theorem C15_which_channels_convert :
  forall p s wsp tbr c tb rad, @SeviriRadTbConverter XRN p (BStr s) wsp tbr = Ok c ->
  (seviri_supported p s ->
     is_ok (@seviri_tb2radiance XRN c tb false true) = true /\ is_ok (@seviri_radiance2tb XRN c rad) = true) /\
  (~ seviri_supported p s ->
     let e := if String.eqb p "Meteosat-10" && (String.eqb s "IR3.9" || String.eqb s "IR_039")
              then IndexError else KeyError in
     @seviri_tb2radiance XRN c tb false true = Err e /\ @seviri_radiance2tb XRN c rad = Err e).
Proof. exact seviri_which. Qed.
Print Assumptions C15_which_channels_convert.

(** In particular the standard names of the two water vapour channels fail. *)
Theorem C15_water_vapour_alias_refuted :
  forall p, ~ seviri_supported p "WV_062" /\ ~ seviri_supported p "WV_073".
Proof. intros p. split; intros [_ H]; simpl in H; intuition discriminate. Qed.
Print Assumptions C15_water_vapour_alias_refuted.

Theorem C15_refused_requests :
  forall p band wsp tbr c tb, @SeviriRadTbConverter XRN p band wsp tbr = Ok c ->
  (forall norm, @seviri_tb2radiance XRN c tb true norm = Err NotImplementedError) /\
  (forall lut, @seviri_tb2radiance XRN c tb lut false = Err NotImplementedError).
Proof. exact seviri_refuse. Qed.
Print Assumptions C15_refused_requests.

Theorem C15_band_must_be_a_name :
  forall p (x : XR) wsp tbr, In wsp ["wavelength"; "wavenumber"]%string -> tbr <> Fin 0 ->
  @SeviriRadTbConverter XRN p (BNumber x) wsp tbr = Err AttributeError /\
  @SeviriRadTbConverter XRN p BOther wsp tbr = Err AttributeError.
Proof. exact seviri_nonstring. Qed.
Print Assumptions C15_band_must_be_a_name.

Example C15_case :
  seviri_supported "Meteosat-8" "WV6.2" /\ ~ seviri_supported "Meteosat-10" "IR_039" /\
  exists c, @SeviriRadTbConverter XRN "Meteosat-10" (BStr "IR_039"%string) "wavelength" (Fin (1/10)) = Ok c /\
            @seviri_radiance2tb XRN c [Fin 1] = Err IndexError.
Proof.
  split; [split; simpl; tauto|]. split; [intros [H _]; simpl in H; intuition discriminate|].
  eexists. split.
  - unfold SeviriRadTbConverter. cbn [check_wavespace bind]. rewrite n0_fin. cbn [neqb XRN xeqb].
    replace (Reqb (1/10) 0) with false by (symmetry; apply Reqb_false_iff; lra). reflexivity.
  - reflexivity.
Qed.

(** C86: the radiances are those of Planck's law at a wavenumber [nu] (m^-1) in
    the channel, for a temperature [a * t + b] near [t]. *)
Theorem C86_planck_at_the_channel : forall p s wsp tbr c l, @SeviriRadTbConverter XRN p (BStr s) wsp tbr = Ok c ->
  seviri_supported p s -> seviri_nominal s l ->
  exists nu a b, 0 < nu /\ Rabs (10 ^ 6 / nu - l) <= 11 / 100 /\ 995 / 1000 <= a <= 1 /\ 0 <= b <= 35 / 10 /\
    (forall ts, Forall (fun t => 0 < t) ts ->
       @seviri_tb2radiance XRN c (map Fin ts) false true = Ok (map Fin (map (fun t => B_nu nu (a * t + b)) ts))) /\
    (forall Ls, Forall (fun x => 0 < x) Ls ->
       @seviri_radiance2tb XRN c (map Fin Ls) = Ok (map Fin (map (fun x => (T_nu nu x - b) / a) Ls))).
Proof. exact seviri_planck. Qed.
Print Assumptions C86_planck_at_the_channel.

(** every supported name has a nominal wavelength *)
Theorem C86_every_channel : forall p s, seviri_supported p s -> exists l, seviri_nominal s l.
Proof. exact supported_nominal. Qed.
Print Assumptions C86_every_channel.

Example C86_case : seviri_supported "Meteosat-8" "IR_120" /\ seviri_nominal "IR_120" 12 /\
  exists c, @SeviriRadTbConverter XRN "Meteosat-8" (BStr "IR_120"%string) "wavenumber" (Fin (1/10)) = Ok c.
Proof.
  split; [split; simpl; tauto|]. split; [unfold seviri_nominal; simpl; tauto|]. eexists.
  unfold SeviriRadTbConverter. cbn [check_wavespace bind]. rewrite n0_fin. cbn [neqb XRN xeqb].
  replace (Reqb (1/10) 0) with false by (symmetry; apply Reqb_false_iff; lra). reflexivity.
Qed.
