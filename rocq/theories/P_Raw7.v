(** SEVIRI: work books with infrared channels only, and wavenumbers. *)
From Coq Require Import String Ascii List Bool ZArith Lia Reals Lra Sorted.
From Verif Require Import Base NumSig XR M_Tables M_Utils M_World M_Hdf5 M_Raw S_Raw S_Hdf5 S_Names P_Hdf5 P_Hdf52 P_Raw3 P_Raw6.
Import ListNotations.
Local Open Scope string_scope.

Section Sev.
  Context {N : Num}.
  Variable f32 : N -> N.
  Local Open Scope num_scope.

  Definition one_group (r w : list N) (x : N) : h5band N := {| hb_count := None; hb_dets := [];
    hb_shared := {| hd_response := Some (map f32 r); hd_wavelength := Some (micro_wave f32 w); hd_central := Some x |} |}.
  Lemma one_complete r w x : complete (one_group r w x).
  Proof.
    intros k _. split; [|split]; eexists; (apply available_shared; [discriminate|]).
    - reflexivity.
    - eexists _, _. split; reflexivity.
    - reflexivity.
  Qed.
  Lemma one_data r w x y : band_data (one_group r w x) y ->
    y = [("det-1", [("response", VArr (map f32 r)); ("wavelength", VArr (map (fun v => f32 v * nlit N 1 1000000 * nlit N 1000000 1) w)); ("central_wavelength", VNum x)])].
  Proof.
    intros (K & D). destruct (D 1%nat) as (d & E1 & r' & w' & c' & A1 & A2 & A3 & ->); [cbn; lia|].
    cbn in K. destruct y as [|(k, v) [|]]; try discriminate. injection K as ->. cbn in E1. injection E1 as ->.
    destruct A1 as [(g' & A & _)|[_ A1]]; [discriminate|]. destruct A2 as [(g' & A & _)|[_ A2]]; [discriminate|]. destruct A3 as [(g' & A & _)|[_ A3]]; [discriminate|].
    injection A1 as <-. injection A3 as <-. destruct A2 as (l & s & A2 & ->). cbn in A2. injection A2 as <- <-. rewrite map_map. reflexivity.
  Qed.

  Lemma col_rows (s : sheet N) c l : col_values s c 13 113 = Ok l -> infrared_rows s c l.
  Proof. unfold col_values, idx. destruct (nth_error (sh_columns s) c) as [x|] eqn:E; cbn [bind of_option]; [|discriminate]. intros [= <-]. exists x. auto. Qed.
  Lemma infrared_sheet (s : sheet N) c p a b : load_sheet s = Ok c -> is_infrared (strip (sh_name s)) -> dget p (sv_sats c) = Some (STemps a b) ->
    exists n, nth_error satellites n = Some p /\ infrared_rows s 0 (sv_wavelength c) /\ infrared_rows s (2 * n + 1) a /\ infrared_rows s (2 * n + 2) b.
  Proof.
    intros H I. apply prefix_ir in I. unfold load_sheet in H. cbv zeta in H. destruct (prefix "HRV" (strip (sh_name s))) eqn:Hv; [rewrite (prefix_hrv _ Hv) in I; discriminate|].
    rewrite I in H. destruct (col_values s 0 13 113) as [w|] eqn:E0; cbn [bind] in H; [|discriminate]. cbn [mapM bind] in H.
    destruct (col_values s 1 13 113) as [a1|] eqn:E1; cbn [bind] in H; [|discriminate].
    destruct (col_values s 3 13 113) as [a3|] eqn:E3; cbn [bind] in H; [|discriminate].
    destruct (col_values s 5 13 113) as [a5|] eqn:E5; cbn [bind] in H; [|discriminate].
    destruct (col_values s 7 13 113) as [a7|] eqn:E7; cbn [bind] in H; [|discriminate].
    destruct (col_values s 2 13 113) as [a2|] eqn:E2; cbn [bind] in H; [|discriminate].
    destruct (col_values s 4 13 113) as [a4|] eqn:E4; cbn [bind] in H; [|discriminate].
    destruct (col_values s 6 13 113) as [a6|] eqn:E6; cbn [bind] in H; [|discriminate].
    destruct (col_values s 8 13 113) as [a8|] eqn:E8; cbn [bind] in H; [|discriminate].
    injection H as <-. cbn [sv_sats combine map fst snd dget sv_wavelength].
    destruct (String.eqb_spec p "Meteosat-8") as [->|]; [intros [= <- <-]; exists 0%nat; repeat split; now apply col_rows|].
    destruct (String.eqb_spec p "Meteosat-9") as [->|]; [intros [= <- <-]; exists 1%nat; repeat split; now apply col_rows|].
    destruct (String.eqb_spec p "Meteosat-10") as [->|]; [intros [= <- <-]; exists 2%nat; repeat split; now apply col_rows|].
    destruct (String.eqb_spec p "Meteosat-11") as [->|]; [intros [= <- <-]; exists 3%nat; repeat split; now apply col_rows|]. discriminate.
  Qed.

  Lemma col_block (s : sheet N) c a l : col_values s c a (100 + a) = Ok l -> block s a c l.
  Proof. unfold col_values, idx. replace (100 + a - a)%nat with 100%nat by lia. destruct (nth_error (sh_columns s) c) as [x|] eqn:E; cbn [bind of_option]; [|discriminate]. intros [= <-]. exists x. auto. Qed.
  Lemma prefix_spec p (x : string) : prefix p x = true <-> exists r, x = (p ++ r)%string.
  Proof.
    revert x. induction p as [|c p IH]; intros x; cbn [prefix append].
    - split; [intros _; now exists x|]. now destruct x.
    - destruct x as [|d x]; [split; [discriminate|intros (r & [=])]|]. change (prefix (String c p) (String d x)) with (if Ascii.ascii_dec c d then prefix p x else false). destruct (Ascii.ascii_dec c d) as [->|n].
      + rewrite IH. split; intros (r & H); exists r; [now rewrite H|now injection H].
      + split; [discriminate|]. intros (r & [= E _]). congruence.
  Qed.
  Ltac cols H := repeat match type of H with context [col_values ?s ?c ?a ?b] => let E := fresh "E" in destruct (col_values s c a b) eqn:E; cbn [bind] in H; [|discriminate H] end.
  Lemma sheet_layout_ok (s : sheet N) c p r : load_sheet s = Ok c -> dget p (sv_sats c) = Some r ->
    exists n row col two, nth_error satellites n = Some p /\ sheet_layout (strip (sh_name s)) row col two /\ block s row 0 (sv_wavelength c) /\
      if two then exists a b, r = STemps a b /\ block s row (col n) a /\ block s row (S (col n)) b
      else exists a, r = SArr a /\ block s row (col n) a.
  Proof.
    intros H. unfold load_sheet in H. cbv zeta in H. destruct (prefix "HRV" (strip (sh_name s))) eqn:Hv; [|destruct (prefix "IR" (strip (sh_name s))) eqn:Hi].
    - apply prefix_spec in Hv as (rest & Hv). unfold plain_sats in H. cbn [mapM bind] in H. cols H. injection H as <-. cbn [sv_sats combine dget sv_wavelength].
      destruct (String.eqb_spec p "Meteosat-8") as [->|]; [intros [= <-]; exists 0%nat|
      destruct (String.eqb_spec p "Meteosat-9") as [->|]; [intros [= <-]; exists 1%nat|
      destruct (String.eqb_spec p "Meteosat-10") as [->|]; [intros [= <-]; exists 2%nat|
      destruct (String.eqb_spec p "Meteosat-11") as [->|]; [intros [= <-]; exists 3%nat|discriminate]]]];
      (eexists _, _, _; split; [reflexivity|]; split; [eapply lay_hrv; exact Hv|]; split; [now apply col_block|]; eexists; split; [reflexivity|]; now apply col_block).
    - pose proof (proj1 (prefix_spec _ _) Hi) as Hi'. cbn [mapM bind] in H. cols H. injection H as <-. cbn [sv_sats combine map fst snd dget sv_wavelength].
      destruct (String.eqb_spec p "Meteosat-8") as [->|]; [intros [= <-]; exists 0%nat|
      destruct (String.eqb_spec p "Meteosat-9") as [->|]; [intros [= <-]; exists 1%nat|
      destruct (String.eqb_spec p "Meteosat-10") as [->|]; [intros [= <-]; exists 2%nat|
      destruct (String.eqb_spec p "Meteosat-11") as [->|]; [intros [= <-]; exists 3%nat|discriminate]]]];
      (eexists _, _, _; split; [reflexivity|]; split; [apply lay_ir; exact Hi'|]; split; [now apply col_block|]; do 2 eexists; split; [reflexivity|]; split; now apply col_block).
    - assert (Hv' : ~ exists r, strip (sh_name s) = ("HRV" ++ r)%string) by (rewrite <- prefix_spec, Hv; discriminate).
      assert (Hi' : ~ is_infrared (strip (sh_name s))) by (unfold is_infrared; rewrite <- prefix_spec, Hi; discriminate).
      unfold plain_sats in H. cbn [mapM bind] in H. cols H. injection H as <-. cbn [sv_sats combine dget sv_wavelength].
      destruct (String.eqb_spec p "Meteosat-8") as [->|]; [intros [= <-]; exists 0%nat|
      destruct (String.eqb_spec p "Meteosat-9") as [->|]; [intros [= <-]; exists 1%nat|
      destruct (String.eqb_spec p "Meteosat-10") as [->|]; [intros [= <-]; exists 2%nat|
      destruct (String.eqb_spec p "Meteosat-11") as [->|]; [intros [= <-]; exists 3%nat|discriminate]]]];
      (eexists _, _, _; split; [reflexivity|]; split; [now apply lay_vis|]; split; [now apply col_block|]; eexists; split; [reflexivity|]; now apply col_block).
  Qed.
  Lemma seviri_columns (sheets : list (sheet N)) s : Seviri sheets "wavelength" = Ok s ->
    (forall b, In b (dkeys (se_rsr s)) <-> exists sh, In sh sheets /\ channel_sheet sh /\ strip (sh_name sh) = b) /\
    forall b c p, dget b (se_rsr s) = Some c -> In p satellites -> exists sh n row col two cs x y,
      In sh sheets /\ channel_sheet sh /\ strip (sh_name sh) = b /\ nth_error satellites n = Some p /\ sheet_layout b row col two /\
      block sh row 0 (sv_wavelength c) /\ dget b (se_centrals s) = Some cs /\ dget p cs = Some (x, y) /\
      if two then exists r95 r85, dget p (sv_sats c) = Some (STemps r95 r85) /\ block sh row (col n) r95 /\ block sh row (S (col n)) r85 /\
        central_of (sv_wavelength c) r95 x /\ central_of (sv_wavelength c) r85 y
      else exists r, dget p (sv_sats c) = Some (SArr r) /\ block sh row (col n) r /\ central_of (sv_wavelength c) r x.
  Proof.
    intros H. apply seviri_inv in H as (d & L & W & _ & E & C). change (String.eqb "wavelength" "wavenumber") with false in E. cbn iota in E.
    destruct (load_sheets_ok _ _ _ L) as (ND & Keys & Src); [constructor|]. split.
    - intros b. rewrite E, Keys. split; [intros [[]|?]; auto|auto].
    - intros b c p Hb Hp. rewrite E in Hb. destruct (Src b c Hb) as [?|(sh & X1 & X2 & X3 & Lx)]; [discriminate|].
      destruct (load_sheet_ok _ _ Lx) as [K _]. rewrite <- K in Hp. apply in_dkeys_dget in Hp as (r & Hr).
      destruct (sheet_layout_ok _ _ _ _ Lx Hr) as (n & row & col & two & A1 & A2 & A3 & A4).
      apply on_items_ok in C as [_ HC]. rewrite <- E in Hb. destruct (HC _ _ Hb) as (cs & E1 & E2).
      apply on_items_ok in E2 as [_ E2]. destruct (E2 _ _ Hr) as ([x y] & E3 & E4). rewrite X3 in A2.
      exists sh, n, row, col, two, cs, x, y. do 8 (split; [assumption|]). destruct two.
      + destruct A4 as (a & b' & -> & B1 & B2). exists a, b'. cbn [sev_central] in E4.
        destruct (sev_central_wave (sv_wavelength c) a) as [x'|] eqn:F1; cbn [bind] in E4; [|discriminate].
        destruct (sev_central_wave (sv_wavelength c) b') as [y'|] eqn:F2; cbn [bind] in E4; [|discriminate]. injection E4 as <- <-. auto 10.
      + destruct A4 as (a & -> & B1). exists a. cbn [sev_central] in E4.
        destruct (sev_central_wave (sv_wavelength c) a) as [x'|] eqn:F1; cbn [bind] in E4; [|discriminate]. injection E4 as <- <-. auto.
  Qed.

  Lemma infrared_only sheets s p : Seviri sheets "wavelength" = Ok s -> In p satellites ->
    (forall sh, In sh sheets -> channel_sheet sh -> is_infrared (strip (sh_name sh))) ->
    exists h i, generate_seviri_file f32 s p = Ok h /\ read_rsr h = Ok i /\
      (forall b, In b (ri_bands i) <-> exists sh, In sh sheets /\ channel_sheet sh /\ strip (sh_name sh) = b) /\
      forall b, In b (ri_bands i) -> exists sh n w r x, In sh sheets /\ channel_sheet sh /\ strip (sh_name sh) = b /\
        nth_error satellites n = Some p /\ infrared_rows sh 0 w /\ infrared_rows sh (2 * n + 1) r /\ central_of w r x /\
        dget b (ri_rsr i) = Some [("det-1", [("response", VArr (map f32 r));
          ("wavelength", VArr (map (fun v => f32 v * nlit N 1 1000000 * nlit N 1000000 1) w)); ("central_wavelength", VNum x)])].
  Proof.
    intros H Hp All. apply seviri_inv in H as (d & L & W & _ & E & C). change (String.eqb "wavelength" "wavenumber") with false in E. cbn iota in E.
    destruct (load_sheets_ok _ _ _ L) as (ND & Keys & Src); [constructor|].
    assert (B : forall k c, dget k d = Some c -> exists sh n w r x, In sh sheets /\ channel_sheet sh /\ strip (sh_name sh) = k /\
        nth_error satellites n = Some p /\ infrared_rows sh 0 w /\ infrared_rows sh (2 * n + 1) r /\ central_of w r x /\ sev_band f32 s p k c = Ok (one_group r w x)).
    { intros k c Hk. destruct (Src k c Hk) as [?|(x & X1 & X2 & X3 & Lx)]; [discriminate|]. pose proof (load_sheet_ok _ _ Lx) as KO. rewrite X3 in KO. rewrite <- E in Hk.
      destruct (sev_band_eq f32 s p k c W C Hk KO Hp) as (r & Hr & [(NI & _)|(I & a & b & y & -> & Y & G)]).
      - exfalso. apply NI. rewrite <- X3. now apply All.
      - rewrite <- X3 in I. destruct (infrared_sheet _ _ _ _ _ Lx I Hr) as (n & A1 & A2 & A3 & _).
        exists x, n, (sv_wavelength c), a, y. auto 10. }
    destruct (bands_ok f32 s p d) as (e & Ee & Ke & Fe).
    { intros k c Hin. destruct (B k c (dget_in_nodup _ _ _ ND Hin)) as (sh & n & w & r & x & _ & _ & _ & _ & _ & _ & _ & G). eauto. }
    eexists. unfold generate_seviri_file. rewrite E, Ee. cbn [bind].
    assert (X : forall h, h = {| h_band_names := Some (map TStr (dkeys d)); h_description := Some (TStr "Relative Spectral Responses for SEVIRI");
          h_platform_name := Some (TStr p); h_platform := None; h_sat_number := None; h_sensor := None; h_bands := e |} ->
      exists i, read_rsr h = Ok i /\ ri_bands i = dkeys d /\ forall b, In b (dkeys d) -> exists g y, dget b e = Some g /\ dget b (ri_rsr i) = Some y /\ band_data g y).
    { intros h Hh. destruct (reads_back h (dkeys d) "Relative Spectral Responses for SEVIRI" p None) as (i & R & RB & _ & _ & _ & _ & RD); try (rewrite Hh; reflexivity); auto.
      - rewrite Hh. cbn [h_bands]. intros b Hb. rewrite <- Ke in Hb. apply in_dkeys_dget in Hb as (g & Hg). exists g. split; [easy|].
        destruct (Fe _ _ (dget_Some_in _ _ _ Hg)) as (c & Hc & G). destruct (B b c (dget_in_nodup _ _ _ ND Hc)) as (sh & n & w & r & x & _ & _ & _ & _ & _ & _ & _ & G').
        rewrite G in G'. injection G' as ->. apply one_complete.
      - rewrite Hh in RD. exists i. auto. }
    destruct (X _ eq_refl) as (i & R & RB & RD). exists i. split; [reflexivity|]. split; [exact R|]. rewrite RB. split.
    - intros b. rewrite Keys. split; [intros [[]|?]; auto|auto].
    - intros b Hb. destruct (RD b Hb) as (g & y & G & Y & D). destruct (Fe _ _ (dget_Some_in _ _ _ G)) as (c & Hc & G1).
      destruct (B b c (dget_in_nodup _ _ _ ND Hc)) as (sh & n & w & r & x & A1 & A2 & A3 & A4 & A5 & A6 & A7 & G').
      rewrite G1 in G'. injection G' as ->. apply one_data in D. subst y. exists sh, n, w, r, x. auto 10.
  Qed.
End Sev.

Local Open Scope R_scope.
Lemma wn_fin x : 0 < x -> @wl2wn XRN (Fin x) = Fin (10000 / x).
Proof. intros H. unfold wl2wn. cbn [ndiv nmul nlit XRN]. rewrite !xlit_eq. cbn [xmul]. rewrite xdiv_fin by lra. f_equal. field. lra. Qed.
Lemma wavenumber_pairs sheets s s' ch c : @Seviri XRN sheets "wavelength" = Ok s -> Seviri sheets "wavenumber" = Ok s' -> dget ch (se_rsr s) = Some c ->
  exists c', dget ch (se_rsr s') = Some c' /\ (forall sat y', has_curve c' sat y' <-> exists y, has_curve c sat y /\ y' = rev y) /\
    forall l, sv_wavelength c = map (fun p => Fin (fst p)) l -> Forall (fun p => 0 < fst p) l -> StronglySorted (fun a b => fst a < fst b) l ->
      exists l', sv_wavelength c' = map (fun p => Fin (fst p)) l' /\ StronglySorted (fun a b => fst a < fst b) l' /\
        l' = rev (map (fun p => (10000 / fst p, snd p)) l) /\
        forall sat, has_curve c sat (map (fun p => Fin (snd p)) l) -> has_curve c' sat (map (fun p => Fin (snd p)) l').
Proof.
  intros H H' Hc. apply seviri_inv in H as (d & L & _ & _ & E & _). apply seviri_inv in H' as (d' & L' & _ & _ & E' & _).
  rewrite L in L'. injection L' as <-. change (String.eqb "wavelength" "wavenumber") with false in E. change (String.eqb "wavenumber" "wavenumber") with true in E'. cbn iota in E, E'.
  exists (sev_wavenumber c). rewrite E', dget_dmap. rewrite E in Hc. rewrite Hc. split; [reflexivity|].
  assert (Cv : forall sat y, has_curve c sat y -> has_curve (sev_wavenumber c) sat (rev y)).
  { intros sat y [l D|a b D|a b D]; [apply hc_plain|eapply hc_95|eapply hc_85]; cbn [sev_wavenumber sv_sats]; rewrite dget_dmap, D; reflexivity. }
  split.
  - intros sat y'. split; [|intros (y & Hy & ->); auto].
    intros [l D|a b D|a b D]; cbn [sev_wavenumber sv_sats] in D; rewrite dget_dmap in D; destruct (dget sat (sv_sats c)) as [[x|x y]|] eqn:G; cbn [option_map] in D; try discriminate.
    + injection D as <-. exists x. split; [now constructor|easy].
    + injection D as <- <-. exists x. split; [now apply (hc_95 _ _ x y)|easy].
    + injection D as <- <-. exists y. split; [now apply (hc_85 _ _ x y)|easy].
  - intros l Hl F S. exists (rev (map to_wave l)). split; [|split; [now apply waves_sorted|split; [reflexivity|]]].
    + cbn [sev_wavenumber sv_wavelength]. rewrite Hl. rewrite map_rev. f_equal. rewrite !map_map. apply map_ext_in. intros q Hq. rewrite Forall_forall in F. now apply wn_fin, F.
    + intros sat Hs. apply Cv in Hs. rewrite map_rev, map_map. exact Hs.
Qed.
