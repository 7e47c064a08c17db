(** Lemmas about reading back what a converter wrote, and SEVIRI. *)
From Coq Require Import String Ascii List Bool ZArith Lia Reals Lra Sorted.
From Verif Require Import Base NumSig XR M_Tables M_Utils M_World M_Hdf5 M_Raw S_Raw S_Hdf5 S_Names P_Hdf5 P_Hdf52.
Import ListNotations.
Local Open Scope string_scope.

Section Back.
  Context {N : Num}.
  Lemma text_names (l : list string) : Forall2 holds_text (map TStr l) l.
  Proof. induction l; cbn; constructor; auto. constructor. Qed.
  Lemma reads_back (h : h5file N) bns d p ins : h_band_names h = Some (map TStr bns) -> h_description h = Some (TStr d) ->
    h_platform_name h = Some (TStr p) -> h_sensor h = option_map TStr ins -> NoDup bns ->
    (forall b, In b bns -> exists g, dget b (h_bands h) = Some g /\ complete g) ->
    exists i, read_rsr h = Ok i /\ ri_bands i = bns /\ oscar_opt (Some p) (ri_platform i) /\
      (ins = None -> forall t, oscar p t -> ri_instrument i = dget t INSTRUMENTS) /\ (forall s, ins = Some s -> ri_instrument i = Some (IOne s)) /\
      dkeys (ri_rsr i) = bns /\
      forall b, In b bns -> exists g y, dget b (h_bands h) = Some g /\ dget b (ri_rsr i) = Some y /\ band_data g y.
  Proof.
    intros H1 H2 H3 H4 ND HB.
    set (t := match dget p OSCAR_PLATFORM_NAMES with Some t => t | None => p end).
    assert (O : oscar_opt (Some p) (Some t)) by (constructor; apply oscar_get).
    assert (HN : names_bands h bns) by (eexists; split; [exact H1|apply text_names]).
    assert (HD : describes h d) by (eexists; split; [exact H2|constructor]).
    assert (HP : names_platform h (Some p)) by (eapply np_name; [exact H3|constructor]).
    set (x := match ins with Some s => Some (IOne s) | None => dget t INSTRUMENTS end).
    assert (I : names_instrument h (Some t) x).
    { unfold x. destruct ins as [s|]; [eapply ni_sensor; [exact H4|constructor]|now constructor]. }
    destruct (proj1 (reads_iff _ _ _ _ _ _ HN HD HP O I)) as (rsr & R); [exact HB|].
    eexists. split; [exact R|]. cbn [ri_bands ri_platform ri_instrument ri_rsr]. pose proof (read_spec _ _ R) as S.
    cbn [ri_bands ri_platform ri_instrument ri_rsr ri_description] in S. destruct S as (_ & _ & _ & _ & S5 & _ & S7).
    split; auto. split; auto. split. { intros -> u Hu. unfold x. f_equal. eapply oscar_fun; [apply oscar_get|exact Hu]. }
    split. { intros s ->. reflexivity. }
    split; auto.
  Qed.
End Back.

Section Sev.
  Context {N : Num}.
  Variable f32 : N -> N.

  Lemma prefix_ir n : prefix "IR" n = true <-> is_infrared n.
  Proof.
    unfold is_infrared. split.
    - destruct n as [|a n]; cbn [prefix]; [discriminate|]. destruct (ascii_dec "I" a) as [<-|]; [|discriminate].
      destruct n as [|b n]; cbn [prefix]; [discriminate|]. destruct (ascii_dec "R" b) as [<-|]; [|discriminate]. intros _. now exists n.
    - intros (r & ->). cbn. destruct r; reflexivity.
  Qed.
  Lemma prefix_hrv n : prefix "HRV" n = true -> prefix "IR" n = false.
  Proof.
    destruct n as [|a n]; [intros H; discriminate H|]. cbn [prefix]. destruct (ascii_dec "H" a) as [<-|]; [|intros H; discriminate H].
    destruct (ascii_dec "I" "H"); [discriminate|reflexivity].
  Qed.

  Definition infra (r : sat_rsr N) : Prop := match r with STemps _ _ => True | SArr _ => False end.
  Definition kind_ok (name : string) (c : sev_channel N) : Prop :=
    dkeys (sv_sats c) = satellites /\ forall sat r, dget sat (sv_sats c) = Some r -> (infra r <-> is_infrared name).

  Lemma plain_ok s a b cols d : List.length cols = 4%nat -> @plain_sats N s a b cols = Ok d -> dkeys d = satellites /\ forall sat r, dget sat d = Some r -> ~ infra r.
  Proof.
    intros L. unfold plain_sats. destruct (mapM _ cols) as [rs|] eqn:E; cbn [bind]; [|discriminate]. intros [= <-].
    pose proof (mapM_length _ _ _ E) as L2. change (Datatypes.length rs = Datatypes.length cols) in L2. change (dkeys (combine satellites rs) = satellites /\ forall sat r, dget sat (combine satellites rs) = Some r -> ~ infra r).
    split; [apply combine_keys; cbn; congruence|].
    apply mapM_F2 in E. intros sat r H. apply dget_Some_in, in_combine_r in H.
    assert (F : Forall (fun r => ~ infra r) rs).
    { clear -E. induction E as [|x y l l' H F IH]; constructor; auto. destruct (col_values s x a b); cbn in H; [|discriminate]. injection H as <-. cbn. auto. }
    rewrite Forall_forall in F. now apply F.
  Qed.
  Lemma load_sheet_ok s c : @load_sheet N s = Ok c -> kind_ok (strip (sh_name s)) c.
  Proof.
    unfold load_sheet, kind_ok. cbv zeta. destruct (prefix "HRV" (strip (sh_name s))) eqn:H1.
    - destruct (col_values s 0 37 137); cbn [bind]; [|discriminate]. destruct (plain_sats s 37 137 _) as [d|] eqn:P; cbn [bind]; [|discriminate]. intros [= <-]. cbn [sv_sats].
      apply plain_ok in P as [K F]; [|reflexivity]. split; [easy|]. intros sat r Hr. pose proof (F _ _ Hr). rewrite <- prefix_ir, (prefix_hrv _ H1). split; [tauto|discriminate].
    - destruct (prefix "IR" (strip (sh_name s))) eqn:H2.
      + destruct (col_values s 0 13 113) as [w|]; cbn [bind]; [|discriminate].
        destruct (mapM _ [1; 3; 5; 7]%nat) as [a|] eqn:E1; cbn [bind]; [|discriminate].
        destruct (mapM _ [2; 4; 6; 8]%nat) as [b|] eqn:E2; cbn [bind]; [|discriminate]. intros [= <-]. cbn [sv_sats].
        pose proof (mapM_length _ _ _ E1) as L1. pose proof (mapM_length _ _ _ E2) as L2. cbn in L1, L2.
        change (dkeys (combine satellites (map (fun p => STemps (fst p) (snd p)) (combine a b))) = satellites /\
                forall sat r, dget sat (combine satellites (map (fun p => STemps (fst p) (snd p)) (combine a b))) = Some r -> (infra r <-> is_infrared (strip (sh_name s)))). split.
        * apply combine_keys. rewrite map_length, combine_length. unfold satellites. cbn. lia.
        * intros sat r H. apply dget_Some_in, in_combine_r, in_map_iff in H as (q & <- & _). cbn. rewrite <- prefix_ir, H2. tauto.
      + destruct (col_values s 0 12 112); cbn [bind]; [|discriminate]. destruct (plain_sats s 12 112 _) as [d|] eqn:P; cbn [bind]; [|discriminate]. intros [= <-]. cbn [sv_sats].
        apply plain_ok in P as [K F]; [|reflexivity]. split; [easy|]. intros sat r Hr. pose proof (F _ _ Hr). rewrite <- prefix_ir, H2. split; [tauto|discriminate].
  Qed.
  Lemma not_channel (s : sheet N) : existsb_str (sh_name s) ["Info"; "Requirements"] = true <-> ~ channel_sheet s.
  Proof.
    unfold existsb_str, channel_sheet. cbn [existsb]. destruct (String.eqb_spec (sh_name s) "Info") as [->|]; cbn; [tauto|].
    destruct (String.eqb_spec (sh_name s) "Requirements") as [->|]; cbn; [tauto|]. split; [discriminate|tauto].
  Qed.
  (** the last sheet of a name counts *)
  Lemma load_sheets_ok (l : list (sheet N)) : forall acc d, load_sheets l acc = Ok d -> NoDup (dkeys acc) ->
    NoDup (dkeys d) /\ (forall k, In k (dkeys d) <-> In k (dkeys acc) \/ exists s, In s l /\ channel_sheet s /\ strip (sh_name s) = k) /\
    (forall k c, dget k d = Some c -> dget k acc = Some c \/ exists s, In s l /\ channel_sheet s /\ strip (sh_name s) = k /\ load_sheet s = Ok c).
  Proof.
    induction l as [|s l IH]; intros acc d; cbn [load_sheets].
    - intros [= <-] ND. split; [easy|]. split; [|auto]. intros k. split; [auto|]. intros [|(s & [] & _)]; auto.
    - destruct (existsb_str (sh_name s) ["Info"; "Requirements"]) eqn:X.
      + intros H ND. destruct (IH _ _ H ND) as (A & B & C). split; [easy|]. pose proof (proj1 (not_channel s) X) as Ns. split.
        * intros k. rewrite B. split; (intros [?|(s' & H1 & H2 & H3)]; [auto|]); right; exists s'; [split; [now right|auto]|].
          destruct H1 as [<-|H1]; [tauto|auto].
        * intros k c Hk. destruct (C k c Hk) as [?|(s' & ? & ?)]; [auto|]. right. exists s'. split; [now right|auto].
      + destruct (load_sheet s) as [c|] eqn:E; cbn [bind]; [|discriminate]. intros H ND.
        assert (Ch : channel_sheet s). { destruct (existsb_str (sh_name s) ["Info"; "Requirements"]) eqn:Y; [discriminate|].
          unfold existsb_str, channel_sheet in *. cbn [existsb] in Y. destruct (String.eqb_spec (sh_name s) "Info"); [discriminate|]. destruct (String.eqb_spec (sh_name s) "Requirements"); [discriminate|]. auto. }
        destruct (IH _ _ H (dset_nodup _ _ _ ND)) as (A & B & C). split; [easy|]. split.
        * intros k. rewrite B, dset_keys_in. split.
          -- intros [[->|?]|(s' & H1 & H2)]; [right; exists s; split; [now left|auto]|auto|right; exists s'; split; [now right|auto]].
          -- intros [?|(s' & [<-|H1] & H2 & H3)]; [auto|auto|right; exists s'; auto].
        * intros k c' Hk. destruct (C k c' Hk) as [Hd|(s' & ? & ?)]; [|right; exists s'; split; [now right|auto]].
          rewrite dget_dset in Hd. destruct (String.eqb_spec k (strip (sh_name s))) as [->|]; [|auto].
          injection Hd as <-. right. exists s. split; [now left|auto].
  Qed.

  Lemma on_items_ok {A B} (f : A -> res B) d : forall e, on_items f d = Ok e -> dkeys e = dkeys d /\
    forall k a, dget k d = Some a -> exists b, dget k e = Some b /\ f a = Ok b.
  Proof.
    induction d as [|[k a] d IH]; cbn [on_items]; intros e.
    - intros [= <-]. split; [easy|]. discriminate.
    - destruct (f a) as [b|] eqn:E; cbn [bind]; [|discriminate]. destruct (on_items f d) as [r|] eqn:G; cbn [bind]; [|discriminate]. intros [= <-].
      destruct (IH _ eq_refl) as [K F]. split; [unfold dkeys in *; cbn [map fst]; now rewrite K|]. intros k' a'. cbn [dget].
      destruct (String.eqb k' k); [|apply F]. intros [= <-]. eauto.
  Qed.

  Lemma dget_split {V} k (v : V) d : dget k d = Some v -> exists l r, d = (l ++ (k, v) :: r)%list.
  Proof. intros H. apply dget_Some_in in H. now apply in_split. Qed.

  Lemma bands_fail s p d : Forall (fun q => match sev_band f32 s p (fst q) (snd q) with Ok _ => True | Err e => e = IndexError end) d ->
    Exists (fun q => sev_band f32 s p (fst q) (snd q) = Err IndexError) d -> sev_bands f32 s p d = Err IndexError.
  Proof.
    induction d as [|[k c] d IH]; intros F E; [inversion E|]. cbn [sev_bands]. inversion F; subst. cbn [fst snd] in *.
    destruct (sev_band f32 s p k c) as [g|e] eqn:G; cbn [bind]; [|now rewrite H1].
    inversion E; subst; [cbn in *; congruence|]. rewrite (IH H2 H0). reflexivity.
  Qed.

  Lemma seviri_inv sheets ws s : @Seviri N sheets ws = Ok s -> exists d, load_sheets sheets [] = Ok d /\ se_wavespace s = ws /\
    (ws = "wavelength" \/ ws = "wavenumber") /\ se_rsr s = (if String.eqb ws "wavenumber" then dmap sev_wavenumber d else d) /\ get_centrals (se_rsr s) = Ok (se_centrals s).
  Proof.
    unfold Seviri. destruct (load_sheets sheets []) as [d|]; cbn [bind]; [|discriminate].
    destruct (existsb_str ws ["wavelength"; "wavenumber"]) eqn:W; cbn [negb]; [|discriminate]. cbv zeta.
    set (d' := if String.eqb ws "wavenumber" then dmap sev_wavenumber d else d).
    destruct (get_centrals d') as [c|] eqn:E; cbn [bind]; [|discriminate]. intros [= <-]. exists d. cbn. repeat split; auto.
    unfold existsb_str in W. cbn [existsb] in W. destruct (String.eqb_spec ws "wavelength"); [auto|]. destruct (String.eqb_spec ws "wavenumber"); [auto|discriminate].
  Qed.

  Lemma sev_band_eq s p key c : se_wavespace s = "wavelength" -> get_centrals (se_rsr s) = Ok (se_centrals s) -> dget key (se_rsr s) = Some c -> kind_ok key c -> In p satellites ->
    exists r, dget p (sv_sats c) = Some r /\
      ((~ is_infrared key /\ sev_band f32 s p key c = Err IndexError) \/
       (is_infrared key /\ exists a b x, r = STemps a b /\ central_of (sv_wavelength c) a x /\ sev_band f32 s p key c = Ok {| hb_count := None; hb_dets := [];
            hb_shared := {| hd_response := Some (map f32 a); hd_wavelength := Some (micro_wave f32 (sv_wavelength c)); hd_central := Some x |} |})).
  Proof.
    intros Hw HC Hk [K I] Hp. apply on_items_ok in HC as [_ HC]. destruct (HC _ _ Hk) as (cs & E1 & E2).
    apply on_items_ok in E2 as [_ E2]. rewrite <- K in Hp. apply in_dkeys_dget in Hp as (r & Hr). exists r. split; [easy|].
    destruct (E2 _ _ Hr) as (xy & E3 & E4). specialize (I _ _ Hr).
    assert (B : sev_band f32 s p key c = (resp <- sev_response r ;; Ok {| hb_count := None; hb_dets := [];
            hb_shared := {| hd_response := Some (map f32 resp); hd_wavelength := Some (micro_wave f32 (sv_wavelength c)); hd_central := Some (fst xy) |} |})).
    { unfold sev_band. rewrite Hw. change (String.eqb "wavelength" "wavenumber") with false. cbn iota. rewrite E1. cbn [bind of_option]. rewrite E3. cbn [bind of_option]. rewrite Hr. reflexivity. }
    rewrite B. destruct r as [l|a b]; cbn [sev_response bind infra] in *; [left; tauto|]. right. split; [tauto|].
    cbn [sev_central] in E4. unfold sev_central_wave in E4.
    destruct (get_central_wave (sv_wavelength c) a (WScalar n1)) as [x|] eqn:X; cbn [bind] in E4; [|discriminate].
    destruct (get_central_wave (sv_wavelength c) b (WScalar n1)) as [y|] eqn:Y; cbn [bind] in E4; [|discriminate]. injection E4 as <-.
    exists a, b, x. cbn [fst]. auto.
  Qed.

  Lemma visible_blocks sheets s p : Seviri sheets "wavelength" = Ok s -> In p satellites ->
    (exists sh, In sh sheets /\ channel_sheet sh /\ ~ is_infrared (strip (sh_name sh))) -> generate_seviri_file f32 s p = Err IndexError.
  Proof.
    intros H Hp (sh & Hs & Hc & Hi). apply seviri_inv in H as (d & L & W & _ & E & C). change (String.eqb "wavelength" "wavenumber") with false in E. cbn iota in E.
    destruct (load_sheets_ok _ _ _ L) as (ND & Keys & Src); [constructor|].
    assert (B : forall k c, dget k d = Some c -> kind_ok k c).
    { intros k c Hk. destruct (Src k c Hk) as [?|(x & _ & _ & <- & Lx)]; [discriminate|]. now apply load_sheet_ok. }
    unfold generate_seviri_file. rewrite bands_fail; [reflexivity| |]; rewrite E.
    - apply Forall_forall. intros [k c] Hin. cbn [fst snd]. pose proof (dget_in_nodup _ _ _ ND Hin) as Hk. rewrite <- E in Hk.
      destruct (sev_band_eq s p k c W C Hk) as (r & _ & [(_ & ->)|(_ & a & b & x & _ & _ & ->)]); auto. apply B. now rewrite <- E.
    - assert (Hk : In (strip (sh_name sh)) (dkeys d)) by (apply Keys; right; eauto). apply in_dkeys_dget in Hk as (c & Hk).
      apply Exists_exists. exists (strip (sh_name sh), c). split; [now apply dget_Some_in|]. cbn [fst snd]. rewrite <- E in Hk.
      destruct (sev_band_eq s p _ c W C Hk) as (r & _ & [(_ & ->)|(? & _)]); [apply B; now rewrite <- E|easy|easy|contradiction].
  Qed.

  Lemma wavenumber_blocks sheets s p : Seviri sheets "wavenumber" = Ok s -> (exists sh, In sh sheets /\ channel_sheet sh) -> generate_seviri_file f32 s p = Err TypeError.
  Proof.
    intros H (sh & Hs & Hc). apply seviri_inv in H as (d & L & W & _ & E & C). change (String.eqb "wavenumber" "wavenumber") with true in E. cbn iota in E.
    destruct (load_sheets_ok _ _ _ L) as (ND & Keys & Src); [constructor|].
    unfold generate_seviri_file. rewrite E. destruct d as [|[k c] d]; [exfalso; apply (proj2 (Keys (strip (sh_name sh)))); right; eauto|].
    cbn [dmap map sev_bands]. unfold sev_band. rewrite W. reflexivity.
  Qed.

  Lemma bands_ok s p d : (forall k c, In (k, c) d -> exists g, sev_band f32 s p k c = Ok g) -> exists e, sev_bands f32 s p d = Ok e /\ dkeys e = dkeys d /\
    forall k g, In (k, g) e -> exists c, In (k, c) d /\ sev_band f32 s p k c = Ok g.
  Proof.
    induction d as [|[k c] d IH]; intros H; [exists []; cbn; repeat split; intros ? ? []|].
    destruct (H k c) as (g & G); [now left|]. destruct IH as (e & E & K & F); [intros; apply H; now right|].
    exists ((k, g) :: e). cbn [sev_bands]. rewrite G. cbn [bind]. rewrite E. cbn [bind dkeys map fst]. split; [easy|]. split; [unfold dkeys in K; cbn; now rewrite K|].
    intros k' g' [[= <- <-]|Hin]; [exists c; split; [now left|easy]|]. destruct (F _ _ Hin) as (c' & ? & ?). exists c'. split; [now right|easy].
  Qed.
End Sev.
