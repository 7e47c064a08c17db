(** Lemmas for C53: writing, then reading. *)
From Coq Require Import String List Bool ZArith Lia.
From Verif Require Import Base NumSig M_Tables M_Utils S_Names P_Names P_Strings P_Convert M_Hdf5 S_Hdf5 P_Hdf5.
Import ListNotations.
Local Open Scope string_scope.

Section W.
  Context {N : Num} (f32 : N -> N) (upper : string -> string).
  Local Open Scope num_scope.

  Lemma where_wave_ok (w a r : list N) : where_wave w a = Ok r <-> List.length w = List.length a /\ r = numbered w a.
  Proof.
    unfold where_wave, numbered. destruct (Nat.eqb_spec (List.length w) (List.length a)); split.
    - intros H; injection H as <-. auto.
    - intros (_ & ->). reflexivity.
    - discriminate.
    - intros (H & _). contradiction.
  Qed.

  Definition writes (scale : N) (dets : option (list string)) (s : sensor N) : res (h5band N) :=
    match dets with Some ds => write_multi f32 s scale ds | None => write_single f32 s scale end.

  Lemma write_channels_spec scale dets bs : forall ss acc out, List.length ss = List.length bs -> NoDup (dkeys acc) ->
    write_channels f32 ss bs scale dets acc = Ok out ->
    exists gs, out = (acc ++ combine bs gs)%list /\ NoDup (dkeys acc ++ bs) /\ List.length gs = List.length bs /\
               Forall2 (fun s g => writes scale dets s = Ok g) ss gs.
  Proof.
    induction bs as [|b bs IH]; intros [|s ss] acc out HL ND; try discriminate; cbn.
    - intros H; injection H as <-. exists []. rewrite !app_nil_r. auto.
    - unfold dhas. destruct (dget b acc) eqn:E; [discriminate|]. fold (writes scale dets s).
      destruct (writes scale dets s) as [g|] eqn:W; cbn; [|discriminate]. intros H.
      rewrite (dset_new _ _ _ E) in H. apply IH in H; [|cbn in HL; lia|].
      + destruct H as (gs & -> & ND' & HL' & F). exists (g :: gs). rewrite <- app_assoc. unfold dkeys in *. rewrite map_app, <- app_assoc in ND'.
        repeat split; auto; cbn; auto.
      + rewrite <- (dset_new _ _ _ E). now apply dset_nodup.
  Qed.

  Lemma mapM_F2 {A B} (f : A -> res B) l r : mapM f l = Ok r -> Forall2 (fun a b => f a = Ok b) l r.
  Proof.
    revert r. induction l as [|a l IH]; cbn; intros r; [intros H; injection H as <-; constructor|].
    destruct (f a) eqn:E; cbn; [|discriminate]. destruct (mapM f l); cbn; [|discriminate]. intros H; injection H as <-. constructor; auto.
  Qed.
  Lemma F2_trans {A B C} (P : A -> B -> Prop) (Q : B -> C -> Prop) l m r : Forall2 P l m -> Forall2 Q m r ->
    Forall2 (fun a c => exists b, P a b /\ Q b c) l r.
  Proof. intros H. revert r. induction H; intros r K; inversion K; subst; constructor; eauto. Qed.

  Lemma written (load : string -> res (sensor N)) p bns scale dets h : convert2hdf5 f32 upper load p bns scale dets = Ok h ->
    NoDup bns /\
    (exists b0 s0, hd_error bns = Some b0 /\ load b0 = Ok s0 /\ describes h ("Relative Spectral Responses for " ++ upper (sn_instrument s0))) /\
    names_bands h bns /\ names_platform h (Some p) /\ h_sensor h = None /\
    forall b, In b bns -> exists s g, load b = Ok s /\ writes scale dets s = Ok g /\ dget b (h_bands h) = Some g.
  Proof.
    unfold convert2hdf5. destruct (mapM load bns) as [ss|] eqn:E; cbn [bind]; [|discriminate]. pose proof (mapM_F2 _ _ _ E) as F.
    destruct ss as [|s0 ss]; cbn [bind hd_error of_option]; [discriminate|]. destruct bns as [|b0 bns]; [inversion F|].
    destruct (write_channels f32 (s0 :: ss) (b0 :: bns) scale dets []) as [out|] eqn:W; cbn [bind hd_error of_option]; [|intros H; discriminate H].
    intros H; injection H as <-; cbn.
    pose proof (F2_length _ _ _ F) as HL.
    apply write_channels_spec in W; [|auto|constructor]. destruct W as (gs & -> & ND & HL' & G).
    split; [exact ND|]. split; [|split; [|split; [|split; [reflexivity|]]]].
    - exists b0, s0. split; [reflexivity|]. split; [now inversion F|]. eexists. split; [reflexivity|constructor].
    - eexists. split; [reflexivity|]. change (TStr b0 :: map TStr bns) with (map TStr (b0 :: bns)).
      generalize (b0 :: bns). induction l; cbn; constructor; auto. constructor.
    - econstructor; [reflexivity|constructor].
    - pose proof (F2_trans _ _ _ _ _ F G) as FG. intros b Hb.
      destruct (F2_dget _ _ _ b FG Hb) as (g & H1 & s & H2 & H3). exists s, g. auto.
  Qed.

  (** ** single detector *)
  Lemma write_single_spec s scale g : write_single f32 s scale = Ok g ->
    exists r c, sn_rsr s = RSingle r /\ List.length (rw_wavelength r) = List.length (rw_response r) /\
      central_of (numbered (rw_wavelength r) (rw_wavelength r)) (numbered (rw_wavelength r) (rw_response r)) c /\
      g = {| hb_count := None; hb_dets := [];
             hb_shared := {| hd_response := Some (map f32 (rw_response r));
                             hd_wavelength := Some {| wv_data := map f32 (rw_response r); wv_scale := Some scale |};
                             hd_central := Some c |} |}.
  Proof.
    unfold write_single, single. destruct (sn_rsr s) as [r| |]; cbn; [|discriminate|discriminate].
    destruct (where_wave (rw_wavelength r) (rw_wavelength r)) as [w|] eqn:E1; cbn; [|discriminate].
    destruct (where_wave (rw_wavelength r) (rw_response r)) as [a|] eqn:E2; cbn; [|discriminate].
    destruct (get_central_wave w a (WScalar n1)) as [c|] eqn:E3; cbn; [|discriminate]. intros H; injection H as <-.
    apply where_wave_ok in E1, E2. destruct E1 as (_ & ->), E2 as (L & ->). exists r, c. repeat split; auto.
  Qed.

  Lemma available_shared {A} (P : h5data N -> A -> Prop) b d x : (forall g y, dget d (hb_dets b) = Some g -> ~ P g y) -> P (hb_shared b) x -> available P b d x.
  Proof. right. auto. Qed.

  Definition stored_waves (scale : N) (a : list N) : list N := map (fun x => f32 x * scale * nlit N 1000000 1) a.

  Lemma band_data_single r c scale y : let g := {| hb_count := None; hb_dets := [];
             hb_shared := {| hd_response := Some (map f32 r);
                             hd_wavelength := Some {| wv_data := map f32 r; wv_scale := Some scale |};
                             hd_central := Some c |} |} in
    band_data g y -> y = [("det-1", [("response", VArr (map f32 r)); ("wavelength", VArr (stored_waves scale r)); ("central_wavelength", VNum c)])].
  Proof.
    intros g (K & D). destruct (D 1%nat) as (d & E1 & r' & w & c' & A1 & A2 & A3 & ->); [cbn; lia|].
    cbn in K. destruct y as [|(k, v) [|]]; try discriminate. injection K as ->. cbn in E1. injection E1 as ->.
    destruct A1 as [(g' & A & _)|[_ A1]]; [discriminate|]. destruct A2 as [(g' & A & _)|[_ A2]]; [discriminate|]. destruct A3 as [(g' & A & _)|[_ A3]]; [discriminate|].
    injection A1 as <-. injection A3 as <-. destruct A2 as (l & s & A2 & ->). cbn in A2. injection A2 as <- <-.
    unfold stored_waves. rewrite map_map. reflexivity.
  Qed.
  Lemma complete_single r c scale : complete {| hb_count := None; hb_dets := [];
             hb_shared := {| hd_response := Some (map f32 r);
                             hd_wavelength := Some {| wv_data := map f32 r; wv_scale := Some scale |};
                             hd_central := Some c |} |}.
  Proof.
    intros k _. split; [|split]; eexists; (apply available_shared; [discriminate|]).
    - reflexivity.
    - exists (map f32 r), scale. split; reflexivity.
    - reflexivity.
  Qed.

  Lemma single_back load p bns scale h : convert2hdf5 f32 upper load p bns scale None = Ok h ->
    exists i, read_rsr h = Ok i /\ ri_bands i = bns /\ oscar_opt (Some p) (ri_platform i) /\
      (forall t, oscar p t -> ri_instrument i = dget t INSTRUMENTS) /\ dkeys (ri_rsr i) = bns /\
      forall b, In b bns -> exists s r c, load b = Ok s /\ sn_rsr s = RSingle r /\
        central_of (numbered (rw_wavelength r) (rw_wavelength r)) (numbered (rw_wavelength r) (rw_response r)) c /\
        dget b (ri_rsr i) = Some [("det-1", [("response", VArr (map f32 (rw_response r)));
          ("wavelength", VArr (map (fun x => f32 x * scale * nlit N 1000000 1) (rw_response r)));
          ("central_wavelength", VNum c)])].
  Proof.
    intros H. apply written in H. destruct H as (ND & (b0 & s0 & _ & _ & HD) & HN & HP & HS & HB).
    set (t := match dget p OSCAR_PLATFORM_NAMES with Some t => t | None => p end).
    assert (O : oscar_opt (Some p) (Some t)) by (constructor; apply oscar_get).
    assert (I : names_instrument h (Some t) (dget t INSTRUMENTS)) by now constructor.
    destruct (proj1 (reads_iff _ _ _ _ _ _ HN HD HP O I)) as (rsr & R).
    { intros b Hb. destruct (HB b Hb) as (s & g & _ & W & G). exists g. split; auto.
      apply write_single_spec in W. destruct W as (r & c & _ & _ & _ & ->). apply complete_single. }
    eexists. split; [exact R|]. cbn [ri_bands ri_platform ri_instrument ri_rsr]. pose proof (read_spec _ _ R) as S. cbn [ri_bands ri_platform ri_instrument ri_rsr ri_description] in S. destruct S as (_ & _ & _ & _ & S5 & _ & S7).
    split; auto. split; auto. split. { intros u Hu. f_equal. eapply oscar_fun; [apply oscar_get|exact Hu]. }
    split; auto. intros b Hb. destruct (HB b Hb) as (s & g & L & W & G). destruct (S5 b Hb) as (g' & y & G' & Y & D).
    rewrite G in G'. injection G' as <-. apply write_single_spec in W. destruct W as (r & c & Hr & HL & HC & ->).
    exists s, r, c. split; auto. split; auto. split; auto. rewrite Y. f_equal. now apply band_data_single in D.
  Qed.

  (** ** several detectors *)
  Lemma last_cons {A} (a d : A) l : last (a :: l) d = last l a.
  Proof. revert a. induction l as [|b l IH]; intros a; auto. cbn [last] in *. rewrite <- IH. destruct l; auto. Qed.
  Lemma write_dets_spec s w ds : forall acc arr out, NoDup (dkeys acc) -> write_dets f32 s w ds acc arr = Ok out ->
    NoDup (dkeys acc ++ ds) /\
    exists rcs, List.length rcs = List.length ds /\
      Forall2 (fun d rc => of_det s d = Ok (fst rc) /\ List.length (rw_wavelength (fst rc)) = List.length (rw_response (fst rc)) /\
                           central_of w (numbered (rw_wavelength (fst rc)) (rw_response (fst rc))) (snd rc)) ds rcs /\
      fst out = (acc ++ combine ds (map (fun rc => {| hd_response := Some (map f32 (rw_response (fst rc))); hd_wavelength := None; hd_central := Some (snd rc) |}) rcs))%list /\
      snd out = last (map (fun rc => rw_response (fst rc)) rcs) arr.
  Proof.
    induction ds as [|d ds IH]; intros acc arr out ND; cbn.
    - intros H; injection H as <-. rewrite app_nil_r. split; auto. exists []. cbn. rewrite app_nil_r. auto.
    - unfold dhas. destruct (dget d acc) eqn:E; [discriminate|].
      destruct (of_det s d) as [r|] eqn:R; cbn; [|discriminate].
      destruct (where_wave (rw_wavelength r) (rw_response r)) as [a|] eqn:E2; cbn; [|discriminate]. apply where_wave_ok in E2. destruct E2 as (L & ->).
      destruct (get_central_wave w _ (WScalar n1)) as [c|] eqn:E3; cbn; [|discriminate].
      intros H. apply IH in H; [|now apply dset_nodup]. destruct H as (ND' & rcs & HL & F & H1 & H2).
      rewrite (dset_new _ _ _ E) in H1, ND'. unfold dkeys in *. rewrite map_app, <- app_assoc in ND'. split; auto.
      exists ((r, c) :: rcs). cbn. split; auto. split; [constructor; auto|]. split.
      + rewrite H1, <- app_assoc. reflexivity.
      + rewrite H2. symmetry. exact (last_cons _ _ _).
  Qed.

  Lemma F2_last {A B} (P : A -> B -> Prop) l m a b : Forall2 P l m -> P a b -> P (last l a) (last m b).
  Proof. intros H. revert a b. induction H as [|x y l m H F IH]; intros a b K; auto. rewrite !last_cons. auto. Qed.
  Lemma last_map {A B} (f : A -> B) l a : last (map f l) (f a) = f (last l a).
  Proof. revert a. induction l as [|b l IH]; intros a; auto. cbn [map]. rewrite !last_cons. auto. Qed.

  Lemma write_multi_spec s scale ds g : write_multi f32 s scale ds = Ok g ->
    NoDup ds /\ exists m d0 r0 rl, sn_rsr s = RMulti m /\ hd_error ds = Some d0 /\ dget d0 m = Some r0 /\ dget (last ds d0) m = Some rl /\
      hb_count g = Some (Z.of_nat (List.length ds)) /\
      hb_shared g = {| hd_response := None; hd_wavelength := Some {| wv_data := map f32 (rw_response rl); wv_scale := Some scale |}; hd_central := None |} /\
      (forall d, ~ In d ds -> dget d (hb_dets g) = None) /\
      forall d, In d ds -> exists r c, dget d m = Some r /\ List.length (rw_wavelength r) = List.length (rw_response r) /\
        central_of (numbered (rw_wavelength r0) (rw_wavelength r0)) (numbered (rw_wavelength r) (rw_response r)) c /\
        dget d (hb_dets g) = Some {| hd_response := Some (map f32 (rw_response r)); hd_wavelength := None; hd_central := Some c |}.
  Proof.
    unfold write_multi. destruct ds as [|d0 ds]; cbn [hd_error of_option bind]; [discriminate|].
    unfold of_det at 1. destruct (sn_rsr s) as [|m|] eqn:M; cbn [bind]; [discriminate| |discriminate].
    destruct (dget d0 m) as [r0|] eqn:R0; cbn [bind of_option]; [|discriminate].
    destruct (where_wave (rw_wavelength r0) (rw_wavelength r0)) as [w|] eqn:E1; cbn [bind]; [|discriminate].
    apply where_wave_ok in E1. destruct E1 as (_ & ->).
    destruct (write_dets f32 s _ (d0 :: ds) [] []) as [out|] eqn:W; cbn [bind]; [|discriminate].
    apply write_dets_spec in W; [|constructor]. destruct W as (ND & rcs & HL & F & H1 & H2). destruct out as (dets, arr).
    cbn [fst snd app] in H1, H2. intros H; injection H as <-. split; [exact ND|].
    inversion F as [|d' rc0 l m0 Hd F' Eq1 Eq2]. subst rcs d' l. destruct Hd as (Hd & _ & _).
    exists m, d0, r0, (fst (last m0 rc0)). split; auto. split; auto. split; auto.
    assert (OD : forall d r, of_det s d = Ok r -> dget d m = Some r).
    { unfold of_det. rewrite M. intros d r. destruct (dget d m); cbn; [congruence|discriminate]. }
    split. { rewrite last_cons. apply OD. apply (F2_last (fun d rc => of_det s d = Ok (fst rc))); auto.
             clear -F'. induction F' as [|? ? ? ? H]; constructor; auto. apply H. }
    split; [reflexivity|]. split.
    { cbn [hb_shared]. unfold saved_wavelengths. do 4 f_equal. rewrite H2. change (map (fun rc => rw_response (fst rc)) (rc0 :: m0)) with (rw_response (fst rc0) :: map (fun rc => rw_response (fst rc)) m0).
      rewrite last_cons. apply (last_map (fun rc => rw_response (fst rc))). }
    cbn [hb_dets]. subst dets. split.
    - intros d Hd'. apply dget_None_notin. rewrite combine_keys; auto. rewrite map_length. auto.
    - intros d Hd'. destruct (F2_dget (fun d g => exists rc, (of_det s d = Ok (fst rc) /\ List.length (rw_wavelength (fst rc)) = List.length (rw_response (fst rc)) /\
                           central_of (numbered (rw_wavelength r0) (rw_wavelength r0)) (numbered (rw_wavelength (fst rc)) (rw_response (fst rc))) (snd rc)) /\
                           g = {| hd_response := Some (map f32 (rw_response (fst rc))); hd_wavelength := None; hd_central := Some (snd rc) |})
          (d0 :: ds) (map (fun rc => {| hd_response := Some (map f32 (rw_response (fst rc))); hd_wavelength := None; hd_central := Some (snd rc) |}) (rc0 :: m0)) d)
        as (g & G & rc & (A1 & A2 & A3) & ->); auto.
      + clear -F. induction F as [|? ? ? ? H]; cbn; constructor; auto. eexists. split; [exact H|reflexivity].
      + exists (fst rc), (snd rc). split; auto.
  Qed.

  Lemma standard_all ds : NoDup ds -> standard_names ds -> forall d, In d ds -> exists k, 1 <= k <= List.length ds /\ d = det_name k.
  Proof.
    intros ND S d Hd. assert (I : incl ds (map det_name (seq 1 (List.length ds)))).
    { apply NoDup_length_incl; [apply det_names_nodup|rewrite map_length, seq_length; auto|].
      intros x Hx. apply in_map_iff in Hx. destruct Hx as (k & <- & Hk). apply in_seq in Hk. apply S. lia. }
    apply I, in_map_iff in Hd. destruct Hd as (k & <- & Hk). apply in_seq in Hk. exists k. split; [lia|auto].
  Qed.

  Lemma multi_back load p bns scale ds h : convert2hdf5 f32 upper load p bns scale (Some ds) = Ok h -> standard_names ds ->
    exists i, read_rsr h = Ok i /\ ri_bands i = bns /\ oscar_opt (Some p) (ri_platform i) /\
      (forall t, oscar p t -> ri_instrument i = dget t INSTRUMENTS) /\ dkeys (ri_rsr i) = bns /\
      forall b, In b bns -> exists s m d0 r0 rl y, load b = Ok s /\ sn_rsr s = RMulti m /\
        hd_error ds = Some d0 /\ dget d0 m = Some r0 /\ dget (last ds d0) m = Some rl /\
        dget b (ri_rsr i) = Some y /\ dkeys y = map det_name (seq 1 (List.length ds)) /\
        forall d, In d ds -> exists r c, dget d m = Some r /\
          central_of (numbered (rw_wavelength r0) (rw_wavelength r0)) (numbered (rw_wavelength r) (rw_response r)) c /\
          dget d y = Some [("response", VArr (map f32 (rw_response r)));
            ("wavelength", VArr (map (fun x => f32 x * scale * nlit N 1000000 1) (rw_response rl)));
            ("central_wavelength", VNum c)].
  Proof.
    intros H Std. apply written in H. destruct H as (ND & (b0 & s0 & _ & _ & HD) & HN & HP & HS & HB).
    set (t := match dget p OSCAR_PLATFORM_NAMES with Some t => t | None => p end).
    assert (O : oscar_opt (Some p) (Some t)) by (constructor; apply oscar_get).
    assert (I : names_instrument h (Some t) (dget t INSTRUMENTS)) by now constructor.
    destruct (proj1 (reads_iff _ _ _ _ _ _ HN HD HP O I)) as (rsr & R).
    { intros b Hb. destruct (HB b Hb) as (s & g & _ & W & G). exists g. split; auto.
      apply write_multi_spec in W. destruct W as (NDs & m & d0 & r0 & rl & _ & _ & _ & _ & C & Sh & _ & D).
      intros k Hk. unfold detector_count in Hk. rewrite C, Nat2Z.id in Hk. destruct (D _ (Std k Hk)) as (r & c & _ & _ & _ & G').
      split; [|split].
      - eexists. left. eexists. split; [exact G'|reflexivity].
      - eexists. right. split; [intros g' y K; rewrite G' in K; injection K as <-; intros (? & ? & K & _); discriminate|].
        rewrite Sh. eexists _, _. split; reflexivity.
      - eexists. left. eexists. split; [exact G'|reflexivity]. }
    eexists. split; [exact R|]. cbn [ri_bands ri_platform ri_instrument ri_rsr]. pose proof (read_spec _ _ R) as S. cbn [ri_bands ri_platform ri_instrument ri_rsr ri_description] in S. destruct S as (_ & _ & _ & _ & S5 & _ & S7).
    split; auto. split; auto. split. { intros u Hu. f_equal. eapply oscar_fun; [apply oscar_get|exact Hu]. }
    split; auto. intros b Hb. destruct (HB b Hb) as (s & g & L & W & G). destruct (S5 b Hb) as (g' & y & G' & Y & K & D).
    rewrite G in G'. injection G' as <-.
    apply write_multi_spec in W. destruct W as (NDs & m & d0 & r0 & rl & M & H0 & R0 & RL & C & Sh & _ & DD).
    assert (CN : detector_count g = List.length ds) by (unfold detector_count; now rewrite C, Nat2Z.id).
    exists s, m, d0, r0, rl, y. rewrite CN in *. repeat (split; auto).
    intros d Hd. destruct (DD d Hd) as (r & c & E1 & E2 & E3 & E4). exists r, c. split; auto. split; auto.
    destruct (standard_all ds NDs Std d Hd) as (k & Hk & ->). destruct (D k Hk) as (z & Z1 & r' & w & c' & A1 & A2 & A3 & ->).
    rewrite Z1. f_equal.
    destruct A1 as [(g1 & A & A1)|[A _]]; [|exfalso; eapply A; [exact E4|reflexivity]].
    destruct A3 as [(g3 & B & A3)|[B _]]; [|exfalso; eapply B; [exact E4|reflexivity]].
    rewrite E4 in A, B. injection A as <-. injection B as <-. injection A1 as <-. injection A3 as <-.
    destruct A2 as [(g2 & B & l & sc & B' & _)|[_ A2]]; [rewrite E4 in B; injection B as <-; discriminate|].
    rewrite Sh in A2. destruct A2 as (l & sc & A2 & ->). cbn in A2. injection A2 as <- <-. now rewrite map_map.
  Qed.

  Lemma multi_odd_names load p bns scale ds h : convert2hdf5 f32 upper load p bns scale (Some ds) = Ok h -> ~ standard_names ds ->
    read_rsr h = Err KeyError.
  Proof.
    intros H Std. assert (NE : exists b, In b bns).
    { apply written in H. destruct H as (_ & (b0 & _ & H & _) & _). destruct bns; [discriminate|]. eexists. left. reflexivity. }
    apply written in H. destruct H as (ND & (b0 & s0 & _ & _ & HD) & HN & HP & HS & HB).
    set (t := match dget p OSCAR_PLATFORM_NAMES with Some t => t | None => p end).
    assert (O : oscar_opt (Some p) (Some t)) by (constructor; apply oscar_get).
    assert (I : names_instrument h (Some t) (dget t INSTRUMENTS)) by now constructor.
    apply (proj2 (reads_iff _ _ _ _ _ _ HN HD HP O I)). intros C. apply Std. intros k Hk.
    destruct NE as (b & Hb). destruct (HB b Hb) as (s & g & _ & W & G). destruct (C b Hb) as (g' & G' & CC). rewrite G in G'. injection G' as <-.
    apply write_multi_spec in W. destruct W as (NDs & m & d0 & r0 & rl & M & H0 & R0 & RL & Cn & Sh & Out & DD).
    destruct (in_dec string_dec (det_name k) ds) as [|Hn]; auto. exfalso.
    destruct (CC k) as ((r & A) & _); [unfold detector_count; rewrite Cn, Nat2Z.id; auto|].
    destruct A as [(g1 & A & _)|[_ A]]; [rewrite (Out _ Hn) in A; discriminate|]. rewrite Sh in A. discriminate.
  Qed.

  (** writing succeeds *)
  Lemma write_channels_total scale dets bs : forall ss acc, NoDup (dkeys acc ++ bs) -> Forall (fun s => exists g, writes scale dets s = Ok g) ss ->
    exists out, write_channels f32 ss bs scale dets acc = Ok out.
  Proof.
    induction bs as [|b bs IH]; intros [|s ss] acc ND F; cbn; eauto.
    assert (E : dget b acc = None). { apply dget_None_notin. intros Hin. apply NoDup_remove_2 in ND. apply ND, in_or_app. auto. }
    unfold dhas. rewrite E. fold (writes scale dets s). inversion F as [|? ? (g & G) F']; subst. rewrite G. cbn. apply IH; auto.
    rewrite (dset_new _ _ _ E). unfold dkeys in *. rewrite map_app, <- app_assoc. exact ND.
  Qed.
  Lemma numbered_length (w a : list N) : List.length w = List.length a -> List.length (numbered w a) = List.length (numbered w w).
  Proof.
    unfold numbered. revert a. induction w as [|x w IH]; intros [|y a]; cbn; try discriminate; auto. intros H.
    destruct (nisnan N x); cbn; auto.
  Qed.
  Lemma single_writes (load : string -> res (sensor N)) p bns scale : bns <> [] -> NoDup bns ->
    (forall b, In b bns -> exists s r, load b = Ok s /\ sn_rsr s = RSingle r /\ List.length (rw_wavelength r) = List.length (rw_response r)) ->
    exists h, convert2hdf5 f32 upper load p bns scale None = Ok h.
  Proof.
    intros NE ND H. unfold convert2hdf5.
    assert (M : exists ss, mapM load bns = Ok ss /\ Forall (fun s => exists r, sn_rsr s = RSingle r /\ List.length (rw_wavelength r) = List.length (rw_response r)) ss).
    { clear NE ND. induction bns as [|b bns IH]; cbn; [eauto|].
      destruct (H b) as (s & r & L & R & HL); [left; auto|]. rewrite L. cbn.
      destruct IH as (ss & M & F); [intros; apply H; now right|]. rewrite M. cbn. eexists. split; [reflexivity|]. constructor; eauto. }
    destruct M as (ss & M & F). rewrite M. cbn [bind]. destruct ss as [|s0 ss].
    { apply mapM_F2 in M. inversion M; subst; congruence. }
    cbn [hd_error of_option bind].
    destruct (write_channels_total scale None bns (s0 :: ss) [] ND) as (out & ->).
    - eapply Forall_impl; [|exact F]. intros s (r & R & HL). unfold writes, write_single, single. rewrite R. cbn [bind].
      rewrite (proj2 (where_wave_ok _ _ _) (conj eq_refl eq_refl)). cbn [bind].
      rewrite (proj2 (where_wave_ok _ _ _) (conj HL eq_refl)). cbn [bind].
      destruct (central_total (numbered (rw_wavelength r) (rw_wavelength r)) (numbered (rw_wavelength r) (rw_response r))) as (c & E); [now apply numbered_length|].
      rewrite E. cbn. eauto.
    - eexists. reflexivity.
  Qed.

  (** the wavelengths that were given leave no trace among those read back *)
  Lemma waves_lost load load' p bns scale h h' i i' b : In b bns ->
    (forall s s', load b = Ok s -> load' b = Ok s' -> same_responses s s') ->
    convert2hdf5 f32 upper load p bns scale None = Ok h -> convert2hdf5 f32 upper load' p bns scale None = Ok h' ->
    read_rsr h = Ok i -> read_rsr h' = Ok i' ->
    exists x x' w, dget b (ri_rsr i) = Some [("det-1", x)] /\ dget b (ri_rsr i') = Some [("det-1", x')] /\
      get_arr "wavelength" x = Ok w /\ get_arr "wavelength" x' = Ok w.
  Proof.
    intros Hb S W W' R R'. apply single_back in W, W'.
    destruct W as (j & J & _ & _ & _ & _ & B), W' as (j' & J' & _ & _ & _ & _ & B').
    rewrite R in J. injection J as <-. rewrite R' in J'. injection J' as <-.
    destruct (B b Hb) as (s & r & c & L & Hr & _ & D), (B' b Hb) as (s' & r' & c' & L' & Hr' & _ & D').
    destruct (S s s' L L') as (q & q' & Q & Q' & E). rewrite Hr in Q. injection Q as <-. rewrite Hr' in Q'. injection Q' as <-.
    rewrite D, D'. do 3 eexists. split; [reflexivity|]. split; [reflexivity|]. cbn. rewrite E. auto.
  Qed.
End W.
