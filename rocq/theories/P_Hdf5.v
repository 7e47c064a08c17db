(** Lemmas for C53-C55. *)
From Coq Require Import String Ascii List Bool ZArith Lia DecimalString DecimalNat FinFun.
From Verif Require Import Base NumSig M_Tables M_Utils S_Names P_Names P_Strings M_Hdf5 S_Hdf5.
Import ListNotations.
Local Open Scope string_scope.

Lemma det_name_inj i j : det_name i = det_name j -> i = j.
Proof.
  unfold det_name. intros H. apply sapp_inj in H.
  assert (E : forall n, NilZero.uint_of_string (NilZero.string_of_uint (Nat.to_uint n)) = Some (Nat.to_uint n)).
  { intros n. apply NilZero.usu. intros K. pose proof (Unsigned.of_to n) as O. rewrite K in O. cbn in O. subst n. discriminate K. }
  pose proof (E i) as Ei. rewrite H, E in Ei. injection Ei as Ei.
  rewrite <- (Unsigned.of_to i), <- (Unsigned.of_to j). now rewrite Ei.
Qed.
Lemma det_names_nodup a n : NoDup (map det_name (seq a n)).
Proof. apply FinFun.Injective_map_NoDup; [exact det_name_inj|apply seq_NoDup]. Qed.

Lemma as_text_iff v s : as_text v = Ok s <-> holds_text v s.
Proof.
  unfold as_text. destruct (convert2str_spec v) as (H & _). split.
  - destruct (convert2str v) as [w|e] eqn:E; cbn; [|discriminate]. destruct (proj1 (H w) eq_refl) as (s' & -> & K).
    injection 1 as <-. exact K.
  - intros K. pose proof (proj2 (H (TStr s)) (ex_intro _ s (conj eq_refl K))) as E. rewrite E. reflexivity.
Qed.
Lemma as_text_no_key v : as_text v <> Err KeyError.
Proof.
  unfold as_text. destruct (convert2str_spec v) as (H & _ & _ & K). destruct (convert2str v) as [w|e] eqn:E; cbn.
  - destruct (proj1 (H w) eq_refl) as (s' & -> & _). discriminate.
  - destruct (K e eq_refl) as [->|[->| ->]]; discriminate.
Qed.
Lemma mapM_text l names : mapM as_text l = Ok names <-> Forall2 holds_text l names.
Proof.
  revert names. induction l as [|v l IH]; intros names; cbn.
  - split; [intros H; injection H as <-; constructor|inversion 1; reflexivity].
  - split.
    + destruct (as_text v) as [s|] eqn:E; cbn; [|discriminate]. destruct (mapM as_text l) as [ss|]; cbn; [|discriminate].
      intros H; injection H as <-. constructor; [now apply as_text_iff|now apply IH].
    + inversion 1 as [|a b c d H1 H2]; subst. apply as_text_iff in H1. apply IH in H2. now rewrite H1, H2.
Qed.

Lemma in_dkeys_dget {V} k (d : dict V) : In k (dkeys d) <-> exists v, dget k d = Some v.
Proof.
  split; [apply dkeys_in_dget|]. intros (v & H). apply dget_Some_in in H. apply (in_map fst) in H. exact H.
Qed.
Lemma dset_new {V} k (v : V) d : dget k d = None -> dset k v d = (d ++ [(k, v)])%list.
Proof.
  induction d as [|[k' v'] t IH]; cbn; auto. destruct (String.eqb k k'); [discriminate|]. intros H. now rewrite IH.
Qed.

Section P.
  Context {N : Num}.
  Local Open Scope num_scope.

  Definition own {A} (f : h5data N -> option A) (b : h5band N) (d : string) : option A :=
    match dget d (hb_dets b) with
    | Some g => match f g with Some x => Some x | None => f (hb_shared b) end
    | None => f (hb_shared b)
    end.
  Lemma own_spec {A} (f : h5data N -> option A) (P : h5data N -> A -> Prop) b d x :
    (forall g y, P g y <-> f g = Some y) -> own f b d = Some x <-> available P b d x.
  Proof.
    intros HP. unfold own, available. destruct (dget d (hb_dets b)) as [g|] eqn:E.
    - destruct (f g) as [y|] eqn:F.
      + split.
        * intros H; injection H as <-. left. exists g. split; auto. now apply HP.
        * intros [(g' & H1 & H2)|[H1 H2]].
          -- injection H1 as <-. apply HP in H2. congruence.
          -- exfalso. apply (H1 g y eq_refl). now apply HP.
      + split.
        * intros H. right. split; [|now apply HP]. intros g' y H1 H2. injection H1 as <-. apply HP in H2. congruence.
        * intros [(g' & H1 & H2)|[H1 H2]].
          -- injection H1 as <-. apply HP in H2. congruence.
          -- now apply HP.
    - split.
      + intros H. right. split; [discriminate|now apply HP].
      + intros [(g' & H1 & H2)|[H1 H2]]; [discriminate|now apply HP].
  Qed.

  Definition fwave (g : h5data N) : option (list N) :=
    match hd_wavelength g with
    | Some {| wv_data := l; wv_scale := Some s |} => Some (map (fun x => x * s * nlit N 1000000 1) l)
    | _ => None
    end.
  Lemma fwave_iff g y : has_wavelengths g y <-> fwave g = Some y.
  Proof.
    unfold has_wavelengths, fwave. destruct (hd_wavelength g) as [[l [s|]]|]; split.
    - intros (l' & s' & H & ->). injection H as <- <-. reflexivity.
    - intros H; injection H as <-. eauto.
    - intros (l' & s' & H & ->). discriminate.
    - discriminate.
    - intros (l' & s' & H & ->). discriminate.
    - discriminate.
  Qed.

  Definition in_band {A} (h : h5file N) b (k : h5band N -> option A) : res A :=
    match dget b (h_bands h) with Some g => of_option KeyError (k g) | None => Err KeyError end.

  Lemma read_response_eq (h : h5file N) b d : read_response h b d = in_band h b (fun g => own hd_response g d).
  Proof.
    unfold read_response, in_band, det_group, band_group, except_key, own.
    destruct (dget b (h_bands h)) as [g|]; cbn; auto. destruct (dget d (hb_dets g)) as [x|]; cbn; auto.
    destruct (hd_response x); reflexivity.
  Qed.
  Lemma read_central_eq (h : h5file N) b d : read_central h b d = in_band h b (fun g => own hd_central g d).
  Proof.
    unfold read_central, in_band, det_group, band_group, except_key, own.
    destruct (dget b (h_bands h)) as [g|]; cbn; auto. destruct (dget d (hb_dets g)) as [x|]; cbn; auto.
    destruct (hd_central x); reflexivity.
  Qed.
  Lemma read_wavelength_eq (h : h5file N) b d : read_wavelength h b d = in_band h b (fun g => own fwave g d).
  Proof.
    unfold read_wavelength, in_band, det_group, band_group, except_key, own.
    destruct (dget b (h_bands h)) as [g|]; cbn; auto. destruct (dget d (hb_dets g)) as [x|]; cbn.
    - unfold scaled, fwave. destruct (hd_wavelength x) as [[l [s|]]|]; cbn; try (now rewrite map_map);
      destruct (hd_wavelength (hb_shared g)) as [[l' [s'|]]|]; cbn; try (now rewrite map_map); reflexivity.
    - unfold scaled, fwave. destruct (hd_wavelength (hb_shared g)) as [[l' [s'|]]|]; cbn; try (now rewrite map_map); reflexivity.
  Qed.

  Definition det_of (b : h5band N) (d : string) : option (detector N) :=
    match own hd_response b d, own fwave b d, own hd_central b d with
    | Some r, Some w, Some c => Some [("response", VArr r); ("wavelength", VArr w); ("central_wavelength", VNum c)]
    | _, _, _ => None
    end.
  Lemma read_detector_eq (h : h5file N) b d : read_detector h b d = in_band h b (fun g => det_of g d).
  Proof.
    unfold read_detector. rewrite read_response_eq, read_wavelength_eq, read_central_eq. unfold in_band, det_of.
    destruct (dget b (h_bands h)) as [g|]; cbn; auto.
    destruct (own hd_response g d); cbn; auto. destruct (own fwave g d); cbn; auto. destruct (own hd_central g d); reflexivity.
  Qed.
  Lemma has_response_iff (g : h5data N) y : has_response g y <-> hd_response g = Some y.
  Proof. reflexivity. Qed.
  Lemma has_central_iff (g : h5data N) y : has_central g y <-> hd_central g = Some y.
  Proof. reflexivity. Qed.
  Lemma det_of_iff b d x : det_of b d = Some x <-> detector_data b d x.
  Proof.
    unfold det_of, detector_data. split.
    - destruct (own hd_response b d) as [r|] eqn:E1; [|discriminate]. destruct (own fwave b d) as [w|] eqn:E2; [|discriminate].
      destruct (own hd_central b d) as [c|] eqn:E3; [|discriminate]. intros H; injection H as <-.
      exists r, w, c. rewrite <- (own_spec _ _ _ _ _ has_response_iff), <- (own_spec _ _ _ _ _ fwave_iff), <- (own_spec _ _ _ _ _ has_central_iff).
      auto.
    - intros (r & w & c & H1 & H2 & H3 & ->).
      apply (own_spec _ _ _ _ _ has_response_iff) in H1. apply (own_spec _ _ _ _ _ fwave_iff) in H2. apply (own_spec _ _ _ _ _ has_central_iff) in H3.
      now rewrite H1, H2, H3.
  Qed.

  Lemma read_dets_spec (h : h5file N) b g (ds : list string) acc : dget b (h_bands h) = Some g ->
    NoDup (dkeys acc ++ ds) ->
    match read_dets h b ds acc with
    | Ok x => exists ys, x = (acc ++ combine ds ys)%list /\ Forall2 (fun d y => det_of g d = Some y) ds ys
    | Err e => e = KeyError /\ exists d, In d ds /\ det_of g d = None
    end.
  Proof.
    intros Hg. revert acc. induction ds as [|d ds IH]; intros acc ND; cbn.
    - exists []. rewrite app_nil_r. auto.
    - rewrite read_detector_eq. unfold in_band. rewrite Hg. destruct (det_of g d) as [y|] eqn:E; cbn.
      + assert (Hn : dget d acc = None).
        { apply dget_None_notin. intros Hin. apply NoDup_remove_2 in ND. apply ND, in_or_app. auto. }
        rewrite (dset_new _ _ _ Hn). specialize (IH (acc ++ [(d, y)])%list).
        assert (ND' : NoDup (dkeys (acc ++ [(d, y)]) ++ ds)).
        { unfold dkeys in *. rewrite map_app, <- app_assoc. exact ND. }
        specialize (IH ND'). destruct (read_dets h b ds _) as [x|e].
        * destruct IH as (ys & -> & F). exists (y :: ys). rewrite <- app_assoc. split; [reflexivity|constructor; auto].
        * destruct IH as (He & d' & H1 & H2). split; auto. exists d'. auto.
      + split; auto. exists d. auto.
  Qed.
  Lemma read_dets_no_band (h : h5file N) b ds acc : dget b (h_bands h) = None -> ds <> [] -> read_dets h b ds acc = Err KeyError.
  Proof. intros Hb. destruct ds; [congruence|]. intros _. cbn. rewrite read_detector_eq. unfold in_band. now rewrite Hb. Qed.

  Lemma detector_names_eq (h : h5file N) b g : dget b (h_bands h) = Some g -> detector_names h b = map det_name (seq 1 (detector_count g)).
  Proof. unfold detector_names, detector_count. intros ->. now destruct (hb_count g). Qed.

  Lemma combine_keys {V} (ds : list string) (ys : list V) : List.length ds = List.length ys -> dkeys (combine ds ys) = ds.
  Proof. revert ys. induction ds as [|d ds IH]; intros [|y ys]; cbn; try discriminate; auto. intros H. f_equal. apply IH. lia. Qed.
  Lemma F2_length {A B} (P : A -> B -> Prop) l l' : Forall2 P l l' -> List.length l = List.length l'.
  Proof. induction 1; cbn; auto. Qed.
  Lemma F2_dget {V} (P : string -> V -> Prop) ds ys d : Forall2 P ds ys -> In d ds -> exists y, dget d (combine ds ys) = Some y /\ P d y.
  Proof.
    induction 1 as [|a y l l' H F IH]; intros Hin; [destruct Hin|]. cbn. destruct (String.eqb d a) eqn:E.
    - apply String.eqb_eq in E; subst. eauto.
    - destruct Hin as [->|Hin]; [now rewrite String.eqb_refl in E|auto].
  Qed.

  Definition band_ok (h : h5file N) b : Prop := exists g, dget b (h_bands h) = Some g /\ complete g.
  Lemma complete_iff g : complete g <-> forall k, 1 <= k <= detector_count g -> det_of g (det_name k) <> None.
  Proof.
    unfold complete. split; intros H k Hk; specialize (H k Hk).
    - destruct H as ((r & H1) & (w & H2) & (c & H3)).
      apply (own_spec _ _ _ _ _ has_response_iff) in H1. apply (own_spec _ _ _ _ _ fwave_iff) in H2. apply (own_spec _ _ _ _ _ has_central_iff) in H3.
      unfold det_of. rewrite H1, H2, H3. discriminate.
    - destruct (det_of g (det_name k)) as [x|] eqn:E; [|congruence]. apply det_of_iff in E. destruct E as (r & w & c & H1 & H2 & H3 & _). split; [|split]; eauto.
  Qed.

  Lemma read_band_spec (h : h5file N) b :
    match read_dets h b (detector_names h b) [] with
    | Ok x => exists g, dget b (h_bands h) = Some g /\ complete g /\ band_data g x
    | Err e => e = KeyError /\ ~ band_ok h b
    end.
  Proof.
    destruct (dget b (h_bands h)) as [g|] eqn:Hg.
    - pose proof (read_dets_spec h b g (detector_names h b) [] Hg) as H. rewrite (detector_names_eq _ _ _ Hg) in *.
      specialize (H (det_names_nodup _ _)). destruct (read_dets h b _ []) as [x|e].
      + destruct H as (ys & -> & F). exists g. split; auto. cbn [app]. split.
        * apply complete_iff. intros k Hk. destruct (F2_dget _ _ _ (det_name k) F) as (y & _ & E); [apply in_map, in_seq; lia|]. congruence.
        * split; [apply combine_keys; now apply F2_length in F|]. intros k Hk.
          destruct (F2_dget _ _ _ (det_name k) F) as (y & E1 & E2); [apply in_map, in_seq; lia|]. exists y. split; auto. now apply det_of_iff.
      + destruct H as (-> & d & Hd & Hn). split; auto. intros (g' & Hg' & C). rewrite Hg in Hg'. injection Hg' as <-.
        apply in_map_iff in Hd. destruct Hd as (k & <- & Hk). apply in_seq in Hk. apply complete_iff with (k := k) in C; [auto|lia].
    - rewrite read_dets_no_band; auto.
      + split; auto. intros (g & Hg' & _). congruence.
      + unfold detector_names. rewrite Hg. discriminate.
  Qed.

  Lemma read_bands_spec (h : h5file N) bs acc :
    match read_bands h bs acc with
    | Ok x => (forall b, In b bs -> exists g y, dget b (h_bands h) = Some g /\ complete g /\ dget b x = Some y /\ band_data g y) /\
              (forall b, ~ In b bs -> dget b x = dget b acc) /\
              (NoDup (dkeys acc ++ bs) -> dkeys x = (dkeys acc ++ bs)%list)
    | Err e => e = KeyError /\ exists b, In b bs /\ ~ band_ok h b
    end.
  Proof.
    revert acc. induction bs as [|b bs IH]; intros acc; cbn.
    - repeat split; [tauto|]. now rewrite app_nil_r.
    - pose proof (read_band_spec h b) as HB. destruct (read_dets h b _ []) as [x|e]; cbn.
      + destruct HB as (g & Hg & C & D). specialize (IH (dset b x acc)). destruct (read_bands h bs _) as [z|e].
        * destruct IH as (I1 & I2 & I3). split; [|split].
          -- intros b' [<-|Hin]; [|auto]. destruct (in_dec string_dec b bs) as [Hin|Hn]; [auto|].
             exists g, x. split; [exact Hg|split; [exact C|split; [|exact D]]]. rewrite I2, dget_dset_same; auto.
          -- intros b' Hn. rewrite I2 by tauto. rewrite dget_dset_other; auto.
          -- intros ND. assert (Hn : dget b acc = None).
             { apply dget_None_notin. intros Hin. apply NoDup_remove_2 in ND. apply ND, in_or_app. auto. }
             rewrite (dset_new _ _ _ Hn) in I3. unfold dkeys in *. rewrite map_app, <- app_assoc in I3. cbn in I3. apply I3. exact ND.
        * destruct IH as (-> & b' & H1 & H2). split; auto. exists b'. auto.
      + destruct HB as (-> & H). split; auto. exists b. auto.
  Qed.

  Lemma oscar_get s : oscar s (match dget s OSCAR_PLATFORM_NAMES with Some t => t | None => s end).
  Proof. destruct (dget s OSCAR_PLATFORM_NAMES) eqn:E; [now constructor|]. apply oscar_other. now apply dget_None_notin. Qed.
  Lemma oscar_fun s t u : oscar s t -> oscar s u -> t = u.
  Proof.
    intros H K. destruct H as [s t H|s H]; inversion K as [s' u' K'|s' K']; subst; auto; try congruence.
    - exfalso. apply K'. apply in_dkeys_dget. eauto.
    - exfalso. apply H. apply in_dkeys_dget. eauto.
  Qed.
  Lemma names_platform_fun (h : h5file N) a b : names_platform h a -> names_platform h b -> a = b.
  Proof.
    assert (F : forall v s t, holds_text v s -> holds_text v t -> s = t).
    { intros v s t A B. apply as_text_iff in A, B. congruence. }
    intros [v s H1 H2|v s n H1 H2 H3 H4|v s H1 H2 H3 H4|H1 H2] [v' s' K1 K2|v' s' n' K1 K2 K3 K4|v' s' K1 K2 K3 K4|K1 K2]; try congruence.
    - f_equal. eapply F; eauto. congruence.
    - replace n' with n by congruence. do 2 f_equal. eapply F; eauto. congruence.
  Qed.

  Lemma read_platform_spec (h : h5file N) r :
    read_platform_name h = Ok r <-> exists p, names_platform h p /\ oscar_opt p r.
  Proof.
    assert (T : forall p q, oscar_opt p q -> q = match p with None => None | Some s => Some (match dget s OSCAR_PLATFORM_NAMES with Some t => t | None => s end) end).
    { intros p q [s t H|]; auto. f_equal. eapply oscar_fun; eauto. apply oscar_get. }
    unfold read_platform_name. split.
    - destruct (h_platform_name h) as [v|] eqn:E1.
      + destruct (as_text v) as [s|] eqn:E; cbn; [|discriminate]. intros H; injection H as <-. apply as_text_iff in E.
        exists (Some s). split; [econstructor; eauto|]. constructor. apply oscar_get.
      + destruct (h_platform h) as [v|] eqn:E2.
        * destruct (as_text v) as [s|] eqn:E; cbn; [|discriminate]. apply as_text_iff in E. destruct (h_sat_number h) as [n|] eqn:E3; cbn; intros H; injection H as <-.
          -- exists (Some (s ++ "-" ++ n)). split; [eapply np_number; eauto|]. constructor. apply oscar_get.
          -- exists None. split; [eapply np_no_number; eauto|constructor].
        * cbn. intros H; injection H as <-. exists None. split; [now apply np_nothing|constructor].
    - intros (p & H & O). apply T in O. subst r.
      destruct H as [v s H1 H2|v s n H1 H2 H3 H4|v s H1 H2 H3 H4|H1 H2]; rewrite H1.
      + apply as_text_iff in H2. rewrite H2. reflexivity.
      + rewrite H2. apply as_text_iff in H3. rewrite H3, H4. reflexivity.
      + rewrite H2. apply as_text_iff in H3. rewrite H3, H4. reflexivity.
      + rewrite H2. reflexivity.
  Qed.
  Lemma read_instrument_spec (h : h5file N) p r : read_instrument h p = Ok r <-> names_instrument h p r.
  Proof.
    unfold read_instrument. split.
    - destruct (h_sensor h) as [v|] eqn:E.
      + destruct (as_text v) as [s|] eqn:E'; cbn; [|discriminate]. intros H; injection H as <-. apply as_text_iff in E'. econstructor; eauto.
      + intros H; injection H as <-. destruct p; [apply ni_default|apply ni_unknown]; auto.
    - intros [v s p' H1 H2|p' H|H].
      + rewrite H1. apply as_text_iff in H2. now rewrite H2.
      + now rewrite H.
      + now rewrite H.
  Qed.

  Lemma read_spec (h : h5file N) i : read_rsr h = Ok i ->
    names_bands h (ri_bands i) /\ describes h (ri_description i) /\
    (exists p, names_platform h p /\ oscar_opt p (ri_platform i)) /\
    names_instrument h (ri_platform i) (ri_instrument i) /\
    (forall b, In b (ri_bands i) -> exists g y, dget b (h_bands h) = Some g /\ dget b (ri_rsr i) = Some y /\ band_data g y) /\
    (forall b, In b (dkeys (ri_rsr i)) -> In b (ri_bands i)) /\
    (NoDup (ri_bands i) -> dkeys (ri_rsr i) = ri_bands i).
  Proof.
    unfold read_rsr. destruct (h_band_names h) as [bn|] eqn:E1; cbn; [|discriminate].
    destruct (mapM as_text bn) as [names|] eqn:E2; cbn; [|discriminate].
    destruct (h_description h) as [dv|] eqn:E3; cbn; [|discriminate]. destruct (as_text dv) as [d|] eqn:E4; cbn; [|discriminate].
    destruct (read_platform_name h) as [p|] eqn:E5; cbn; [|discriminate]. destruct (read_instrument h p) as [ins|] eqn:E6; cbn; [|discriminate].
    pose proof (read_bands_spec h names []) as HB. destruct (read_bands h names []) as [x|]; cbn; [|discriminate].
    intros H; injection H as <-; cbn. destruct HB as (B1 & B2 & B3). repeat split.
    - exists bn. split; auto. now apply mapM_text.
    - exists dv. split; auto. now apply as_text_iff.
    - now apply read_platform_spec.
    - now apply read_instrument_spec.
    - intros b Hb. destruct (B1 b Hb) as (g & y & A1 & A2 & A3 & A4). eauto 6.
    - intros b Hb. destruct (in_dec string_dec b names) as [|Hn]; auto. apply in_dkeys_dget in Hb. destruct Hb as (v & Hv). rewrite (B2 b Hn) in Hv. discriminate.
    - exact B3.
  Qed.

  Lemma read_texts (h : h5file N) names d p r ins : names_bands h names -> describes h d -> names_platform h p -> oscar_opt p r -> names_instrument h r ins ->
    read_rsr h = (rsr <- read_bands h names [] ;;
      Ok {| ri_platform := r; ri_instrument := ins; ri_bands := names; ri_description := d; ri_rsr := rsr |}).
  Proof.
    intros (bn & H1 & H2) (v & H3 & H4) H5 H6 H7. unfold read_rsr. rewrite H1. cbn. apply mapM_text in H2. rewrite H2. cbn.
    rewrite H3. cbn. apply as_text_iff in H4. rewrite H4. cbn.
    assert (E : read_platform_name h = Ok r) by (apply read_platform_spec; eauto). rewrite E. cbn.
    apply read_instrument_spec in H7. rewrite H7. reflexivity.
  Qed.
  Lemma reads_iff (h : h5file N) names d p r ins : names_bands h names -> describes h d -> names_platform h p -> oscar_opt p r -> names_instrument h r ins ->
    (complete_bands h names -> exists rsr, read_rsr h = Ok {| ri_platform := r; ri_instrument := ins; ri_bands := names; ri_description := d; ri_rsr := rsr |}) /\
    (~ complete_bands h names -> read_rsr h = Err KeyError).
  Proof.
    intros H1 H2 H3 H4 H5. rewrite (read_texts h names d p r ins); auto. pose proof (read_bands_spec h names []) as HB.
    destruct (read_bands h names []) as [x|e]; cbn; split.
    - eauto.
    - intros H. destruct H. intros b Hb. destruct HB as (B1 & _). destruct (B1 b Hb) as (g & y & A1 & A2 & _). eauto.
    - intros H. destruct HB as (_ & b & Hb & Hn). destruct Hn. apply H. exact Hb.
    - destruct HB as (-> & _). reflexivity.
  Qed.
  (** a failing read never comes from a KeyError in the text attributes other
      than band_names and description *)
  Lemma read_missing (h : h5file N) : h_band_names h = None -> read_rsr h = Err KeyError.
  Proof. unfold read_rsr. now intros ->. Qed.
End P.
