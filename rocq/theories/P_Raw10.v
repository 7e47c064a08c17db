(** Lemmas about converting MODIS files. *)
From Coq Require Import String Ascii List Bool ZArith Lia Reals Lra Sorted.
From Verif Require Import Base NumSig XR M_Tables M_Utils M_World M_Hdf5 M_Raw S_Raw S_Raw2 S_Hdf5 S_Names S_Utils P_Sort P_Hdf5 P_Hdf52 P_Raw6 P_Raw8 P_Raw9.
From Verif Require P_Convert.
Import ListNotations.
Local Open Scope string_scope.

Lemma modis_names : map band_number MODIS_BANDS = MODIS_NAMES.
Proof. reflexivity. Qed.
Lemma modis_names_nodup : NoDup MODIS_NAMES.
Proof.
  rewrite <- modis_names. apply FinFun.Injective_map_NoDup; [|apply seq_NoDup]. intros i j H. apply det_name_inj. unfold det_name, band_number in *. now rewrite H.
Qed.

Section Modis.
  Context {N : Num}.
  Variable options : dict cfg.
  Variable exists_ : string -> bool.
  Variable readlines : string -> res (list string).
  Variable py_int : string -> res Z.
  Variable py_float : string -> res N.
  Variable argsort : list N -> list nat.
  Variable f32 : N -> N.
  Notation load := (ModisRSR options exists_ readlines py_int py_float argsort).
  Notation convert := (modis_convert2hdf5 options exists_ readlines py_int py_float argsort f32).

  Lemma sort_keys d : forall d', sort_dets argsort d = Ok d' -> dkeys d' = dkeys d /\
    forall k r, dget k d = Some r -> exists w a, sort_data (argsort (rw_wavelength r)) (rw_wavelength r) (rw_response r) = Ok (w, a) /\
      dget k d' = Some {| rw_wavelength := w; rw_response := a |}.
  Proof.
    induction d as [|(k, r) d IH]; intros d'; cbn [sort_dets]; [intros [= <-]; split; [auto|discriminate]|].
    destruct (sort_data _ _ _) as [(w, a)|] eqn:E; cbn [bind]; [|discriminate]. destruct (sort_dets argsort d) as [rest|]; cbn [bind]; [|discriminate].
    intros [= <-]. destruct (IH _ eq_refl) as (H1 & H2). split; [unfold dkeys in *; cbn [map fst]; congruence|].
    intros k' r'. cbn [dget]. destruct (String.eqb k' k); [intros [= <-]; eauto|apply H2].
  Qed.
  Lemma sort_total d : (forall k r, In (k, r) d -> exists x, sort_data (argsort (rw_wavelength r)) (rw_wavelength r) (rw_response r) = Ok x) -> exists d', sort_dets argsort d = Ok d'.
  Proof.
    induction d as [|(k, r) d IH]; intros H; cbn [sort_dets]; [eauto|].
    destruct (H k r) as ((w, a) & ->); [now left|]. cbn [bind]. destruct IH as (out & ->); [intros k1 r1 H1; apply (H k1 r1); now right|]. cbn [bind]. eauto.
  Qed.
  Lemma load_nodup b p d : load b p = Ok d -> NoDup (dkeys d).
  Proof.
    unfold ModisRSR. destruct (dget _ options) as [x|]; cbn [of_option bind]; [|discriminate].
    destruct x as [|m]; cbn [bind]; [discriminate|]. destruct (dget "path" m) as [[[s| | | |]|]|]; cbn [bind]; try discriminate.
    destruct (dget b _) as [f|]; cbn [of_option bind]; [|discriminate]. destruct (exists_ f); [|discriminate].
    set (sc := if _ : bool then _ else _). destruct (readlines f) as [lines|] eqn:L.
    - pose proof (proj1 (response_rows py_int py_float sc readlines f lines L)) as R.
      destruct (read_modis_response readlines py_int py_float f sc) as [d0|]; cbn [bind]; [|discriminate]. intros S. apply sort_keys in S as (S & _). rewrite S.
      destruct (R _ eq_refl) as (_ & _ & ND & _). exact ND.
    - unfold read_modis_response. rewrite L. discriminate.
  Qed.

  Lemma convert_inv p h : convert p = Ok h ->
    h_band_names h = Some (map TStr MODIS_NAMES) /\ h_description h = Some (TStr "Relative Spectral Responses for MODIS") /\
    h_platform_name h = Some (TStr p) /\ h_sensor h = None /\
    forall b, In b MODIS_NAMES -> exists d g, load b p = Ok d /\ modis_band f32 d = Ok g /\ dget b (h_bands h) = Some g.
  Proof.
    unfold modis_convert2hdf5. destruct (load "20" p); cbn [bind]; [|discriminate]. rewrite modis_names.
    destruct (on_bands _ MODIS_NAMES) as [bands|] eqn:E; cbn [bind]; [|discriminate]. intros [= <-].
    cbn [h_band_names h_description h_platform_name h_sensor h_bands]. split; [reflexivity|]. split; auto. split; auto. split; auto.
    apply on_bands_spec in E as (_ & E). intros b Hb. destruct (E b Hb) as (g & H & G). destruct (load b p) as [d|]; cbn [bind] in H; [|discriminate]. eauto.
  Qed.
  Lemma modis_back p h : convert p = Ok h -> (forall b d, In b MODIS_NAMES -> load b p = Ok d -> standard_names (dkeys d)) ->
    exists i, read_rsr h = Ok i /\ ri_bands i = MODIS_NAMES /\ oscar_opt (Some p) (ri_platform i) /\ (forall t, oscar p t -> ri_instrument i = dget t INSTRUMENTS) /\
      dkeys (ri_rsr i) = MODIS_NAMES /\
      forall b, In b MODIS_NAMES -> exists d k0 r0 y, load b p = Ok d /\ hd_error d = Some (k0, r0) /\ dget b (ri_rsr i) = Some y /\
        dkeys y = map det_name (seq 1 (List.length d)) /\
        forall k r, dget k d = Some r -> exists c w, central_of (numbered (rw_wavelength r) (rw_wavelength r)) (numbered (rw_wavelength r) (rw_response r)) c /\
          dget k y = Some [("response", VArr (map f32 (rw_response r))); ("wavelength", VArr (stored f32 w)); ("central_wavelength", VNum c)] /\
          ((forall k' r', dget k' d = Some r' -> k' <> k0 -> alike (rw_wavelength r0) (rw_wavelength r')) -> w = rw_wavelength r0) /\
          (forall k' r', dget k' d = Some r' -> k' <> k0 -> ~ alike (rw_wavelength r0) (rw_wavelength r') -> w = rw_wavelength r).
  Proof.
    intros H Std. apply convert_inv in H as (H1 & H2 & H3 & H4 & HB).
    destruct (reads_back h MODIS_NAMES _ p None H1 H2 H3 H4 modis_names_nodup) as (i & R & I1 & I2 & I3 & _ & I4 & I5).
    { intros b Hb. destruct (HB b Hb) as (d & g & L & G & D). exists g. split; auto. pose proof (load_nodup _ _ _ L) as ND.
      apply modis_band_spec in G as (C & k0 & r0 & _ & _ & _ & F); auto.
      eapply filled_complete; [exact C|]. intros k Hk. specialize (Std b d Hb L k). rewrite (map_length fst d : List.length (dkeys d) = _) in Std. specialize (Std Hk).
      destruct (dget (det_name k) d) as [r|] eqn:E; [|apply dget_None_notin in E; contradiction].
      destruct (F _ _ E) as (c & w & _ & F' & _). eauto. }
    exists i. split; auto. split; auto. split; auto. split; [auto|]. split; auto.
    intros b Hb. destruct (HB b Hb) as (d & g & L & G & D). destruct (I5 b Hb) as (g' & y & D' & Y & BD). rewrite D in D'. injection D' as <-.
    pose proof (load_nodup _ _ _ L) as ND. apply modis_band_spec in G as (C & k0 & r0 & H0 & _ & _ & F); auto.
    exists d, k0, r0, y. split; auto. split; auto. split; auto. destruct (filled_data f32 _ _ _ C BD) as (K & Q). split; auto.
    intros k r Hr. destruct (F _ _ Hr) as (c & w & Hc & F' & W1 & W2). exists c, w. split; auto. split; [|auto].
    destruct (standard_all (dkeys d) ND (Std b d Hb L) k) as (n & Hn & ->).
    { apply dget_Some_in in Hr. apply in_map_iff. exists (k, r). auto. }
    rewrite (map_length fst d : List.length (dkeys d) = _) in Hn. apply Q; auto.
  Qed.
  Lemma modis_odd p h b d : convert p = Ok h -> In b MODIS_NAMES -> load b p = Ok d -> ~ standard_names (dkeys d) -> read_rsr h = Err KeyError.
  Proof.
    intros H Hb L Std. apply convert_inv in H as (H1 & H2 & H3 & H4 & HB).
    set (t := match dget p OSCAR_PLATFORM_NAMES with Some t => t | None => p end).
    assert (O : oscar_opt (Some p) (Some t)) by (constructor; apply oscar_get).
    assert (HN : names_bands h MODIS_NAMES) by (eexists; split; [exact H1|apply text_names]).
    assert (HD : describes h "Relative Spectral Responses for MODIS") by (eexists; split; [exact H2|constructor]).
    assert (HP : names_platform h (Some p)) by (eapply np_name; [exact H3|constructor]).
    assert (I : names_instrument h (Some t) (dget t INSTRUMENTS)) by now constructor.
    apply (proj2 (reads_iff _ _ _ _ _ _ HN HD HP O I)). intros C. apply Std. intros k Hk.
    destruct (HB b Hb) as (d' & g & L' & G & D). rewrite L in L'. injection L' as <-. destruct (C b Hb) as (g' & G' & CC). rewrite D in G'. injection G' as <-.
    pose proof (load_nodup _ _ _ L) as ND. apply modis_band_spec in G as (Cn & k0 & r0 & _ & Sh & Out & _); auto.
    destruct (in_dec string_dec (det_name k) (dkeys d)) as [|Hn]; auto. exfalso.
    rewrite (map_length fst d : List.length (dkeys d) = _) in Hk.
    destruct (CC k) as ((r & A) & _); [unfold detector_count; rewrite Cn, Nat2Z.id; auto|].
    destruct A as [(g1 & A & _)|[_ A]]; [rewrite (Out _ Hn) in A; discriminate|]. unfold has_response in A. rewrite Sh in A. discriminate.
  Qed.
End Modis.

(** ** loading, with real numbers *)
Section Real.
  Variable options : dict cfg.
  Variable exists_ : string -> bool.
  Variable readlines : string -> res (list string).
  Variable py_int : string -> res Z.
  Variable py_float : string -> res XRN.
  Variable argsort : list XRN -> list nat.
  Notation load := (@ModisRSR XRN options exists_ readlines py_int py_float argsort).
  Local Open Scope R_scope.

  Lemma modis_file_get path p b f : modis_file path p b f ->
    dget b (map (fun i => (band_number i, modis_filename p path i)) MODIS_BANDS) = Some f.
  Proof.
    intros H. inversion H as [b' Hb|p' n b' f' Hp Hn Hf]; subst.
    - unfold MODIS_NAMES in Hb. cbn [In] in Hb. unfold modis_filename. cbn [String.eqb Ascii.eqb Bool.eqb]. unfold join.
      repeat (destruct Hb as [<-|Hb]; [reflexivity|]). destruct Hb.
    - unfold modis_filename. apply String.eqb_neq in Hp. rewrite Hp. unfold join.
      do 36 (destruct n as [|n]; [injection Hn as <-; injection Hf as <-; reflexivity|]). destruct n; discriminate.
  Qed.
  Lemma modis_unit_scale p b u : modis_unit p b u ->
    (if is_shortwave b || String.eqb p "EOS-Aqua" then @milli XRN else @n1 XRN) = Fin (/ u) /\ u <> 0.
  Proof.
    assert (M : @milli XRN = Fin (/ 1000)) by (unfold milli; cbn; unfold xlit; f_equal; lra).
    assert (O : @n1 XRN = Fin (/ 1)) by (unfold n1; cbn; unfold xlit; f_equal; lra).
    assert (S : is_shortwave b = true <-> In b (map band_number (seq 1 19 ++ [26%nat])%list)).
    { unfold is_shortwave, existsb_str. rewrite existsb_exists. split.
      - intros (y & Hy & E). apply String.eqb_eq in E. now subst.
      - intros H. exists b. split; auto. apply String.eqb_refl. }
    intros H. inversion H as [b'|p' b' Hb|p' b' Hp Hb]; subst.
    - rewrite orb_true_r. split; [exact M|lra].
    - apply S in Hb as ->. split; [exact M|lra].
    - apply String.eqb_neq in Hp. rewrite Hp, orb_false_r. destruct (is_shortwave b) eqn:E.
      + destruct Hb. now apply S.
      + split; [exact O|lra].
  Qed.
  Lemma finite_pairs rows z : finite_rows rows -> exists l, rows_of rows z = map (fun p => (Fin (fst p), Fin (snd p))) l.
  Proof.
    intros F. assert (A : forall p, In p (rows_of rows z) -> exists a b, p = (Fin a, Fin b)).
    { intros (w, r) Hin. unfold rows_of in Hin. apply in_flat_map in Hin as ([((z', w'), r')|] & Ho & Hin); [|destruct Hin].
      destruct (Z.eqb z z' && _); [|destruct Hin]. destruct Hin as [Hin|[]]. injection Hin as <- <-.
      destruct (F _ _ _ Ho) as (a & b & -> & ->). eauto. }
    induction (rows_of rows z) as [|p l IH]; [exists []; auto|].
    destruct (A p) as (a & b & ->); [now left|]. destruct IH as (l' & ->); [intros; apply A; now right|]. exists ((a, b) :: l'). reflexivity.
  Qed.

  Section File.
    Variables (b p path file : string) (m : dict cfg) (u : R) (lines : list string) (rows : list (option (Z * XRN * XRN))).
    Hypothesis Hsec : dget (p ++ "-modis") options = Some (CMap m).
    Hypothesis Hpath : dget "path" m = Some (Leaf (LStr path)).
    Hypothesis Hfile : modis_file path p b file.
    Hypothesis Hthere : exists_ file = true.
    Hypothesis Hunit : modis_unit p b u.
    Hypothesis Hlines : readlines file = Ok lines.
    Hypothesis Hrows : Forall2 (modis_row py_int py_float) lines rows.
    Hypothesis Hfin : finite_rows rows.
    Hypothesis Hsort : forall xs, is_argsort xs (argsort (map Fin xs)).

    Lemma load_eq : exists d, NoDup (dkeys d) /\ (forall k, In k (dkeys d) <-> exists z, mentions rows z /\ k = det_label z) /\
      (forall z, mentions rows z -> dget (det_label z) d = Some {| rw_wavelength := map (fun q => nmul XRN (fst q) (Fin (/ u))) (rows_of rows z); rw_response := map snd (rows_of rows z) |}) /\
      load b p = sort_dets argsort d.
    Proof.
      unfold ModisRSR. rewrite Hsec. cbn [of_option bind]. rewrite Hpath. cbn [bind]. rewrite (modis_file_get _ _ _ _ Hfile). cbn [of_option bind]. rewrite Hthere.
      destruct (modis_unit_scale _ _ _ Hunit) as (E & _). rewrite E.
      destruct (@response_rows XRN py_int py_float (Fin (/ u)) readlines file lines Hlines) as (R1 & R2).
      destruct (R2 rows Hrows) as (d & R). rewrite R. cbn [bind]. destruct (R1 d R) as (rows' & F & ND & K & _ & G). exists d.
      assert (rows' = rows) as ->.
      { clear -F Hrows. revert rows' F. induction Hrows as [|l o ls os H1 H2 IH]; intros rows' F; inversion F as [|? o' ? os' H3 H4]; subst; auto.
        f_equal; [|auto]. inversion H1 as [|? a b c e z w r N F1 E1 E2 E3]; subst; inversion H3 as [|? a' b' c' e' z' w' r' N' F1' E1' E2' E3']; subst; auto.
        - exfalso. eapply N'. reflexivity.
        - exfalso. eapply N. reflexivity.
        - apply words_iff in F1, F1'. rewrite F1 in F1'. injection F1' as -> -> -> ->. congruence. }
      auto.
    Qed.
    Lemma sort_one l : l <> [] -> exists pts,
      @sort_data XRN (argsort (map (fun q => nmul XRN (fst q) (Fin (/ u))) (map (fun q : R * R => (Fin (fst q), Fin (snd q))) l)))
        (map (fun q => nmul XRN (fst q) (Fin (/ u))) (map (fun q : R * R => (Fin (fst q), Fin (snd q))) l))
        (map snd (map (fun q : R * R => (Fin (fst q), Fin (snd q))) l)) = Ok (map (fun q => Fin (fst q)) pts, map (fun q => Fin (snd q)) pts) /\
      ascending pts /\ (forall w, In w (map fst pts) <-> exists v r, In (v, r) l /\ w = v / u) /\
      (forall w r, In (w, r) pts -> exists v, In (v, r) l /\ w = v / u).
    Proof.
      intros NE. set (xs := map (fun q => fst q / u) l). set (ys := map snd l).
      assert (E1 : map (fun q => nmul XRN (fst q) (Fin (/ u))) (map (fun q : R * R => (Fin (fst q), Fin (snd q))) l) = map Fin xs).
      { unfold xs. rewrite !map_map. apply map_ext. intros (v, r). reflexivity. }
      assert (E2 : map snd (map (fun q : R * R => (Fin (fst q), Fin (snd q))) l) = map Fin ys).
      { unfold ys. rewrite !map_map. reflexivity. }
      rewrite E1, E2. destruct (sort_data_spec xs ys (argsort (map Fin xs))) as (xs' & ys' & S & L & So & I1 & I2 & _); auto.
      { unfold xs, ys. now rewrite !map_length. }
      { unfold xs. intros K. apply map_eq_nil in K. contradiction. }
      exists (combine xs' ys'). assert (C1 : map fst (combine xs' ys') = xs').
      { clear -L. revert ys' L. induction xs' as [|x xs' IH]; intros [|y ys'] L; cbn in *; try discriminate; auto. f_equal. apply IH. lia. }
      assert (C2 : map snd (combine xs' ys') = ys').
      { clear -L. revert ys' L. induction xs' as [|x xs' IH]; intros [|y ys'] L; cbn in *; try discriminate; auto. f_equal. apply IH. lia. }
      assert (ML : forall w r, In (w, r) (combine xs ys) -> exists v, In (v, r) l /\ w = v / u).
      { unfold xs, ys. clear. intros w r. induction l as [|(v, r') l IH]; cbn; [intros []|]. intros [K|K].
        - injection K as <- <-. exists v. auto.
        - destruct (IH K) as (v' & H & ->). exists v'. auto. }
      split; [|split; [|split]].
      - rewrite S. rewrite <- (map_map fst Fin), <- (map_map snd Fin), C1, C2. reflexivity.
      - unfold ascending. apply Sorted_StronglySorted in So; [|intros x y z; apply Rlt_trans].
        clear -So L. revert ys' L. induction So as [|x xs' So IH F]; intros [|y ys'] L; cbn in *; try discriminate; [constructor|].
        constructor; [apply IH; lia|]. apply Forall_forall. intros (a, c) Hin. rewrite Forall_forall in F. apply F. now apply in_combine_l in Hin.
      - intros w. rewrite C1, I1. unfold xs. rewrite in_map_iff. split.
        + intros ((v, r) & <- & Hin). exists v, r. auto.
        + intros (v & r & Hin & ->). exists (v, r). auto.
      - intros w r Hin. apply ML. now apply I2.
    Qed.
    Lemma load_ok : (forall z, mentions rows z -> rows_of rows z <> []) ->
      exists d, load b p = Ok d /\ NoDup (dkeys d) /\ (forall k, In k (dkeys d) <-> exists z, mentions rows z /\ k = det_label z) /\
        forall z, mentions rows z -> exists r pts, dget (det_label z) d = Some r /\ curve r pts /\ ascending pts /\
          (forall w, In w (map fst pts) <-> exists v a, In (Fin v, Fin a) (rows_of rows z) /\ w = v / u) /\
          (forall w a, In (w, a) pts -> exists v, In (Fin v, Fin a) (rows_of rows z) /\ w = v / u).
    Proof.
      intros NE. destruct load_eq as (d0 & ND & K & G & ->).
      assert (IF : forall l v a, In (v, a) l <-> In (Fin v, Fin a) (map (fun q : R * R => (Fin (fst q), Fin (snd q))) l)).
      { intros l v a. rewrite in_map_iff. split; [intros H; exists (v, a); auto|]. intros ((v', a') & [= <- <-] & H). exact H. }
      assert (One : forall z, mentions rows z -> exists r0 pts, dget (det_label z) d0 = Some r0 /\
        sort_data (argsort (rw_wavelength r0)) (rw_wavelength r0) (rw_response r0) = Ok (map (fun q => Fin (fst q)) pts : list XRN, map (fun q => Fin (snd q)) pts : list XRN) /\ ascending pts /\
          (forall w, In w (map fst pts) <-> exists v a, In (Fin v, Fin a) (rows_of rows z) /\ w = v / u) /\
          (forall w a, In (w, a) pts -> exists v, In (Fin v, Fin a) (rows_of rows z) /\ w = v / u)).
      { intros z Hz. destruct (finite_pairs rows z Hfin) as (l & El). pose proof (NE z Hz) as Hne. specialize (G z Hz). rewrite El in *.
        destruct (sort_one l) as (pts & S & A & B & C); [intros ->; now apply Hne|]. eexists _, pts. split; [exact G|]. split; [exact S|]. split; auto. split.
        - intros w. rewrite B. split; intros (v & a & H & E); exists v, a; split; auto; now apply IF.
        - intros w a H. destruct (C w a H) as (v & Hv & E). exists v. split; auto. now apply IF. }
      destruct (@sort_total XRN argsort d0) as (d & S).
      { intros k r Hin. pose proof (dget_in_nodup _ _ _ ND Hin) as Hg. assert (Hk : In k (dkeys d0)) by (apply in_map_iff; exists (k, r); auto).
        apply K in Hk as (z & Hz & ->). destruct (One z Hz) as (r0 & pts & G0 & S0 & _). rewrite Hg in G0. injection G0 as <-. eauto. }
      exists d. split; auto. apply sort_keys in S as (S1 & S2). rewrite S1. split; auto. split; auto.
      intros z Hz. destruct (One z Hz) as (r0 & pts & G0 & S0 & R). destruct (S2 _ _ G0) as (w & a & S3 & G1). rewrite S0 in S3. injection S3 as <- <-.
      eexists _, pts. split; [exact G1|]. split; [split; reflexivity|]. exact R.
    Qed.
    Lemma load_missing z : mentions rows z -> rows_of rows z = [] -> load b p = Err IndexError.
    Proof.
      intros Hz NE. destruct load_eq as (d0 & ND & K & G & ->).
      assert (Hin : exists r, In (det_label z, r) d0 /\ rw_wavelength r = [] /\ rw_response r = []).
      { specialize (G z Hz). rewrite NE in G. apply dget_Some_in in G. eexists. split; [exact G|]. split; reflexivity. }
      assert (All : forall k r, In (k, r) d0 -> exists l, rw_wavelength r = map (fun q => nmul XRN (fst q) (Fin (/ u))) (map (fun q : R * R => (Fin (fst q), Fin (snd q))) l) /\
                       rw_response r = map snd (map (fun q : R * R => (Fin (fst q), Fin (snd q))) l)).
      { intros k r H. pose proof (dget_in_nodup _ _ _ ND H) as Hg. assert (Hk : In k (dkeys d0)) by (apply in_map_iff; exists (k, r); auto).
        apply K in Hk as (z' & Hz' & ->). rewrite (G z' Hz') in Hg. injection Hg as <-. destruct (finite_pairs rows z' Hfin) as (l & El). exists l. cbn. now rewrite El. }
      clear K G ND. destruct Hin as (r0 & Hin & W0 & R0). clear NE.
      induction d0 as [|(k, r) d0 IH]; [destruct Hin|]. cbn [sort_dets].
      destruct (All k r) as (l & L1 & L2); [now left|]. rewrite L1, L2. destruct l as [|q l].
      - cbn [map]. pose proof (sort_data_empty (argsort []) [] (Hsort [])) as E. cbn [map] in E. unfold num in E |- *. cbn [XRN num] in *. rewrite E. reflexivity.
      - destruct (sort_one (q :: l)) as (pts & S & _); [discriminate|]. rewrite S. cbn [bind]. destruct Hin as [Hin|Hin].
        + injection Hin as -> ->. rewrite W0 in L1. discriminate.
        + rewrite IH; auto. intros k1 r1 H1. apply (All k1 r1). now right.
    Qed.
  End File.
End Real.

Lemma nabs_fin x : @nabs XRN (Fin x) = Fin (Rabs x).
Proof.
  unfold nabs, n0. cbn. unfold xlit, Rltb. destruct (Rlt_dec x (0 / 1)).
  - rewrite Rabs_left by lra. reflexivity.
  - rewrite Rabs_right by lra. reflexivity.
Qed.
Lemma close_iff a b : @isclose XRN (Fin a) (Fin b) = true <-> close_to a b.
Proof.
  unfold isclose, close_to. change (nsub XRN (Fin a) (Fin b)) with (Fin (a - b)). rewrite !nabs_fin. cbn. destruct (Reqb a b) eqn:E.
  - apply Reqb_iff in E as ->. split; auto. intros _. rewrite Rminus_diag_eq, Rabs_R0 by auto. pose proof (Rabs_pos b). lra.
  - apply Rleb_iff.
Qed.
Lemma alike_iff_close ws ws' : @alike XRN (map Fin ws) (map Fin ws') <-> Forall2 close_to ws ws'.
Proof.
  unfold alike. split.
  - revert ws'. induction ws as [|a ws IH]; intros [|b ws'] H; inversion H as [|? ? ? ? H1 H2]; subst; constructor; auto. now apply close_iff.
  - induction 1; cbn; constructor; auto. now apply close_iff.
Qed.

(** ** writing succeeds *)
Section Writes.
  Context {N : Num}.
  Variable options : dict cfg.
  Variable exists_ : string -> bool.
  Variable readlines : string -> res (list string).
  Variable py_int : string -> res Z.
  Variable py_float : string -> res N.
  Variable argsort : list N -> list nat.
  Variable f32 : N -> N.
  Lemma modis_writes p : (forall b, In b MODIS_NAMES -> exists d, ModisRSR options exists_ readlines py_int py_float argsort b p = Ok d /\ d <> [] /\
      forall k r, dget k d = Some r -> same_lengths r) ->
    exists h, modis_convert2hdf5 options exists_ readlines py_int py_float argsort f32 p = Ok h.
  Proof.
    intros H. unfold modis_convert2hdf5. rewrite modis_names. destruct (H "20") as (d20 & -> & _); [cbn; tauto|]. cbn [bind].
    match goal with |- context [on_bands ?f _] => destruct (on_bands_total f MODIS_NAMES) as (out & ->) end.
    - intros b Hb. destruct (H b Hb) as (d & L & NE & S). rewrite L. cbn [bind]. unfold modis_band.
      destruct d as [|(k0, r0) d]; [congruence|]. cbn [hd_error of_option bind snd tl].
      pose proof (load_nodup _ _ _ _ _ _ _ _ _ L) as ND.
      match goal with |- context [on_dets ?f _] => destruct (on_dets_total f ((k0, r0) :: d)) as (dets & ->) end.
      + intros k r Hin. specialize (S k r (dget_in_nodup _ _ _ ND Hin)). unfold modis_detector.
        rewrite (proj2 (where_wave_ok _ _ _) (conj eq_refl eq_refl)). cbn [bind]. rewrite (proj2 (where_wave_ok _ _ _) (conj S eq_refl)). cbn [bind].
        destruct (P_Convert.central_total (numbered (rw_wavelength r) (rw_wavelength r)) (numbered (rw_wavelength r) (rw_response r))) as (c & ->); [now apply numbered_length|].
        cbn [bind]. eauto.
      + cbn [bind]. eauto.
    - cbn [bind]. eauto.
  Qed.
End Writes.
