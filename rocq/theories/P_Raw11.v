(** Lemmas about VIIRS files. *)
From Coq Require Import String Ascii List Bool ZArith Lia Reals Lra Sorted.
From Verif Require Import Base NumSig XR M_Tables M_Utils M_World M_Hdf5 M_Raw S_Raw S_Raw2 S_Hdf5 S_Names S_Utils P_Hdf5 P_Hdf52 P_Raw6 P_Raw8 P_Raw9.
From Verif Require P_Convert.
Import ListNotations.
Local Open Scope string_scope.

Lemma leading_iff lines n : header_lines lines = n <-> leading lines n.
Proof.
  assert (H : forall l, String.eqb (substring 0 1 l) "%" = true <-> exists s, l = String "%" s).
  { intros [|c s]; cbn.
    - split; [discriminate|intros (s & H); discriminate].
    - destruct (Ascii.eqb_spec c "%") as [->|Hn].
      + destruct s; cbn; split; eauto.
      + split; [destruct s; discriminate|]. intros (s' & H). congruence. }
  revert n. induction lines as [|l ls IH]; intros n; cbn [header_lines].
  - split; [intros <-; constructor|]. now inversion 1.
  - destruct (String.eqb (substring 0 1 l) "%") eqn:E.
    + apply H in E as (s & ->). split.
      * intros <-. constructor. now apply IH.
      * inversion 1 as [|? ? K|? ? m K]; subst; [now destruct (K s)|]. f_equal. now apply IH.
    + assert (NH : forall s, l <> String "%" s). { intros s ->. rewrite (proj2 (H _)) in E; [discriminate|eauto]. }
      split; [intros <-; now constructor|]. inversion 1 as [|? ? K|s ? m K]; subst; [auto|]. now destruct (NH s).
Qed.

(** ** numpy.unique *)
Section Unique.
  Context {N : Num}.
  Lemma forget {A} (p : N * A) l : map (fun q => (fst q, tt)) (insert_unique p l) = insert_unique (fst p, tt) (map (fun q => (fst q, tt)) l).
  Proof.
    induction l as [|q l IH]; cbn [insert_unique map fst]; [reflexivity|].
    destruct (nisnan N (fst q)); [destruct (nisnan N (fst p)); reflexivity|]. destruct (nltb N (fst p) (fst q)); [reflexivity|].
    destruct (neqb N (fst p) (fst q)); [reflexivity|]. cbn [map fst]. now rewrite IH.
  Qed.
  Lemma unique_fst {A} (l : list (N * A)) : map fst (np_unique l) = unique_waves (map fst l).
  Proof.
    unfold unique_waves, np_unique. assert (G : forall (l acc : list (N * A)), map (fun q => (fst q, tt)) (fold_left (fun acc p => insert_unique p acc) l acc) =
      fold_left (fun acc p => insert_unique p acc) (map (fun x => (x, tt)) (map fst l)) (map (fun q => (fst q, tt)) acc)).
    { clear l. intros l. induction l as [|p l IH]; intros acc; cbn [fold_left map]; [reflexivity|]. rewrite IH. now rewrite forget. }
    specialize (G l []). cbn [map] in G. rewrite <- G, map_map. reflexivity.
  Qed.
End Unique.

Section Reals.
  Local Open Scope R_scope.
  Definition emb (l : list (R * R)) : list (XRN * XRN) := map (fun q => (Fin (fst q), Fin (snd q))) l.
  Fixpoint ins (p : R * R) (l : list (R * R)) : list (R * R) :=
    match l with
    | [] => [p]
    | q :: t => if Rltb (fst p) (fst q) then p :: l else if Reqb (fst p) (fst q) then l else q :: ins p t
    end.
  Lemma ins_emb p l : @insert_unique XRN XRN (Fin (fst p), Fin (snd p)) (emb l) = emb (ins p l).
  Proof.
    induction l as [|q l IH]; [reflexivity|]. unfold emb in *. cbn [insert_unique map fst ins]. cbn [nisnan XRN xisnan nltb neqb xltb xeqb].
    destruct (Rltb (fst p) (fst q)); [reflexivity|]. destruct (Reqb (fst p) (fst q)); [reflexivity|]. cbn [map]. now rewrite IH.
  Qed.
  Lemma ins_in p l : ascending l -> forall q, In q (ins p l) <-> In q l \/ (q = p /\ ~ In (fst p) (map fst l)).
  Proof.
    induction l as [|a l IH]; intros S q; cbn [ins].
    - cbn. split; [intros [->|[]]; auto|intros [[]|(-> & _)]; auto].
    - inversion S as [|? ? S' F]; subst. unfold Rltb, Reqb. destruct (Rlt_dec (fst p) (fst a)) as [Hlt|Hlt]; [|destruct (Req_EM_T (fst p) (fst a)) as [E|E]].
      + assert (NI : ~ In (fst p) (map fst (a :: l))).
        { intros Hin. apply in_map_iff in Hin as (b & Eb & [->|Hb]); [lra|]. rewrite Forall_forall in F. specialize (F b Hb). cbn in F. lra. }
        cbn [In]. split; [intros [H|H]; auto|]. intros [H|(-> & _)]; auto.
      + split; [auto|]. intros [H|(-> & H)]; auto. destruct H. left. auto.
      + cbn [In map]. rewrite IH by auto. split.
        * intros [H|[H|(H1 & H2)]]; auto. right. split; [easy|]. intros [K|K]; [congruence|contradiction].
        * intros [[H|H]|(H1 & H2)]; auto. right. right. split; [easy|]. intros K. apply H2. now right.
  Qed.
  Lemma ins_sorted p l : ascending l -> ascending (ins p l).
  Proof.
    induction l as [|a l IH]; intros S; cbn [ins]; [repeat constructor|].
    inversion S as [|? ? S' F]; subst. unfold Rltb, Reqb. destruct (Rlt_dec (fst p) (fst a)) as [Hlt|Hlt]; [|destruct (Req_EM_T (fst p) (fst a)) as [E|E]]; auto.
    - constructor; auto. constructor; auto. eapply Forall_impl; [|exact F]. cbn. intros b Hb. lra.
    - constructor; [now apply IH|]. apply Forall_forall. intros b Hb. apply ins_in in Hb; auto. destruct Hb as [Hb|(-> & _)].
      + rewrite Forall_forall in F. now apply F.
      + lra.
  Qed.
  Lemma unique_points l : exists pts, @np_unique XRN XRN (emb l) = emb pts /\ distinct_points l pts.
  Proof.
    unfold np_unique.
    assert (G : forall l done acc, distinct_points done acc -> exists pts, fold_left (fun acc p => insert_unique p acc) (emb l) (emb acc) = emb pts /\ distinct_points (done ++ l)%list pts).
    { clear l. intros l. induction l as [|p l IH]; intros done acc D; cbn [emb map fold_left].
      - exists acc. rewrite app_nil_r. auto.
      - fold (emb l). rewrite ins_emb. replace (done ++ p :: l)%list with ((done ++ [p]) ++ l)%list by (now rewrite <- app_assoc). apply IH.
        destruct D as (S & D). split; [now apply ins_sorted|]. intros w r. rewrite ins_in by auto. rewrite D. split.
        + intros [(pre & post & -> & H)|(<- & H)].
          * exists pre, (post ++ [p])%list. split; auto. now rewrite <- app_assoc.
          * exists done, []. split; auto. intros r' Hin. apply H. cbn [fst].
            assert (Q : exists pre r1 post, done = (pre ++ (w, r1) :: post)%list /\ forall r2, ~ In (w, r2) pre).
            { clear -Hin. induction done as [|(w', r1) done IH]; [destruct Hin|]. destruct (Req_EM_T w' w) as [->|Hn].
              - exists [], r1, done. auto.
              - destruct Hin as [Hin|Hin]; [injection Hin; congruence|]. destruct (IH Hin) as (pre & r2 & post & -> & H). exists ((w', r1) :: pre), r2, post.
                split; auto. intros r3 [K|K]; [injection K; congruence|]. now apply (H r3). }
            destruct Q as (pre & r1 & post & Q1 & Q2). apply in_map_iff. exists (w, r1). split; auto. apply D. eauto.
        + intros (pre & post & E & H). destruct post as [|x post'] using rev_ind.
          * apply app_inj_tail in E as (-> & ->). right. split; auto. cbn [fst]. intros Hin. apply in_map_iff in Hin as ((w', r') & <- & Hin). cbn [fst] in *.
            apply D in Hin as (pre' & post & E & _). apply (H r'). rewrite E. apply in_or_app. right. now left.
          * clear IHpost'. left. exists pre, post'. split; auto. rewrite app_comm_cons, app_assoc in E. now apply app_inj_tail in E as (-> & _). }
    destruct (G l [] []) as (pts & E & D); [|exists pts; split; auto].
    split; [constructor|]. intros w r. split; [intros []|]. intros (pre & post & E & _). destruct pre; discriminate.
  Qed.
  Lemma all_equal_sorted (a b : list R) : Sorted Rlt a -> Sorted Rlt b -> a <> [] -> b <> [] -> @all_equal XRN (map Fin a) (map Fin b) = true -> a = b.
  Proof.
    intros Sa Sb Na Nb H. assert (One : forall x (l : list R), Sorted Rlt l -> l <> [] -> Forall (fun y => x = y) l -> l = [x]).
    { intros x [|y [|z l]] S NE F; [congruence| |]; inversion F as [|? ? E F']; subst; auto. inversion F'; subst. inversion S as [|? ? ? K]; subst. inversion K. lra. }
    destruct a as [|x a]; [congruence|]. destruct b as [|y b]; [congruence|]. destruct a as [|x2 a].
    - symmetry. apply One; auto. cbn [map all_equal] in H. apply Forall_forall. intros z Hz. rewrite forallb_forall in H.
      specialize (H (Fin z) (in_map Fin (y :: b) z Hz)). cbn in H. now apply Reqb_iff in H.
    - destruct b as [|y2 b].
      + apply One; auto. cbn [map all_equal] in H. apply Forall_forall. intros z Hz. rewrite forallb_forall in H.
        specialize (H (Fin z) (in_map Fin (x :: x2 :: a) z Hz)). cbn in H. apply Reqb_iff in H. auto.
      + clear -H. change (Nat.eqb (List.length (map Fin (x :: x2 :: a))) (List.length (map Fin (y :: y2 :: b))) && forallb (fun p => neqb XRN (fst p) (snd p)) (combine (map Fin (x :: x2 :: a)) (map Fin (y :: y2 :: b))) = true) in H.
        revert H. generalize (x :: x2 :: a) (y :: y2 :: b). clear. induction l as [|x a IH]; intros [|y b] H; cbn in H; try discriminate; auto.
        apply andb_true_iff in H as (H1 & H2). apply andb_true_iff in H2 as (H2 & H3). apply Reqb_iff in H2 as ->. f_equal. apply IH. apply andb_true_intro. split; [exact H1|exact H3].
  Qed.
End Reals.

Section Viirs.
  Variable f32 : XRN -> XRN.
  Local Open Scope R_scope.

  Definition fins (l : list (R * R)) (i : R * R -> R) : list XRN := map (fun q => Fin (i q)) l.
  Definition raw_of (l : list (R * R)) : raw XRN := {| rw_wavelength := fins l fst; rw_response := fins l snd |}.
  Lemma fins_numbered l i : numbered (fins l fst) (fins l i) = fins l i.
  Proof. unfold numbered, fins. induction l as [|q l IH]; cbn in *; [auto|]. f_equal. exact IH. Qed.
  Lemma fins_combine l : combine (fins l fst) (fins l snd) = emb l.
  Proof. unfold fins, emb. induction l as [|q l IH]; cbn; [auto|]. f_equal. exact IH. Qed.
  Lemma emb_fst l : map fst (emb l) = fins l fst. Proof. unfold emb, fins. now rewrite map_map. Qed.
  Lemma emb_snd l : map snd (emb l) = fins l snd. Proof. unfold emb, fins. now rewrite map_map. Qed.
  Lemma fins_length l i : List.length (fins l i) = List.length l. Proof. apply map_length. Qed.
  Lemma points_sorted pts : ascending pts -> Sorted Rlt (map fst pts).
  Proof.
    intros H. apply StronglySorted_Sorted. induction H as [|a l H IH F]; cbn; constructor; auto. now rewrite Forall_map.
  Qed.
  Lemma distinct_ne l pts : distinct_points l pts -> l <> [] -> pts <> [].
  Proof. intros (_ & D) NE ->. destruct l as [|(w, r) l]; [congruence|]. apply (D w r). exists [], l. auto. Qed.

  Lemma detector_ok constant l : exists pts c, distinct_points l pts /\ central_of (fins pts fst) (fins pts snd) c /\
    unique_waves (rw_wavelength (raw_of l)) = fins pts fst /\
    viirs_detector f32 constant (raw_of l) =
      Ok {| hd_response := Some (map f32 (fins pts snd)); hd_wavelength := if constant then None else Some (micro_wave f32 (fins pts fst)); hd_central := Some c |}.
  Proof.
    destruct (unique_points l) as (pts & E & D).
    destruct (P_Convert.central_total (fins pts fst) (fins pts snd)) as (c & C); [now rewrite !fins_length|].
    exists pts, c. split; auto. split; [exact C|]. split.
    - cbn [raw_of rw_wavelength]. rewrite <- emb_fst, <- (@unique_fst XRN XRN), E. apply emb_fst.
    - unfold viirs_detector. cbn [raw_of rw_wavelength rw_response].
      rewrite (proj2 (where_wave_ok _ _ _) (conj eq_refl eq_refl)). cbn [bind]. rewrite (proj2 (where_wave_ok (fins l fst) (fins l snd) _)) by (split; [now rewrite !fins_length|reflexivity]). cbn [bind].
      rewrite !fins_numbered, fins_combine, E, emb_fst, emb_snd, C. reflexivity.
  Qed.

  Lemma band_ok (ls : nat -> list (R * R)) n : (1 <= n)%nat -> (forall k, (1 <= k <= n)%nat -> ls k <> []) ->
    exists g, viirs_band f32 (map (fun k => (det_name k, raw_of (ls k))) (seq 1 n)) = Ok g /\ hb_count g = Some (Z.of_nat n) /\
      forall k, (1 <= k <= n)%nat -> exists pts c, distinct_points (ls k) pts /\ central_of (fins pts fst) (fins pts snd) c /\
        filled f32 g (det_name k) (map f32 (fins pts snd)) (fins pts fst) c.
  Proof.
    intros Hn NE. destruct n as [|n]; [lia|]. set (d := map _ (seq 1 (S n))).
    assert (KD : dkeys d = map det_name (seq 1 (S n))) by (unfold d, dkeys; rewrite map_map; reflexivity).
    assert (ND : NoDup (dkeys d)) by (rewrite KD; apply det_names_nodup).
    assert (GD : forall k, (1 <= k <= S n)%nat -> dget (det_name k) d = Some (raw_of (ls k))).
    { intros k Hk. apply dget_in_nodup; auto. unfold d. apply in_map_iff. exists k. split; auto. apply in_seq. lia. }
    unfold viirs_band. assert (H0 : d = (det_name 1, raw_of (ls 1%nat)) :: tl d) by reflexivity.
    change (hd_error d) with (Some (det_name 1, raw_of (ls 1%nat))). cbn [hd_error of_option bind snd]. set (constant := forallb _ (tl d)).
    destruct (on_dets_total (viirs_detector f32 constant) d) as (dets & E).
    { intros k r Hin. unfold d in Hin. apply in_map_iff in Hin as (i & [= <- <-] & _). destruct (detector_ok constant (ls i)) as (? & ? & _ & _ & _ & ->). eauto. }
    rewrite E. cbn [bind]. eexists. split; [reflexivity|]. split.
    { cbn [hb_count]. unfold d. now rewrite map_length, seq_length. }
    apply on_dets_spec in E as (_ & E). intros k Hk. destruct (E _ _ (GD k Hk)) as (x & X & G).
    destruct (detector_ok constant (ls k)) as (pts & c & D & C & U & V). rewrite V in X. injection X as <-. exists pts, c. split; auto. split; auto.
    eexists. cbn [hb_dets hb_shared]. split; [exact G|]. cbn [hd_response hd_central hd_wavelength]. split; auto. split; auto.
    destruct constant eqn:CE; auto. right. split; auto. f_equal. f_equal.
    destruct (Nat.eq_dec k 1) as [->|Hk1]; [exact U|].
    destruct (detector_ok true (ls 1%nat)) as (pts1 & c1 & D1 & _ & U1 & _). rewrite U1.
    unfold constant in CE. rewrite forallb_forall in CE. specialize (CE (det_name k, raw_of (ls k))). cbn [snd] in CE.
    assert (Hin : In (det_name k, raw_of (ls k)) (tl d)).
    { pose proof (dget_Some_in _ _ _ (GD k Hk)) as Hin. rewrite H0 in Hin. destruct Hin as [Hin|Hin]; auto.
      exfalso. apply (f_equal fst) in Hin. cbn [fst] in Hin. apply det_name_inj in Hin. lia. }
    specialize (CE Hin). rewrite U1, U in CE. unfold fins in *.
    assert (Q : map fst pts1 = map fst pts).
    { apply all_equal_sorted; [apply points_sorted, D1|apply points_sorted, D| | |rewrite !map_map; exact CE].
      - intros K. apply map_eq_nil in K. revert K. apply (distinct_ne _ _ D1), NE. lia.
      - intros K. apply map_eq_nil in K. revert K. apply (distinct_ne _ _ D), NE. lia. }
    rewrite <- !(map_map fst Fin). now rewrite Q.
  Qed.

  Lemma highest_max rows n : highest_detector rows n -> exists d ds, map snd (table rows) = d :: ds /\ fold_left Z.max ds d = Z.of_nat n.
  Proof.
    intros (Hin & F). assert (E : map snd (table rows) = map snd rows) by (unfold table; now rewrite map_map).
    rewrite E. clear E. destruct rows as [|(q, d) rows]; [destruct Hin|]. exists d, (map snd rows). split; [reflexivity|].
    cbn [map snd] in Hin. inversion F as [|? ? F0 F1]; subst. cbn [snd] in F0. clear F q.
    revert d Hin F0. induction rows as [|(q, e) rows IH]; intros d Hin F0; cbn [map snd fold_left].
    - destruct Hin as [Hin|[]]. auto.
    - inversion F1 as [|? ? F2 F3]; subst. cbn [snd] in F2. apply IH; auto; [|lia].
      destruct Hin as [Hin|[Hin|Hin]].
      + left. lia.
      + cbn [snd] in Hin. left. lia.
      + now right.
  Qed.
  Lemma detectors_ok rows n : highest_detector rows n ->
    @viirs_detectors XRN (table rows) = Ok (map (fun k => (det_name k, raw_of (detector_points rows (Z.of_nat k)))) (seq 1 n)).
  Proof.
    intros H. destruct (highest_max rows n H) as (d & ds & E & M). unfold viirs_detectors. change (fun p : XRN * XRN * Z => snd p) with (@snd (XRN * XRN) Z). rewrite E, M, Nat2Z.id.
    f_equal. apply map_ext. intros k. f_equal. unfold raw_of, detector_points, fins, table. clear.
    induction rows as [|((w, r), z) rows IH]; [reflexivity|]. cbn [map filter fst snd] in *. destruct (Z.eqb z (Z.of_nat k)); [|exact IH].
    cbn [map fst snd]. injection IH as IH1 IH2. f_equal; f_equal; auto.
    unfold milli. cbn. unfold xlit. f_equal. unfold Rdiv. rewrite Rmult_1_l. reflexivity.
  Qed.
End Viirs.

Lemma viirs_names : VIIRS_BAND_NAMES = VIIRS_NAMES.
Proof. reflexivity. Qed.
Lemma viirs_names_nodup : NoDup VIIRS_NAMES.
Proof. unfold VIIRS_NAMES. repeat (constructor; [cbn; intuition discriminate|]). constructor. Qed.

Section Back.
  Variable exists_ : string -> bool.
  Variable readlines : string -> res (list string).
  Variable f32 : XRN -> XRN.
  Variable viirs_rows : string -> nat -> string -> res (list (XRN * XRN * Z)).
  Variable viirs_rows2 : string -> nat -> res (list (XRN * XRN * Z)).
  Variable viirs_file : string -> string -> res string.

  Notation in_file := (in_file exists_ readlines viirs_rows viirs_file).

  Lemma load_viirs p b rows n : In p ["Suomi-NPP"; "NOAA-20"; "NOAA-21"] -> in_file p b rows -> highest_detector rows n ->
    ViirsRSR exists_ readlines viirs_rows viirs_rows2 viirs_file b p = Ok (map (fun k => (det_name k, raw_of (detector_points rows (Z.of_nat k)))) (seq 1 n)).
  Proof.
    intros Hp (f & lines & m & H1 & H2 & H3 & H4 & H5) Hn. unfold ViirsRSR. rewrite H1. cbn [bind]. rewrite H2, H3. cbn [bind].
    apply leading_iff in H4 as ->. unfold viirs_data.
    assert (E : existsb_str p ["Suomi-NPP"; "NOAA-20"; "NOAA-21"] = true). { unfold existsb_str. apply existsb_exists. exists p. split; auto. apply String.eqb_refl. }
    rewrite E. cbn [negb]. rewrite H5. cbn [bind]. now apply detectors_ok.
  Qed.
  Lemma viirs_back p (rows : string -> list (R * R * Z)) : In p ["Suomi-NPP"; "NOAA-20"; "NOAA-21"] ->
    (forall b, In b VIIRS_NAMES -> in_file p b (rows b) /\ every_detector (rows b)) ->
    exists h i, create_viirs_rsr exists_ readlines f32 viirs_rows viirs_rows2 viirs_file p = Ok h /\ read_rsr h = Ok i /\ ri_bands i = VIIRS_NAMES /\
      oscar_opt (Some p) (ri_platform i) /\ ri_instrument i = Some (IOne "viirs") /\ dkeys (ri_rsr i) = VIIRS_NAMES /\
      forall b, In b VIIRS_NAMES -> exists y n, dget b (ri_rsr i) = Some y /\ highest_detector (rows b) n /\ dkeys y = map det_name (seq 1 n) /\
        forall k, (1 <= k <= n)%nat -> exists pts c, distinct_points (detector_points (rows b) (Z.of_nat k)) pts /\
          central_of (map (fun q => Fin (fst q)) pts : list XRN) (map (fun q => Fin (snd q)) pts : list XRN) c /\
          dget (det_name k) y = Some [("response", VArr (map f32 (map (fun q => Fin (snd q)) pts))); ("wavelength", VArr (stored f32 (map (fun q => Fin (fst q)) pts)));
                                      ("central_wavelength", VNum c)].
  Proof.
    intros Hp H.
    assert (B : forall b, In b VIIRS_NAMES -> exists n d g, highest_detector (rows b) n /\ ViirsRSR exists_ readlines viirs_rows viirs_rows2 viirs_file b p = Ok d /\
      viirs_band f32 d = Ok g /\ hb_count g = Some (Z.of_nat n) /\
      forall k, (1 <= k <= n)%nat -> exists pts c, distinct_points (detector_points (rows b) (Z.of_nat k)) pts /\ central_of (fins pts fst) (fins pts snd) c /\
        filled f32 g (det_name k) (map f32 (fins pts snd)) (fins pts fst) c).
    { intros b Hb. destruct (H b Hb) as (F & n & Hn & H1 & HE). eexists n, _.
      destruct (band_ok f32 (fun k => detector_points (rows b) (Z.of_nat k)) n H1) as (g & G & C & K).
      { intros k Hk. unfold detector_points. intros E. apply map_eq_nil in E. specialize (HE k Hk). apply in_map_iff in HE as (q & Eq & Hq).
        assert (I : In q (filter (fun q => Z.eqb (snd q) (Z.of_nat k)) (rows b))) by (apply filter_In; split; auto; apply Z.eqb_eq; auto). rewrite E in I. destruct I. }
      exists g. split; [exact Hn|]. split; [exact (load_viirs p b (rows b) n Hp F Hn)|]. auto. }
    unfold create_viirs_rsr. destruct (B "M1") as (n1 & d1 & g1 & _ & -> & _); [cbn; tauto|]. cbn [bind]. rewrite viirs_names.
    match goal with |- context [on_bands ?f _] => destruct (on_bands_total f VIIRS_NAMES) as (bands & E) end.
    { intros b Hb. destruct (B b Hb) as (n & d & g & _ & -> & G & _). cbn [bind]. eauto. }
    rewrite E. cbn [bind]. apply on_bands_spec in E as (_ & E).
    assert (EG : forall b, In b VIIRS_NAMES -> exists n g, highest_detector (rows b) n /\ dget b bands = Some g /\ hb_count g = Some (Z.of_nat n) /\
      forall k, (1 <= k <= n)%nat -> exists pts c, distinct_points (detector_points (rows b) (Z.of_nat k)) pts /\ central_of (fins pts fst) (fins pts snd) c /\
        filled f32 g (det_name k) (map f32 (fins pts snd)) (fins pts fst) c).
    { intros b Hb. destruct (B b Hb) as (n & d & g & Hn & L & G & R). destruct (E b Hb) as (g' & G' & D). rewrite L in G'. cbn [bind] in G'. rewrite G in G'. injection G' as <-. eauto 8. }
    match goal with |- context [Ok ?h = Ok _] => destruct (reads_back h VIIRS_NAMES "Relative Spectral Responses for VIIRS" p (Some "viirs") eq_refl eq_refl eq_refl eq_refl viirs_names_nodup)
       as (i & R & I1 & I2 & _ & I3 & I4 & I5) end.
    { cbn [h_bands]. intros b Hb. destruct (EG b Hb) as (n & g & _ & D & C & F). exists g. split; auto. eapply filled_complete; [exact C|].
      intros k Hk. destruct (F k Hk) as (pts & c & _ & _ & Fi). eauto. }
    eexists _, i. split; [reflexivity|]. split; [exact R|]. split; auto. split; auto. split; [now apply I3|]. split; auto.
    cbn [h_bands] in I5. intros b Hb. destruct (EG b Hb) as (n & g & Hn & D & C & F). destruct (I5 b Hb) as (g' & y & D' & Y & BD). rewrite D in D'. injection D' as <-.
    destruct (filled_data f32 g n y C BD) as (K & Q). exists y, n. split; auto. split; auto. split; auto.
    intros k Hk. destruct (F k Hk) as (pts & c & P1 & P2 & P3). exists pts, c. split; [exact P1|]. split; [exact P2|]. now apply Q.
  Qed.
End Back.

Lemma other_format (N : Num) there readlines viirs_rows (viirs_rows2 : string -> nat -> res (list (N * N * Z))) viirs_file p b f lines n :
  viirs_file p b = Ok f -> there f = true -> readlines f = Ok lines -> leading lines n -> viirs_rows f n p = Err ValueError ->
  (p = "Suomi-NPP" -> forall rows, viirs_rows2 f n = Ok rows -> ViirsRSR there readlines viirs_rows viirs_rows2 viirs_file b p = viirs_detectors rows) /\
  (p = "NOAA-20" -> ViirsRSR there readlines viirs_rows viirs_rows2 viirs_file b p = Err ValueError) /\
  (p = "NOAA-21" -> ViirsRSR there readlines viirs_rows viirs_rows2 viirs_file b p = Err KeyError).
Proof.
  intros H1 H2 H3 H4 H5. unfold ViirsRSR, viirs_data. rewrite H1. cbn [bind]. rewrite H2, H3. cbn [bind]. apply leading_iff in H4 as ->. rewrite H5.
  split; [|split].
  - intros -> rows R. cbn [existsb_str existsb String.eqb Ascii.eqb Bool.eqb orb negb]. rewrite R. reflexivity.
  - intros ->. reflexivity.
  - intros ->. reflexivity.
Qed.
