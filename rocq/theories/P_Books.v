(** Lemmas about the readers of NetCDF files and work books (M_Books). *)
From Coq Require Import String Ascii List Bool ZArith Lia Reals Lra Sorted.
From Verif Require Import Base NumSig XR M_Tables M_Utils M_World M_Hdf5 M_Raw M_Books S_Raw S_Raw2 S_Hdf5 S_Names S_Utils S_Books P_Hdf5 P_Hdf52 P_Raw P_Raw6 P_Raw8 P_Raw9 P_Raw11.
Import ListNotations.
Local Open Scope string_scope.

Ltac bstep H := match type of H with
  | bind ?e _ = Ok _ => let E := fresh "E" in destruct e eqn:E; cbn [bind] in H; [|discriminate H]
  end.

Lemma of_opt {A} e (o : option A) a : of_option e o = Ok a -> o = Some a.
Proof. destruct o; cbn; [now intros [= ->]|discriminate]. Qed.
Lemma idx_ok {A} (l : list A) i a : idx l i = Ok a -> nth_error l i = Some a.
Proof. unfold idx. apply of_opt. Qed.
Lemma mapM_Forall2 {A B} (f : A -> res B) l : forall r, mapM f l = Ok r -> Forall2 (fun a b => f a = Ok b) l r.
Proof.
  induction l as [|a l IH]; cbn [mapM]; intros r H; [injection H as <-; constructor|].
  bstep H. bstep H. injection H as <-. constructor; auto.
Qed.
Lemma Forall2_weaken {A B} (P Q : A -> B -> Prop) l r : (forall a b, In a l -> P a b -> Q a b) -> Forall2 P l r -> Forall2 Q l r.
Proof. intros H F. induction F as [|a b l r Ha F IH]; constructor; [apply H; [now left|exact Ha]|]. apply IH. intros ? ? Hi. apply H. now right. Qed.
Lemma nc_column_ok {N : Num} (v : nc_var N) i l : nc_column v i = Ok l -> exists rows, v = NV2 rows /\ column_of rows i l.
Proof.
  destruct v as [?|rows|?]; cbn [nc_column]; try discriminate. intros H. exists rows. split; auto. apply mapM_Forall2 in H.
  revert H. apply Forall2_weaken. intros a b _. apply idx_ok.
Qed.
Lemma entry_of options p i m key v : dget (p ++ "-" ++ i) options = Some (CMap m) -> dget key m = Some (Leaf (LStr v)) -> entry options p i key v.
Proof. intros A B. exists m. auto. Qed.

  Local Open Scope num_scope.

  Lemma fci_select_ok {N : Num} b (wvl resp : nc_var N) (scale : N) : forall names i (acc o : option (raw N)), fci_select b names i wvl resp scale acc = Ok o ->
    (~ In b names /\ o = acc) \/
    exists j wr yr w y, last_at names b j /\ wvl = NV2 wr /\ resp = NV2 yr /\ column_of wr (i + j) w /\ column_of yr (i + j) y /\
      o = Some {| rw_wavelength := map (fun x => x * scale) w; rw_response := y |}.
  Proof.
    induction names as [|n names IH]; cbn [fci_select]; intros i acc o H; [injection H as <-; left; split; [tauto|reflexivity]|].
    destruct (String.eqb_spec n b) as [->|Hn].
    - bstep H. bstep H. apply nc_column_ok in E as (wr & -> & E). apply nc_column_ok in E0 as (yr & -> & E0).
      right. destruct (IH _ _ _ H) as [[NI ->]|(j & wr' & yr' & w & y & L & [= <-] & [= <-] & C1 & C2 & ->)].
      + exists 0%nat. rewrite Nat.add_0_r. exists wr, yr, a, a0. split; [|auto 6]. split; [reflexivity|].
        intros [|j] Hj; [lia|]. cbn [nth_error]. intros K. apply NI. eapply nth_error_In, K.
      + exists (S j), wr, yr, w, y. rewrite Nat.add_succ_r. split; [|auto 6]. destruct L as [L1 L2]. split; [exact L1|].
        intros [|k] Hk; [lia|]. cbn [nth_error]. apply L2. lia.
    - destruct (IH _ _ _ H) as [[NI ->]|(j & wr' & yr' & w & y & L & Ew & Ey & C1 & C2 & ->)].
      + left. split; auto. intros [K|K]; [congruence|auto].
      + right. exists (S j), wr', yr', w, y. rewrite Nat.add_succ_r. split; [|auto 6]. destruct L as [L1 L2]. split; [exact L1|].
        intros [|k] Hk; [lia|]. cbn [nth_error]. apply L2. lia.
  Qed.

  Lemma fci_ok {N : Num} (options : dict cfg) (dataset : string -> res (nc_file N)) b p o : FciRSR options dataset b p = Ok o ->
    exists path f nc names, entry options p "fci" "path" path /\ entry options p "fci" "filename" f /\ dataset (path ++ "/" ++ f) = Ok nc /\
      dget "channel_id" (nc_variables nc) = Some (NVText names) /\ (ir_rsr o = None <-> ~ In b names) /\
      forall r, ir_rsr o = Some r -> exists i wr yr w, last_at names b i /\ dget "wavelength" (nc_variables nc) = Some (NV2 wr) /\
        dget "srf" (nc_variables nc) = Some (NV2 yr) /\ column_of wr i w /\ column_of yr i (rw_response r) /\
        rw_wavelength r = map (fun x => x * nlit N 1000000 1) w.
  Proof.
    unfold FciRSR. intros H. bstep H. destruct a as [[out m] path]. apply options_inv in E as [E1 E2].
    destruct (dget "filename" m) as [[[f| | | |]|]|] eqn:Ef; cbn [bind] in H; try discriminate H. bstep H. bstep H. bstep H. bstep H. bstep H. bstep H.
    apply of_opt in E0, E3, E4. injection H as <-. cbn [ir_rsr].
    destruct a2 as [|?|names]; cbn [nc_text] in E5; try discriminate. injection E5 as ->.
    exists path, f, a, a3. split; [now apply (entry_of _ _ _ m)|]. split; [now apply (entry_of _ _ _ m)|]. split; [exact E|]. split; [exact E4|].
    apply fci_select_ok in E6. cbn [plus] in E6. split.
    - destruct E6 as [[NI ->]|(j & wr & yr & w & y & [L _] & _ & _ & _ & _ & ->)]; [tauto|]. split; [discriminate|]. intros K. exfalso. apply K. eapply nth_error_In, L.
    - intros r ->. destruct E6 as [[NI K]|(j & wr & yr & w & y & L & -> & -> & C1 & C2 & [= ->])]; [discriminate|].
      exists j, wr, yr, w. cbn [rw_response rw_wavelength]. auto 7.
  Qed.

  Lemma path_ok {N : Num} (options : dict cfg) (ex : string -> bool) strict i p (ld : string -> res (raw N)) o : path_rsr options ex strict i p ld = Ok o ->
    exists path, entry options p i "path" path /\ ir_instrument o = i /\
      ((ex path = true /\ exists r, ld path = Ok r /\ ir_rsr o = Some r) \/ (ex path = false /\ strict = false /\ ir_rsr o = None)).
  Proof.
    unfold path_rsr. intros H. bstep H. destruct a as [[out m] path]. apply options_inv in E as [E1 E2]. exists path. split; [now apply (entry_of _ _ _ m)|].
    destruct (ex path).
    - bstep H. injection H as <-. cbn. split; auto. left. split; auto. eauto.
    - destruct strict; [discriminate|]. injection H as <-. cbn. auto.
  Qed.
  Lemma path_missing {N : Num} (options : dict cfg) (ex : string -> bool) i p path (ld : string -> res (raw N)) : entry options p i "path" path -> ex path = false -> path_rsr options ex true i p ld = Err OSError.
  Proof. intros (m & A & B) F. unfold path_rsr, get_options_from_config. rewrite A. cbn [of_option bind]. rewrite B. cbn [of_option bind]. now rewrite F. Qed.

  Lemma index_of_ok b l i : index_of b l = Some i -> nth_error l i = Some b.
  Proof.
    revert i. induction l as [|x l IH]; cbn [index_of]; intros i; [discriminate|]. destruct (String.eqb_spec b x) as [->|].
    - intros [= <-]. reflexivity.
    - destruct (index_of b l) as [j|]; cbn [option_map]; [|discriminate]. intros [= <-]. cbn [nth_error]. now apply IH.
  Qed.
  Lemma olci_ok {N : Num} (options : dict cfg) (ex : string -> bool) (dataset : string -> res (nc_file N)) b p o : OlciRSR options ex dataset b p = Ok o ->
    exists path nc i yr wr w r, entry options p "olci" "path" path /\ ex path = true /\ dataset path = Ok nc /\
      nth_error OLCI_NAMES i = Some b /\ dget "mean_spectral_response_function" (nc_variables nc) = Some (NV2 yr) /\
      dget "mean_spectral_response_function_wavelength" (nc_variables nc) = Some (NV2 wr) /\
      nth_error yr i = Some (rw_response r) /\ nth_error wr i = Some w /\ ir_rsr o = Some r /\ rw_wavelength r = map (fun x => x * nlit N 1 1000) w.
  Proof.
    intros H. apply path_ok in H as (path & En & _ & [(X & r & L & Er)|(_ & ? & _)]); [|discriminate].
    unfold load_olci in L. bstep L. bstep L. bstep L. bstep L. bstep L. bstep L. injection L as <-.
    apply of_opt in E0, E1, E3. apply index_of_ok in E0.
    destruct a1 as [?|yr|?]; cbn [nc_row] in E2; try discriminate. destruct a3 as [?|wr|?]; cbn [nc_row] in E4; try discriminate.
    apply idx_ok in E2, E4. exists path, a, a0, yr, wr, a4, {| rw_wavelength := map (fun x => x * nlit N 1 1000) a4; rw_response := a2 |}. cbn [rw_response rw_wavelength].
    split; [exact En|]. split; [exact X|]. split; [exact E|]. split; [exact E0|]. auto 8.
  Qed.
  Lemma slstr_ok {N : Num} (options : dict cfg) (ex : string -> bool) (dataset : string -> res (nc_file N)) b p o : SlstrRSR options ex dataset b p = Ok o ->
    exists file nc w r, configured options p "slstr" b file /\ ex file = true /\ dataset file = Ok nc /\
      dget "wavelength" (nc_variables nc) = Some (NV1 w) /\ dget "response" (nc_variables nc) = Some (NV1 (rw_response r)) /\
      ir_rsr o = Some r /\ rw_wavelength r = map (fun x => x * nlit N 1 1) w.
  Proof.
    unfold SlstrRSR. intros H. destruct (text_inv _ _ _ _ _ _ _ _ _ H) as (out & f & P). rewrite (text_eq _ _ _ _ _ _ _ _ _ _ P) in H.
    apply parts_configured in P as (P & _). exists f. destruct (ex f); [|discriminate]. bstep H. injection H as <-. cbn [ir_rsr].
    unfold load_slstr in E. bstep E. bstep E. bstep E. bstep E. bstep E. injection E as <-. apply of_opt in E1, E3.
    destruct a1 as [wl| |]; try discriminate E2. destruct a3 as [yl| |]; try discriminate E4. injection E2 as E2. injection E4 as E4. subst.
    eexists a0, _, _. split; [exact P|]. split; [reflexivity|]. split; [reflexivity|]. split; [exact E1|]. split; [|split; reflexivity]. exact E3.
  Qed.

(** ** METimage *)
Lemma max_from (t : list XRN) x : exists m, fold_left (fun m y => if nltb XRN m y then y else m) t x = m /\ In m (x :: t) /\
  forall x' t', x = Fin x' -> t = reals t' -> exists v, m = Fin v /\ forall z, In z (x' :: t') -> (z <= v)%R.
Proof.
  revert x. induction t as [|y t IH]; intros x; cbn [fold_left].
  - exists x. split; auto. split; [now left|]. intros x' t' -> E. destruct t'; [|discriminate]. exists x'. split; auto. intros z [->|[]]. lra.
  - destruct (IH (if nltb XRN x y then y else x)) as (m & F & I & B). exists m. split; auto. split.
    + destruct I as [<-|I]; [|now right; right]. destruct (nltb XRN x y); [right; left|left]; reflexivity.
    + intros x' t' -> E. destruct t' as [|y' t']; [discriminate|]. cbn [reals map] in E. injection E as -> ->.
      destruct (B (if Rlt_dec x' y' then y' else x') t') as (v & -> & V); [|reflexivity|].
      { cbn [nltb XRN xltb]. unfold Rltb. destruct (Rlt_dec x' y'); reflexivity. }
      exists v. split; auto. intros z Hz. cbn [In] in Hz. destruct (Rlt_dec x' y') as [L|L].
      * destruct Hz as [<-|[<-|Hz]]; [|apply V; now left|apply V; now right]. pose proof (V y' (or_introl eq_refl)). lra.
      * destruct Hz as [<-|[<-|Hz]]; [apply V; now left| |apply V; now right]. pose proof (V x' (or_introl eq_refl)). lra.
Qed.
Lemma maximum_ok l m : @maximum XRN l = Ok m -> peak l m.
Proof.
  destruct l as [|x t]; cbn [maximum]; [discriminate|]. intros [= E]. destruct (max_from t x) as (m' & F & I & B).
  assert (Q : m' = m) by (rewrite <- F; exact E). clear E F. subst m'. split; [exact I|]. intros [|x' t'] H; [discriminate|]. cbn [reals map] in H. injection H as -> ->. apply (B x' t' eq_refl eq_refl).
Qed.
Lemma normalised_ok l r : @normalised XRN l = Ok r -> exists m, peak l m /\ r = map (fun x => ndiv XRN x m) l.
Proof. unfold normalised. intros H. bstep H. injection H as <-. exists a. split; [|reflexivity]. now apply maximum_ok. Qed.

Lemma metimage_table : map (fun q => fst (fst q)) METIMAGE = METIMAGE_BAND_NAMES.
Proof. reflexivity. Qed.
Lemma metimage_entry b name : dget b METIMAGE_BAND_NAMES_DICT = Some name -> exists d z, In (b, d, z) METIMAGE /\ after_last "_" name = d /\ isrf_name name = "ISRF_cw_" ++ d.
Proof.
  intros H. apply dget_Some_in in H. vm_compute in H.
  repeat (destruct H as [H|H]; [injection H as <- <-; eexists _, _; split; [cbn [METIMAGE In]; repeat (first [left; reflexivity|right])|vm_compute; split; reflexivity]|]). destruct H.
Qed.
Lemma group_ok z : metimage_group z (if (6000 <? z)%Z then "LVWIR" else if (1000 <? z)%Z then "SMWIR" else "VISNIR").
Proof. destruct (Z.ltb_spec 6000 z); [now constructor|]. destruct (Z.ltb_spec 1000 z); constructor; lia. Qed.
Lemma metimage_ok options ex py_int dataset b p o : reads_digits py_int -> @MetImageRSR XRN options ex py_int dataset b p = Ok o ->
  exists path, entry options p "metimage" "path" path /\ (ir_rsr o = None <-> ex path = false) /\
    forall r, ir_rsr o = Some r -> exists d z g nc vars rows w y m, In (b, d, z) METIMAGE /\ metimage_group z g /\ dataset path = Ok nc /\
      dget g (nc_groups nc) = Some vars /\ dget ("ISRF_cw_" ++ d) vars = Some (NV2 rows) /\ column_of rows 0 w /\ column_of rows 1 y /\
      peak y m /\ rw_wavelength r = map (fun x => nmul XRN x (nlit XRN 1 1)) w /\ rw_response r = map (fun x => ndiv XRN x m) y.
Proof.
  intros RD H. apply path_ok in H as (path & En & _ & H). exists path. split; [exact En|].
  destruct H as [(X & r & L & Er)|(X & _ & Er)]; [|split; [rewrite Er, X; tauto|rewrite Er; discriminate]].
  split; [rewrite Er, X; split; discriminate|]. intros r' Er'. rewrite Er in Er'. injection Er' as <-.
  bstep L. apply of_opt in E. apply metimage_entry in E as (d & z & I & D & Q). unfold get_groupname_from_bandname in L. rewrite D, (RD _ _ _ I), Q in L. cbn [bind] in L.
  unfold load_metimage in L. bstep L. bstep L. bstep L. bstep L. bstep L. bstep L. injection L as <-. apply of_opt in E0, E1.
  apply nc_column_ok in E2 as (rows & -> & C1). apply nc_column_ok in E3 as (rows' & [= <-] & C2). apply normalised_ok in E4 as (m & P & ->).
  exists d, z, (if (6000 <? z)%Z then "LVWIR" else if (1000 <? z)%Z then "SMWIR" else "VISNIR"), a0, a1, rows, a3, a4, m. cbn [rw_wavelength rw_response].
  split; [exact I|]. split; [apply group_ok|]. auto 10.
Qed.

Lemma index_METIMAGE b : In b METIMAGE_BAND_NAMES -> exists d z, In (b, d, z) METIMAGE.
Proof. rewrite <- metimage_table. intros H. apply in_map_iff in H as (((b', d) & z) & E & H). cbn in E. subst. eauto. Qed.
Lemma metimage_nodup : NoDup (map (fun q => fst (fst q)) METIMAGE).
Proof. cbn [map fst METIMAGE]. repeat (constructor; [cbn; intuition discriminate|]). constructor. Qed.
Lemma metimage_name b d z : In (b, d, z) METIMAGE -> exists name, dget b METIMAGE_BAND_NAMES_DICT = Some name /\ after_last "_" name = d /\ isrf_name name = "ISRF_cw_" ++ d.
Proof.
  intros H. cbn [METIMAGE In] in H. repeat (destruct H as [H|H]; [injection H as <- <- <-; eexists; split; [vm_compute; reflexivity|vm_compute; split; reflexivity]|]). destruct H.
Qed.
Lemma metimage_group_fun z g : metimage_group z g -> g = (if (6000 <? z)%Z then "LVWIR" else if (1000 <? z)%Z then "SMWIR" else "VISNIR").
Proof. intros []; destruct (Z.ltb_spec 6000 z); destruct (Z.ltb_spec 1000 z); auto; lia. Qed.
Lemma mapM_map {A B C} (f : B -> res C) (g : A -> B) (h : A -> C) l : (forall a, f (g a) = Ok (h a)) -> mapM f (map g l) = Ok (map h l).
Proof. intros H. induction l as [|a l IH]; cbn [map mapM]; [reflexivity|]. rewrite H. cbn [bind]. rewrite IH. reflexivity. Qed.
Lemma reals_column (l : list (R * R)) : @nc_column XRN (NV2 (two_columns l)) 0 = Ok (fins l fst) /\ @nc_column XRN (NV2 (two_columns l)) 1 = Ok (fins l snd).
Proof. cbn [nc_column]. unfold two_columns, fins. split; apply mapM_map; reflexivity. Qed.
Lemma maximum_total l : l <> [] -> exists q, In q l /\ @maximum XRN (fins l snd) = Ok (Fin (snd q)) /\ forall x, In x l -> (snd x <= snd q)%R.
Proof.
  intros NE. destruct (@maximum XRN (fins l snd)) as [m|] eqn:E; [|destruct l; [congruence|discriminate E]].
  destruct (maximum_ok _ _ E) as [_ P]. destruct (P (map snd l)) as (v & -> & V). { unfold fins, reals. now rewrite map_map. }
  destruct (maximum_ok _ _ E) as [I _]. apply in_map_iff in I as (q & [= <-] & Hq). exists q. split; auto. split; auto. intros x Hx. apply V. now apply in_map.
Qed.
Lemma metimage_load dataset path nc b d z g vars l : In (b, d, z) METIMAGE -> metimage_group z g -> dataset path = Ok nc -> dget g (nc_groups nc) = Some vars ->
  dget ("ISRF_cw_" ++ d) vars = Some (NV2 (two_columns l)) -> (exists q, In q l /\ (0 < snd q)%R) ->
  exists q, In q l /\ (forall x, In x l -> (snd x <= snd q)%R) /\
    @load_metimage XRN dataset g ("ISRF_cw_" ++ d) path = Ok (raw_of (map (fun x => (fst x, snd x / snd q)%R) l)).
Proof.
  intros I G D V W (q0 & Iq & Pq). destruct (maximum_total l) as (q & Hq & M & B). { intros ->. destruct Iq. }
  exists q. split; auto. split; auto. unfold load_metimage. rewrite D. cbn [bind]. rewrite V. cbn [of_option bind]. rewrite W. cbn [of_option bind].
  destruct (reals_column l) as [-> ->]. cbn [bind]. unfold normalised. rewrite M. cbn [bind]. f_equal. unfold raw_of, fins. rewrite !map_map. f_equal.
  - apply map_ext. intros x. cbn [nmul XRN xmul nlit xlit fst]. f_equal. lra.
  - apply map_ext. intros x. cbn [ndiv XRN xdiv snd]. pose proof (B _ Iq). apply xdiv_fin. lra.
Qed.
Lemma metimage_back options ex py_int f32 dataset p path nc (curve : string -> list (R * R)) :
  entry options p "metimage" "path" path -> ex path = true -> dataset path = Ok nc -> reads_digits py_int ->
  (forall b d z, In (b, d, z) METIMAGE -> (exists g vars, metimage_group z g /\ dget g (nc_groups nc) = Some vars /\
     dget ("ISRF_cw_" ++ d) vars = Some (NV2 (two_columns (curve b)))) /\ exists q, In q (curve b) /\ (0 < snd q)%R) ->
  exists h i, @generate_metimage_file XRN options ex py_int f32 dataset p = Ok h /\ read_rsr h = Ok i /\
    ri_bands i = map (fun q => fst (fst q)) METIMAGE /\ oscar_opt (Some p) (ri_platform i) /\ dkeys (ri_rsr i) = ri_bands i /\
    forall b d z, In (b, d, z) METIMAGE -> exists m pts c, (exists q, In q (curve b) /\ snd q = m) /\ (forall x, In x (curve b) -> (snd x <= m)%R) /\
      distinct_points (map (fun x => (fst x, snd x / m)%R) (curve b)) pts /\ central_of (firsts pts) (seconds pts) c /\
      dget b (ri_rsr i) = Some [("det-1", [("response", VArr (map f32 (seconds pts))); ("wavelength", VArr (stored f32 (firsts pts))); ("central_wavelength", VNum c)])].
Proof.
  intros (ms & En1 & En2) X D RD H.
  assert (L : forall b d z, In (b, d, z) METIMAGE -> exists o q, @MetImageRSR XRN options ex py_int dataset b p = Ok o /\ In q (curve b) /\
    (forall x, In x (curve b) -> (snd x <= snd q)%R) /\ ir_rsr o = Some (raw_of (map (fun x => (fst x, snd x / snd q)%R) (curve b)))).
  { intros b d z I. destruct (H b d z I) as ((g & vars & G & V & W) & P). destruct (metimage_load dataset path nc b d z g vars _ I G D V W P) as (q & Iq & B & E).
    destruct (metimage_name b d z I) as (name & N1 & N2 & N3). eexists _, q. split; [|split; [exact Iq|split; [exact B|]]].
    - unfold MetImageRSR, path_rsr, get_options_from_config. rewrite En1. cbn [of_option bind]. rewrite En2. cbn [of_option bind]. rewrite X, N1. cbn [of_option bind].
      unfold get_groupname_from_bandname. rewrite N2, (RD _ _ _ I), N3. cbn [bind]. rewrite <- (metimage_group_fun z g G), E. cbn [bind]. reflexivity.
    - reflexivity. }
  unfold generate_metimage_file. change (hd_error METIMAGE_BAND_NAMES) with (Some "vii-4"). cbn [of_option bind].
  destruct (L "vii-4" "443" 443%Z) as (o0 & q0 & -> & _); [now left|]. cbn [bind].
  assert (B : forall b d z, In (b, d, z) METIMAGE -> exists o q g, @MetImageRSR XRN options ex py_int dataset b p = Ok o /\ In q (curve b) /\
    (forall x, In x (curve b) -> (snd x <= snd q)%R) /\ metimage_dets o = Ok [("det-1", raw_of (map (fun x => (fst x, snd x / snd q)%R) (curve b)))] /\
    viirs_band f32 [("det-1", raw_of (map (fun x => (fst x, snd x / snd q)%R) (curve b)))] = Ok g /\ hb_count g = Some 1%Z /\
    exists pts c, distinct_points (map (fun x => (fst x, snd x / snd q)%R) (curve b)) pts /\ central_of (firsts pts) (seconds pts) c /\
      filled f32 g "det-1" (map f32 (seconds pts)) (firsts pts) c).
  { intros b d z I. destruct (L b d z I) as (o & q & E1 & Iq & Bq & E2).
    destruct (band_ok f32 (fun _ => map (fun x => (fst x, snd x / snd q)%R) (curve b)) 1 (le_n 1)) as (g & G & C & K).
    { intros _ _ E. apply map_eq_nil in E. rewrite E in Iq. destruct Iq. }
    exists o, q, g. split; [exact E1|]. split; [exact Iq|]. split; [exact Bq|]. split; [unfold metimage_dets; now rewrite E2|].
    split; [exact G|]. split; [exact C|]. destruct (K 1%nat) as (pts & c & K1 & K2 & K3); [lia|]. exists pts, c. auto. }
  match goal with |- context [on_bands ?f _] => destruct (on_bands_total f METIMAGE_BAND_NAMES) as (bands & E) end.
  { intros b Hb. destruct (index_METIMAGE b Hb) as (d & z & I). destruct (B b d z I) as (o & q & g & -> & _ & _ & D1 & D2 & _). cbn [bind]. rewrite D1. cbn [bind]. eauto. }
  rewrite E. cbn [bind]. apply on_bands_spec in E as (_ & E).
  assert (EG : forall b d z, In (b, d, z) METIMAGE -> exists q g, dget b bands = Some g /\ In q (curve b) /\ (forall x, In x (curve b) -> (snd x <= snd q)%R) /\
    hb_count g = Some 1%Z /\ exists pts c, distinct_points (map (fun x => (fst x, snd x / snd q)%R) (curve b)) pts /\ central_of (firsts pts) (seconds pts) c /\
      filled f32 g "det-1" (map f32 (seconds pts)) (firsts pts) c).
  { intros b d z I. destruct (B b d z I) as (o & q & g & L1 & Iq & Bq & D1 & D2 & C & F). destruct (E b) as (g' & G' & D').
    { rewrite <- metimage_table. apply in_map_iff. exists (b, d, z). auto. }
    rewrite L1 in G'. cbn [bind] in G'. rewrite D1 in G'. cbn [bind] in G'. rewrite D2 in G'. injection G' as <-. exists q, g. auto. }
  match goal with |- context [Ok ?h = Ok _] => destruct (reads_back h METIMAGE_BAND_NAMES "Relative Spectral Responses for METIMAGE" p None eq_refl eq_refl eq_refl eq_refl metimage_nodup)
     as (i & R & I1 & I2 & _ & I3 & I4 & I5) end.
  { cbn [h_bands]. intros b Hb. destruct (index_METIMAGE b Hb) as (d & z & I). destruct (EG b d z I) as (q & g & Dg & _ & _ & C & pts & c & _ & _ & F). exists g. split; auto.
    apply (filled_complete f32 g 1 C). intros k Hk. assert (k = 1%nat) as -> by lia. eauto. }
  eexists _, i. split; [reflexivity|]. split; [exact R|]. split; [exact I1|]. split; auto. split; [rewrite I1; exact I4|].
  cbn [h_bands] in I5. intros b d z I. destruct (EG b d z I) as (q & g & Dg & Iq & Bq & C & pts & c & P1 & P2 & F).
  destruct (I5 b) as (g' & y & D' & Y & BD). { rewrite <- metimage_table. apply in_map_iff. exists (b, d, z). auto. }
  rewrite Dg in D'. injection D' as <-. destruct (filled_data f32 g 1 y C BD) as (K & Q). exists (snd q), pts, c. split; [eauto|]. split; auto. split; auto. split; auto.
  specialize (Q 1%nat _ _ _ (conj (le_n 1) (le_n 1)) F). rewrite Y. f_equal. clear - K Q. destruct y as [|(k, v) [|? ?]]; try discriminate K.
  cbn [dkeys map seq] in K. injection K as ->. change (det_name 1) with "det-1" in Q. cbn [dget] in Q. rewrite String.eqb_refl in Q. injection Q as ->. reflexivity.
Qed.
