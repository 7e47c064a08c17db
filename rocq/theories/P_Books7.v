(** Lemmas about AHI work books and the scripts that rewrite files. *)
From Coq Require Import String Ascii List Bool ZArith Lia Reals Lra Sorted.
From Verif Require Import Base NumSig XR M_Tables M_Utils M_World M_Hdf5 M_Raw M_Download M_Books S_Raw S_Raw2 S_Hdf5 S_Names S_Books S_Books2 P_Hdf5 P_Hdf52 P_Raw P_Raw7 P_Raw8 P_Books P_Books2 P_Books5 P_Books6.
Import ListNotations.
Local Open Scope string_scope.

(** ** AHI *)
Lemma ahi_names : AHI_BAND_NAMES = AHI_CHANNELS.
Proof. reflexivity. Qed.
Lemma ahi_nodup : NoDup (map fst AHI_CHANNELS).
Proof. cbn [map fst AHI_CHANNELS]. repeat (constructor; [cbn; intuition discriminate|]). constructor. Qed.
Definition ahi_name (n : string) : string := match dget n AHI_BAND_NAMES with Some c => c | None => n end.
Lemma ahi_channel_iff {N : Num} (s : book_sheet N) ch : bs_name s <> "Title" -> (ahi_channel s ch <-> ch = ahi_name (strip (bs_name s))).
Proof.
  intros T. unfold ahi_channel, ahi_name. rewrite ahi_names. destruct (dget (strip (bs_name s)) AHI_CHANNELS) as [c|] eqn:E.
  - split.
    + intros (_ & [H|[H _]]); [apply dget_in_nodup in H; [congruence|exact ahi_nodup]|]. exfalso. apply H. apply dget_Some_in in E. apply in_map_iff. eexists (_, c). split; [reflexivity|exact E].
    + intros ->. split; [exact T|]. left. now apply dget_Some_in.
  - apply dget_None_notin in E. split.
    + intros (_ & [H|[_ H]]); [|exact H]. exfalso. apply E. apply in_map_iff. eexists (_, ch). split; [reflexivity|exact H].
    + intros ->. split; [exact T|]. right. auto.
Qed.
Lemma ahi_rows_ok {N : Num} (s : book_sheet N) c l : cells s c 5 (Some (Z.to_nat 5453)) = Ok l -> ahi_rows s c l.
Proof.
  unfold cells. intros H. bname H col E. apply idx_ok in E. exists col. split; [exact E|]. symmetry. replace (Z.to_nat 5448) with (Z.to_nat 5453 - 5)%nat by lia. exact (ok_eq _ _ H).
Qed.
Lemma ahi_sheets_ok {N : Num} (l : list (book_sheet N)) : forall acc out, ahi_sheets l acc = Ok out ->
  forall ch, ((forall s, In s l -> ~ ahi_channel s ch) /\ dget ch out = dget ch acc) \/
    exists pre s post w r, l = (pre ++ s :: post)%list /\ ahi_channel s ch /\ (forall s', In s' post -> ~ ahi_channel s' ch) /\ ahi_rows s 0 w /\ ahi_rows s 2 r /\ dget ch out = Some (w, r).
Proof.
  induction l as [|s l IH]; cbn [ahi_sheets]; intros acc out H ch.
  - injection H as <-. left. split; [intros ? []|reflexivity].
  - destruct (String.eqb_spec (bs_name s) "Title") as [T|T].
    + destruct (IH _ _ H ch) as [[A ->]|(pre & s' & post & w & r & -> & R)].
      * left. split; [|reflexivity]. intros s' [<-|I]; [intros [K _]; contradiction|auto].
      * right. exists (s :: pre), s', post, w, r. split; [reflexivity|exact R].
    + cbv zeta in H. fold (ahi_name (strip (bs_name s))) in H. bname H w Ew. bname H r Er. apply ahi_rows_ok in Ew, Er. destruct (IH _ _ H ch) as [[A B]|(pre & s' & post & w' & r' & -> & R)].
      * rewrite dget_dset in B. destruct (String.eqb_spec ch (ahi_name (strip (bs_name s)))) as [->|NE].
        -- right. exists [], s, l, w, r. split; [reflexivity|]. split; [now apply ahi_channel_iff|]. auto.
        -- left. split; [|exact B]. intros s' [<-|I]; [rewrite ahi_channel_iff; auto|auto].
      * right. exists (s :: pre), s', post, w', r'. split; [reflexivity|exact R].
Qed.
Lemma ahi_ok {N : Num} options ex (open_workbook : string -> res (list (book_sheet N))) p rsr : AhiRSR options ex open_workbook p = Ok rsr ->
  exists path sheets, entry options p "ahi" "path" path /\ ex path = true /\ open_workbook path = Ok sheets /\
    forall ch, ((forall s, In s sheets -> ~ ahi_channel s ch) /\ dget ch rsr = None) \/
      exists pre s post w r, sheets = (pre ++ s :: post)%list /\ ahi_channel s ch /\ (forall s', In s' post -> ~ ahi_channel s' ch) /\ ahi_rows s 0 w /\ ahi_rows s 2 r /\ dget ch rsr = Some (w, r).
Proof.
  unfold AhiRSR. intros H. bname H sec E. apply of_opt in E. destruct sec as [|m]; [discriminate|]. cbn [bind] in H. bname H path Ep. unfold file_entry in Ep. bname Ep v Ev. apply of_opt in Ev.
  destruct v as [[f| | | |]|]; try discriminate. injection Ep as ->. destruct (ex path) eqn:X; [|discriminate]. bname H wb Ew. exists path, wb. split; [exists m; auto|]. split; [exact X|]. split; [exact Ew|].
  intros ch. exact (ahi_sheets_ok _ _ _ H ch).
Qed.
Lemma ahi_sheets_total {N : Num} (l : list (book_sheet N)) : (forall s, In s l -> bs_name s <> "Title" -> (3 <= List.length (bs_columns s))%nat) -> forall acc, exists out, ahi_sheets l acc = Ok out.
Proof.
  induction l as [|s l IH]; intros H acc; cbn [ahi_sheets]; [eauto|]. assert (IH' := IH (fun s' I => H s' (or_intror I))). destruct (String.eqb_spec (bs_name s) "Title") as [T|T]; [apply IH'|].
  specialize (H s (or_introl eq_refl) T). unfold cells, idx.
  destruct (nth_error (bs_columns s) 0) as [c0|] eqn:E0; [|apply nth_error_None in E0; lia]. destruct (nth_error (bs_columns s) 2) as [c2|] eqn:E2; [|apply nth_error_None in E2; lia].
  cbn [of_option bind]. apply IH'.
Qed.
Lemma ahi_succeeds {N : Num} options ex (open_workbook : string -> res (list (book_sheet N))) p path sheets : entry options p "ahi" "path" path -> ex path = true -> open_workbook path = Ok sheets ->
  (forall s, In s sheets -> bs_name s <> "Title" -> (3 <= List.length (bs_columns s))%nat) -> exists rsr, AhiRSR options ex open_workbook p = Ok rsr.
Proof.
  intros (m & A & B) X W H. unfold AhiRSR, file_entry. change (p ++ "-ahi") with (p ++ "-" ++ "ahi"). rewrite A. cbn [of_option bind]. rewrite B. cbn [of_option bind]. rewrite X, W. cbn [bind]. now apply ahi_sheets_total.
Qed.
Lemma ahi_missing {N : Num} options ex (open_workbook : string -> res (list (book_sheet N))) p path : entry options p "ahi" "path" path -> ex path = false -> AhiRSR options ex open_workbook p = Err AttributeError.
Proof. intros (m & A & B) X. unfold AhiRSR, file_entry. change (p ++ "-ahi") with (p ++ "-" ++ "ahi"). rewrite A. cbn [of_option bind]. rewrite B. cbn [of_option bind]. now rewrite X. Qed.
Lemma ahi_no_file {N : Num} options ex f32 (open_workbook : string -> res (list (book_sheet N))) p rsr : AhiRSR options ex open_workbook p = Ok rsr -> ahi_convert2hdf5 options ex f32 open_workbook p = Err TypeError.
Proof. intros H. unfold ahi_convert2hdf5. rewrite H. reflexivity. Qed.

(** ** Splitting the file of Metop *)
Lemma headed_iff l : startswith l "AVHRR" = true <-> headed l.
Proof. unfold startswith. apply prefix_spec. Qed.
Lemma not_headed l : ~ headed l -> startswith l "AVHRR" = false.
Proof. intros H. destruct (startswith l "AVHRR") eqn:E; [|reflexivity]. apply headed_iff in E. contradiction. Qed.
Lemma to_header_pre pre h rest : Forall (fun l => ~ headed l) pre -> headed h -> to_header (pre ++ h :: rest)%list = List.length pre.
Proof.
  intros H Hh. induction H as [|l pre Hl _ IH]; cbn [app to_header List.length].
  - apply headed_iff in Hh. now rewrite Hh.
  - rewrite (not_headed _ Hl). now f_equal.
Qed.
Lemma skipn_removelast {A} k (l : list A) : skipn k (removelast l) = removelast (skipn k l).
Proof.
  revert l. induction k as [|k IH]; intros [|x l]; auto. cbn [skipn]. destruct l as [|y l]; [destruct k; reflexivity|]. change (removelast (x :: y :: l)) with (x :: removelast (y :: l)). cbn [skipn]. apply IH.
Qed.
Lemma metop_rows_ok {N : Num} (py_float : string -> res N) numbers rows rest : Forall2 (metop_row py_float) numbers rows ->
  (rest = [] \/ exists l t, rest = l :: t /\ forall a b, ~ fields l [a; b]) -> metop_rows py_float (numbers ++ rest) = Ok rows.
Proof.
  intros F R. induction F as [|l q numbers rows (a & b & Fl & Ea & Eb) F IH]; cbn [app metop_rows].
  - destruct R as [->|(l & t & -> & NF)]; [reflexivity|]. cbn [metop_rows]. destruct (words l) as [|a [|b [|c x]]] eqn:W; try reflexivity. apply words_iff in W. exfalso. exact (NF _ _ W).
  - apply words_iff in Fl. rewrite Fl. rewrite Ea. cbn [bind]. rewrite Eb. cbn [bind]. rewrite IH. cbn [bind]. now destruct q.
Qed.
Lemma skip_add {A} a b (l : list A) : skipn (a + b) l = skipn b (skipn a l).
Proof. revert l. induction a as [|a IH]; intros [|x l]; cbn [Nat.add skipn]; auto. now rewrite skipn_nil. Qed.
Lemma skip_app {A} (a b : list A) : skipn (List.length a) (a ++ b) = b.
Proof. induction a; auto. Qed.
Lemma split_ok {N : Num} (py_float : string -> res N) blocks rowss : Forall2 (whole_block py_float) blocks rowss ->
  forall files lines idx pre, List.length files = List.length rowss -> skipn idx lines = (pre ++ concat blocks)%list -> Forall (fun l => ~ headed l) pre ->
  split_channels py_float files lines idx = Ok (combine files (map by_wavelength rowss)).
Proof.
  induction 1 as [|b rows blocks rowss (after & (header & second & numbers & -> & Hh & NE & F & N2 & N3 & N4) & (l & t & -> & NF)) _ IH]; intros [|f files] lines idx pre L S P; try discriminate; [reflexivity|].
  cbn [split_channels map combine]. cbn [concat] in S. assert (S' := S). cbn [app] in S'. rewrite S', (to_header_pre _ _ _ P Hh).
  assert (E2 : skipn (idx + List.length pre) lines = (header :: second :: numbers ++ l :: t ++ concat blocks)%list).
  { rewrite skip_add, S', skip_app. rewrite <- app_assoc. reflexivity. }
  assert (E3 : skipn (idx + List.length pre + 2) (removelast lines) = (numbers ++ removelast (l :: t ++ concat blocks))%list).
  { rewrite skipn_removelast, skip_add, E2. cbn [skipn]. apply removelast_app. discriminate. }
  rewrite E3, (metop_rows_ok py_float numbers rows _ F); [cbn [bind]|].
  2:{ destruct (t ++ concat blocks)%list as [|y z]; [left; reflexivity|right]. exists l, (removelast (y :: z)). auto. }
  assert (LN : List.length numbers = List.length rows) by (clear - F; induction F; cbn; auto).
  destruct rows as [|r0 rows]; [congruence|]. cbn [List.length] in LN |- *.
  rewrite (IH files lines (idx + List.length pre + Datatypes.S (List.length rows))%nat (skipn (List.length rows) (second :: numbers) ++ l :: t)%list).
  - reflexivity.
  - cbn in L. congruence.
  - rewrite skip_add, E2. cbn [skipn]. change (second :: numbers ++ l :: t ++ concat blocks)%list with ((second :: numbers) ++ (l :: t ++ concat blocks))%list.
    rewrite skipn_app. replace (List.length rows - List.length (second :: numbers))%nat with 0%nat by (cbn; lia). cbn [skipn]. now rewrite <- app_assoc.
  - apply Forall_app. split; [|exact N4]. apply Forall_forall. intros x Hx. assert (Hx' : In x (second :: numbers)) by (rewrite <- (firstn_skipn (List.length rows)); apply in_or_app; now right).
    destruct Hx' as [<-|Hx']; [exact N2|]. rewrite Forall_forall in N3. auto.
Qed.
Lemma metop_ok {N : Num} (py_float : string -> res N) pre blocks rowss : List.length rowss = 6%nat -> Forall (fun l => ~ headed l) pre -> Forall2 (whole_block py_float) blocks rowss ->
  split_metop py_float (pre ++ concat blocks) = Ok (combine METOP_FILES (map by_wavelength rowss)).
Proof. intros L P F. unfold split_metop. apply (split_ok py_float blocks rowss F) with (pre := pre); auto. Qed.
Lemma by_wavelength_real (l : list (R * R)) : (forall q, In q l -> (0 < fst q)%R) -> @by_wavelength XRN (real_rows l) = real_rows (rev (map (fun q => (10000 / fst q, snd q)%R) l)).
Proof.
  intros H. unfold by_wavelength, real_rows. rewrite map_rev, !map_map. f_equal. apply map_ext_in. intros q I. specialize (H q I). cbn [fst snd nlit XRN ndiv nmul]. unfold xlit. rewrite xdiv_fin by lra. cbn [xmul]. do 2 f_equal. field. lra.
Qed.
Lemma by_wavelength_sorted (l : list (R * R)) : (forall q, In q l -> (0 < fst q)%R) -> ascending l -> ascending (rev (map (fun q => (10000 / fst q, snd q)%R) l)).
Proof.
  unfold ascending. intros H S. induction S as [|q l S IH F]; cbn [map rev]; [constructor|].
  assert (IH' := IH (fun x I => H x (or_intror I))). clear IH. assert (Hq := H q (or_introl eq_refl)).
  assert (B : forall x, In x (rev (map (fun q => (10000 / fst q, snd q)%R) l)) -> (fst x < 10000 / fst q)%R).
  { intros x I. apply in_rev, in_map_iff in I as (y & <- & I). cbn [fst]. rewrite Forall_forall in F. specialize (F y I). apply Rmult_lt_compat_l; [lra|]. apply Rinv_lt_contravar; [|exact F]. apply Rmult_lt_0_compat; [exact Hq|]. apply H. now right. }
  revert IH' B. generalize (rev (map (fun q => (10000 / fst q, snd q)%R) l)). intros m Sm B. induction Sm as [|x m Sm IHm Fm]; cbn [app]; [repeat constructor|].
  constructor; [apply IHm; intros; apply B; now right|]. apply Forall_app. split; [exact Fm|]. constructor; [apply B; now left|constructor].
Qed.

(** ** Old AVHRR files *)
Lemma star_values_ok {N : Num} (py_float : string -> res N) f32 l o : Forall2 (star_cell py_float) l o -> star_values py_float f32 l = Ok (map f32 (somes o)).
Proof.
  unfold star_values. induction 1 as [|c x l o Hc _ IH]; [reflexivity|]. destruct Hc as [|x|s x NE E]; cbn [filter].
  - exact IH.
  - cbn [mapM bind]. rewrite IH. reflexivity.
  - destruct (String.eqb_spec s "-"); [contradiction|]. cbn [negb mapM]. rewrite E. cbn [bind]. rewrite IH. reflexivity.
Qed.
Lemma somes_map {A B} (f : A -> B) (l : list (option A)) : somes (map (option_map f) l) = map f (somes l).
Proof. unfold somes. induction l as [|[a|] l IH]; cbn; auto. now f_equal. Qed.
Lemma star_file w r f t : In t STAR -> In (w, r, f) t -> dget w OUTPUT_FILES = Some f.
Proof. intros [<-|[<-|[]]] I; cbn in I; repeat destruct I as [I|I]; try (injection I as <- <- <-; reflexivity); destruct I. Qed.
Lemma unpack_ok {N : Num} (py_float : string -> res N) f32 (data : dict (list (cell N))) (rows : string -> list (option (N * N))) t :
  (forall w r f, In (w, r, f) t -> dget w OUTPUT_FILES = Some f /\ exists wc rc, dget w data = Some wc /\ dget r data = Some rc /\ star_columns py_float wc rc (rows w)) ->
  unpack_fields py_float f32 data (star_fields t) = Ok (map (fun q => (snd q, star_points f32 (rows (fst (fst q))))) t).
Proof.
  induction t as [|[[w r] f] t IH]; intros H; [reflexivity|]. cbn [star_fields flat_map fst snd app unpack_fields map]. fold (star_fields t).
  destruct (H w r f (or_introl eq_refl)) as (O & wc & rc & Ew & Er & C1 & C2). rewrite Ew. cbn [of_option bind]. rewrite Er. cbn [of_option bind].
  rewrite (star_values_ok _ f32 _ _ C1), (star_values_ok _ f32 _ _ C2). cbn [bind]. rewrite O. cbn [of_option bind]. rewrite !somes_map, !map_length, Nat.eqb_refl.
  rewrite IH by (intros w' r' f' I; apply (H w' r' f'); now right). cbn [bind]. do 3 f_equal. unfold star_points. rewrite !map_map. induction (somes (rows w)) as [|q l IHl]; [reflexivity|]. cbn [map combine]. now f_equal.
Qed.
Lemma star_ok {N : Num} (py_float : string -> res N) f32 read_table file data (rows : string -> list (option (N * N))) t : In t STAR -> read_table file (star_fields t) = Ok data ->
  (forall w r f, In (w, r, f) t -> exists wc rc, dget w data = Some wc /\ dget r data = Some rc /\ star_columns py_float wc rc (rows w)) ->
  unpack_data py_float f32 read_table file (star_fields t) = Ok (map (fun q => (snd q, star_points f32 (rows (fst (fst q))))) t).
Proof.
  intros T E H. unfold unpack_data. rewrite E. cbn [bind]. apply unpack_ok. intros w r f I. split; [exact (star_file _ _ _ _ T I)|eauto].
Qed.
Lemma unpack_differ {N : Num} (py_float : string -> res N) f32 (data : dict (list (cell N))) (vals : string -> list (option N)) t :
  (forall w r f, In (w, r, f) t -> dget w OUTPUT_FILES = Some f /\ exists wc rc, dget w data = Some wc /\ dget r data = Some rc /\ Forall2 (star_cell py_float) wc (vals w) /\ Forall2 (star_cell py_float) rc (vals r)) ->
  (exists w r f, In (w, r, f) t /\ List.length (somes (vals w)) <> List.length (somes (vals r))) -> unpack_fields py_float f32 data (star_fields t) = Err ValueError.
Proof.
  induction t as [|[[w r] f] t IH]; intros H (w' & r' & f' & I & D); [destruct I|]. cbn [star_fields flat_map fst snd app unpack_fields map]. fold (star_fields t).
  destruct (H w r f (or_introl eq_refl)) as (O & wc & rc & Ew & Er & C1 & C2). rewrite Ew. cbn [of_option bind]. rewrite Er. cbn [of_option bind].
  rewrite (star_values_ok _ f32 _ _ C1), (star_values_ok _ f32 _ _ C2). cbn [bind]. rewrite O. cbn [of_option bind]. rewrite !map_length.
  destruct (Nat.eqb_spec (List.length (somes (vals w))) (List.length (somes (vals r)))) as [E|E]; [|reflexivity].
  destruct I as [I|I]; [injection I as <- <- <-; contradiction|]. rewrite IH; [reflexivity| |exists w', r', f'; auto]. intros w2 r2 f2 I2. apply (H w2 r2 f2). now right.
Qed.
Lemma star_differ {N : Num} (py_float : string -> res N) f32 read_table file data (vals : string -> list (option N)) t : In t STAR -> read_table file (star_fields t) = Ok data ->
  (forall w r f, In (w, r, f) t -> exists wc rc, dget w data = Some wc /\ dget r data = Some rc /\ Forall2 (star_cell py_float) wc (vals w) /\ Forall2 (star_cell py_float) rc (vals r)) ->
  (exists w r f, In (w, r, f) t /\ List.length (somes (vals w)) <> List.length (somes (vals r))) -> unpack_data py_float f32 read_table file (star_fields t) = Err ValueError.
Proof.
  intros T E H D. unfold unpack_data. rewrite E. cbn [bind]. apply unpack_differ with (vals := vals); [|exact D]. intros w r f I. split; [exact (star_file _ _ _ _ T I)|eauto].
Qed.

(** ** MODIS files under new names *)
Definition new_name (basedir sat : string) : string := basedir ++ "/" ++ get_rsr_filename sat "modis".
Lemma app_inj_l a b c : a ++ b = a ++ c -> b = c.
Proof. induction a as [|x a IH]; cbn; [auto|]. intros [= H]. auto. Qed.
Lemma old_new basedir s s' : In s ["Aqua"; "Terra"] -> In s' ["Aqua"; "Terra"] -> old_name basedir s <> new_name basedir s'.
Proof. unfold old_name, new_name. intros [<-|[<-|[]]] [<-|[<-|[]]] H; apply app_inj_l in H; discriminate. Qed.
Lemma new_new basedir : new_name basedir "Aqua" <> new_name basedir "Terra".
Proof. unfold new_name. intros H. apply app_inj_l in H. discriminate. Qed.
Lemma join_old basedir sat : join basedir ("rsr_modis_EOS-" ++ sat ++ ".h5") = old_name basedir sat. Proof. reflexivity. Qed.
Lemma join_new basedir sat : join basedir ("rsr_modis_" ++ sat ++ ".h5") = new_name basedir sat. Proof. reflexivity. Qed.
Lemma modis_run {N : Num} basedir (disk : dict (h5file N)) ha ht : dget (old_name basedir "Aqua") disk = Some ha -> dget (old_name basedir "Terra") disk = Some ht ->
  modis_old2new basedir ["Aqua"; "Terra"] disk = (dset (new_name basedir "Terra") (renamed "Terra" ht) (dset (new_name basedir "Aqua") (renamed "Aqua" ha) disk), None).
Proof.
  intros A T. unfold modis_old2new. rewrite !join_old, !join_new, A. rewrite dget_dset_other by (intros K; symmetry in K; revert K; apply old_new; cbn; tauto). now rewrite T.
Qed.
Lemma renamed_reads {N : Num} sat (h : h5file N) i : In sat ["Aqua"; "Terra"] -> read_rsr h = Ok i ->
  read_rsr (renamed sat h) = Ok {| ri_platform := Some sat; ri_instrument := Some (IOne "modis"); ri_bands := ri_bands i; ri_description := ri_description i; ri_rsr := ri_rsr i |}.
Proof.
  intros S H. unfold read_rsr in *. bname H bn E1. bname H names E2. bname H dv E3. bname H d E4. bname H pn E5. bname H ins E6. bname H rsr E7. injection H as <-. cbn [ri_bands ri_description ri_rsr].
  cbn [renamed h_band_names h_description]. rewrite E1. cbn [bind]. rewrite E2. cbn [bind]. rewrite E3. cbn [bind]. rewrite E4. cbn [bind].
  assert (B : forall bs acc, read_bands (renamed sat h) bs acc = read_bands h bs acc).
  { assert (RD : forall b ds acc, read_dets (renamed sat h) b ds acc = read_dets h b ds acc).
    { intros b ds. induction ds as [|x ds IHd]; intros acc; [reflexivity|]. cbn [read_dets]. change (read_detector (renamed sat h) b x) with (read_detector h b x). destruct (read_detector h b x); cbn [bind]; auto. }
    induction bs as [|b bs IHb]; intros acc; [reflexivity|]. cbn [read_bands]. rewrite RD. change (detector_names (renamed sat h) b) with (detector_names h b). destruct (read_dets h b _ _); cbn [bind]; auto. }
  rewrite B, E7. destruct S as [<-|[<-|[]]]; reflexivity.
Qed.
Lemma modis_ok {N : Num} basedir (disk : dict (h5file N)) ha ht : dget (old_name basedir "Aqua") disk = Some ha -> dget (old_name basedir "Terra") disk = Some ht ->
  exists disk', modis_old2new basedir ["Aqua"; "Terra"] disk = (disk', None) /\
    (forall f, (forall s, In s ["Aqua"; "Terra"] -> f <> basedir ++ "/" ++ get_rsr_filename s "modis") -> dget f disk' = dget f disk) /\
    (forall s, In s ["Aqua"; "Terra"] -> dget (old_name basedir s) disk' = dget (old_name basedir s) disk) /\
    (forall s h i, In s ["Aqua"; "Terra"] -> dget (old_name basedir s) disk = Some h -> read_rsr h = Ok i ->
      exists h', dget (basedir ++ "/" ++ get_rsr_filename s "modis") disk' = Some h' /\
        read_rsr h' = Ok {| ri_platform := Some s; ri_instrument := Some (IOne "modis"); ri_bands := ri_bands i; ri_description := ri_description i; ri_rsr := ri_rsr i |}) /\
    exists disk2, modis_old2new basedir ["Aqua"; "Terra"] disk' = (disk2, None) /\ forall f, dget f disk2 = dget f disk'.
Proof.
  intros A T. eexists. split; [exact (modis_run basedir disk ha ht A T)|].
  set (disk' := dset _ _ (dset _ _ disk)).
  assert (O : forall s, In s ["Aqua"; "Terra"] -> dget (old_name basedir s) disk' = dget (old_name basedir s) disk).
  { intros s I. unfold disk'. rewrite !dget_dset_other; auto; intros K; symmetry in K; revert K; apply old_new; auto; cbn; tauto. }
  assert (NT : dget (new_name basedir "Terra") disk' = Some (renamed "Terra" ht)) by (unfold disk'; apply dget_dset_same).
  assert (NA : dget (new_name basedir "Aqua") disk' = Some (renamed "Aqua" ha)).
  { unfold disk'. rewrite dget_dset_other; [apply dget_dset_same|]. intros K. symmetry in K. exact (new_new basedir K). }
  split; [|split; [exact O|split]].
  - intros f H. unfold disk'. rewrite !dget_dset_other; auto; intros K; symmetry in K; revert K; apply H; cbn; tauto.
  - intros s h i I H R. exists (renamed s h). split; [|now apply renamed_reads].
    destruct I as [<-|[<-|[]]]; [rewrite A in H; injection H as <-; exact NA|rewrite T in H; injection H as <-; exact NT].
  - eexists. split; [apply modis_run; rewrite O; cbn; eauto; tauto|]. intros f. rewrite !dget_dset. 
    destruct (String.eqb_spec f (new_name basedir "Terra")) as [->|]; [symmetry; exact NT|]. destruct (String.eqb_spec f (new_name basedir "Aqua")) as [->|]; [symmetry; exact NA|]. reflexivity.
Qed.
Lemma modis_missing {N : Num} basedir (disk : dict (h5file N)) s : In s ["Aqua"; "Terra"] -> dget (old_name basedir s) disk = None ->
  exists disk', modis_old2new basedir ["Aqua"; "Terra"] disk = (disk', Some FileNotFoundError) /\
    forall f, f <> basedir ++ "/" ++ get_rsr_filename "Aqua" "modis" -> dget f disk' = dget f disk.
Proof.
  intros I H. unfold modis_old2new. rewrite !join_old, !join_new. destruct (dget (old_name basedir "Aqua") disk) as [ha|] eqn:A.
  - destruct I as [<-|[<-|[]]]; [congruence|]. rewrite dget_dset_other by (intros K; symmetry in K; revert K; apply old_new; cbn; tauto). rewrite H. eexists. split; [reflexivity|].
    intros f Hf. apply dget_dset_other. intros K. apply Hf. symmetry. exact K.
  - eexists. split; [reflexivity|]. auto.
Qed.
