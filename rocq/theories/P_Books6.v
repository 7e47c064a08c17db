(** Lemmas about AVHRR/1 and AHI work books. *)
From Coq Require Import String Ascii List Bool ZArith Lia Reals Lra.
From Verif Require Import Base NumSig XR M_Tables M_Utils M_World M_Hdf5 M_Raw M_Books S_Raw S_Raw2 S_Hdf5 S_Names S_Books S_Books2 P_Hdf5 P_Hdf52 P_Raw P_Raw6 P_Raw7 P_Convert P_Books P_Books2 P_Books5.
Import ListNotations.
Local Open Scope string_scope.

Tactic Notation "bname" hyp(H) ident(x) ident(E) := match type of H with
  | bind ?e _ = Ok _ => destruct e as [x|] eqn:E; cbn [bind] in H; [|discriminate H]
  end.
Lemma numbers_ok {N : Num} (l : list (cell N)) x : mapM number l = Ok x -> l = map CNum x.
Proof.
  intros H. apply mapM_Forall2 in H. induction H as [|c y l x Hc _ IH]; cbn [map]; [reflexivity|]. f_equal; [|exact IH]. destruct c; cbn in Hc; [congruence|discriminate].
Qed.
Lemma drop_text_split {N : Num} (l : list (cell N)) : exists c, l = (map CText c ++ drop_text l)%list.
Proof. induction l as [|[x|s] l (c & IH)]; cbn [drop_text]; [now exists []|now exists []|]. exists (s :: c). cbn. now f_equal. Qed.
Lemma without_comments_ok {N : Num} (l k : list (cell N)) : without_comments l = Ok k -> k <> [] /\ exists c, l = (k ++ map CText c)%list.
Proof.
  unfold without_comments. destruct (drop_text_split (rev l)) as (c & E). destruct (drop_text (rev l)) as [|x t]; [discriminate|]. intros H.
  assert (k = rev (x :: t)) as -> by congruence. split.
  - intros K. apply (f_equal (@rev _)) in K. rewrite rev_involutive in K. discriminate.
  - exists (rev c). rewrite map_rev, <- rev_app_distr, <- E. now rewrite rev_involutive.
Qed.
Lemma avhrr1_scale {N : Num} unit (scale : N) : get_scale_from_unit unit = Some scale -> avhrr1_unit unit scale.
Proof.
  unfold get_scale_from_unit. cbn [dget]. destruct (String.eqb_spec unit "Å") as [->|]; [intros [= <-]; left; auto|]. destruct (String.eqb_spec unit "nm") as [->|]; [intros [= <-]; right; auto|discriminate].
Qed.
Definition typo {N : Num} (a b : list N) : Prop := b = adjust_typo a.
Lemma avhrr1_sheet_ok {N : Num} (s : book_sheet N) p r : avhrr1_sheet s = Ok (p, r) -> avhrr1_sheet_of typo s p r.
Proof.
  unfold avhrr1_sheet, cells. intros H. bname H hd0 E. bname E col0 E0. assert (hd0 = firstn (2 - 0) (skipn 0 col0)) as -> by congruence. clear E. apply idx_ok in E0. cbn [skipn Nat.sub] in H.
  bname H c0 E. apply idx_ok in E. destruct col0 as [|x col0]; [discriminate|]. cbn in E. injection E as ->. bname H t0 E. destruct c0 as [|t]; [discriminate|]. cbn in E. injection E as ->.
  bname H c1 E. apply idx_ok in E. destruct col0 as [|x col0]; [discriminate|]. cbn in E. injection E as ->. bname H t1 E. destruct c1 as [|t]; [discriminate|]. cbn in E. injection E as ->.
  bname H u Eu. bname H kept Ek.
  bname H pr Ep. bname H rc Er. bname Er col1 E1. assert (rc = firstn (2 + List.length kept - 2) (skipn 2 col1)) as -> by (symmetry; exact (ok_eq _ _ Er)). clear Er. bname H resp Es. bname H scale El. assert (Q := ok_eq _ _ H). clear H.
  apply of_opt in El. apply avhrr1_scale in El. apply without_comments_ok in Ek as (NE & com & Ec). apply numbers_ok in Ep, Es. apply idx_ok in E1. subst col0.
  rewrite Ep in E0, NE, Es. rewrite map_length in Es. replace (2 + List.length pr - 2)%nat with (List.length pr) in Es by lia.
  assert (Qp : p = strip_chars "# " t0) by congruence. assert (Qr := f_equal snd Q). cbn [snd] in Qr. clear Q.
  exists t0, t1, u, (strip_chars ")" u), scale, pr, com, (if String.eqb (strip_chars "# " t0) "TIROS-N" then adjust_typo pr else pr), col1.
  split; [exact E0|]. split; [intros ->; now apply NE|]. split; [apply trimmed_iff; auto|]. split; [now apply second_part_ok|]. split; [now apply trimmed_iff|]. split; [exact El|].
  split; [rewrite Qp; destruct (String.eqb _ _); reflexivity|]. rewrite <- Qr. cbn [rw_wavelength rw_response]. auto.
Qed.
Lemma sheet_platform {N : Num} fix_ (s : book_sheet N) p r q r' : avhrr1_sheet s = Ok (q, r') -> avhrr1_sheet_of fix_ s p r -> p = q.
Proof.
  intros H (t0 & t1 & u & unit & scale & pr & com & wvl & col1 & C & _ & T & _). destruct (avhrr1_sheet_ok _ _ _ H) as (t0' & t1' & ? & ? & ? & ? & ? & ? & ? & C' & _ & T' & _).
  rewrite C in C'. injection C' as -> _. apply trimmed_iff in T, T'. congruence.
Qed.
Lemma sheet_weaken {N : Num} (f g : list N -> list N -> Prop) (s : book_sheet N) p r : (forall a b, f a b -> g a b) -> avhrr1_sheet_of f s p r -> avhrr1_sheet_of g s p r.
Proof.
  intros W (t0 & t1 & u & unit & scale & pr & com & wvl & col1 & A1 & A2 & A3 & A4 & A5 & A6 & A7 & A8). exists t0, t1, u, unit, scale, pr, com, wvl, col1.
  repeat (split; [assumption|]). split; [|exact A8]. destruct (String.eqb p "TIROS-N"); auto.
Qed.
Lemma dset_dkeys {V} k (v : V) d : In k (dkeys d) -> dkeys (dset k v d) = dkeys d.
Proof.
  induction d as [|(k', v') d IH]; intros H; [destruct H|]. cbn [dset]. unfold dkeys in *. destruct (String.eqb_spec k k') as [->|]; cbn [map fst]; [reflexivity|]. f_equal. apply IH. destruct H as [H|H]; [cbn in H; congruence|exact H].
Qed.
Lemma avhrr1_sheets_ok {N : Num} (fix_ : list N -> list N -> Prop) (W : forall a b, typo a b -> fix_ a b) (l : list (book_sheet N)) : forall acc out, avhrr1_sheets l acc = Ok out ->
  (forall p sat, dget p acc = Some sat -> dkeys sat = AVHRR1_CHANNELS) ->
  exists k, sheets_read l k /\ dkeys out = dkeys acc /\ (forall p sat, dget p out = Some sat -> dkeys sat = AVHRR1_CHANNELS) /\
    (forall s, In s k -> exists p ch r, In p (dkeys acc) /\ In (strip (bs_name s), ch) AVHRR1_SHEETS /\ avhrr1_sheet_of fix_ s p r) /\
    forall p ch sat sat' o o', dget p acc = Some sat -> dget p out = Some sat' -> dget ch sat = Some o -> dget ch sat' = Some o' ->
      (o' = o /\ no_sheet fix_ k p ch) \/ exists s r, o' = Some r /\ last_sheet fix_ k p ch s r.
Proof.
  induction l as [|s l IH]; cbn [avhrr1_sheets]; intros acc out H K.
  - injection H as <-. exists []. split; [constructor|]. split; [reflexivity|]. split; [exact K|]. split; [intros ? []|]. intros. left. split; [congruence|]. intros ? ? [].
  - destruct (String.eqb_spec (bs_name s) "Kleespies Data") as [Q|Q].
    + destruct (IH _ _ H K) as (k & S & R). exists k. split; [now apply sr_skip|exact R].
    + destruct (dget (strip (bs_name s)) CHANNEL_NAMES) as [c|] eqn:C.
      * destruct (avhrr1_sheet s) as [(q, r)|] eqn:A; cbn [bind] in H; [|discriminate]. bstep H. apply of_opt in E. rename a into sat0. apply known_sheet in C.
        assert (Kq : In q (dkeys acc)) by (apply dget_Some_in in E; apply in_map_iff; exists (q, sat0); auto).
        assert (Kc : In c AVHRR1_CHANNELS). { clear - C. cbn in C. repeat destruct C as [C|C]; try (injection C as _ <-; cbn; tauto). destruct C. }
        assert (K' : forall p sat, dget p (dset q (dset c (Some r) sat0) acc) = Some sat -> dkeys sat = AVHRR1_CHANNELS).
        { intros p sat. rewrite dget_dset. destruct (String.eqb_spec p q) as [->|]; [|apply K]. intros [= <-]. rewrite dset_dkeys; rewrite (K _ _ E); auto. }
        destruct (IH _ _ H K') as (k & S & D1 & D2 & D3 & D4). rewrite (dset_dkeys q _ acc Kq) in *. exists (s :: k).
        assert (AS := sheet_weaken _ fix_ _ _ _ W (avhrr1_sheet_ok _ _ _ A)).
        split; [|split; [exact D1|split; [exact D2|split]]].
        -- apply sr_take; auto. apply in_map_iff. eexists (_, c). split; [reflexivity|exact C].
        -- intros s' [<-|I]; [exists q, c, r; auto|exact (D3 _ I)].
        -- intros p ch sat sat' o o' G1 G2 G3 G4.
           destruct (String.eqb_spec p q) as [->|NQ].
           ++ rewrite E in G1. injection G1 as ->. destruct (String.eqb_spec ch c) as [->|NC].
              ** destruct (D4 q c (dset c (Some r) sat) sat' (Some r) o') as [[-> NS]|(s' & r' & -> & pre & post & Ek & R)]; auto; try apply dget_dset_same.
                 --- right. exists s, r. split; [reflexivity|]. exists [], k. split; [reflexivity|]. split; [exact C|]. split; [exact AS|]. exact NS.
                 --- right. exists s', r'. split; [reflexivity|]. exists (s :: pre), post. split; [cbn; now f_equal|exact R].
              ** destruct (D4 q ch (dset c (Some r) sat) sat' o o') as [[-> NS]|(s' & r' & -> & pre & post & Ek & R)]; auto; try apply dget_dset_same; try (rewrite dget_dset_other; auto).
                 --- left. split; [reflexivity|]. intros s' r' [<-|I] J X; [|exact (NS s' r' I J X)]. apply NC. apply known_sheet in C, J. congruence.
                 --- right. exists s', r'. split; [reflexivity|]. exists (s :: pre), post. split; [cbn; now f_equal|exact R].
           ++ destruct (D4 p ch sat sat' o o') as [[-> NS]|(s' & r' & -> & pre & post & Ek & R)]; auto; try (rewrite dget_dset_other; auto).
              ** left. split; [reflexivity|]. intros s' r' [<-|I] J X; [|exact (NS s' r' I J X)]. apply NQ. exact (sheet_platform _ _ _ _ _ _ A X).
              ** right. exists s', r'. split; [reflexivity|]. exists (s :: pre), post. split; [cbn; now f_equal|exact R].
      * assert (acc = out) as <- by congruence. exists []. split; [apply sr_stop; auto; now apply unknown_sheet|]. split; [reflexivity|]. split; [exact K|]. split; [intros ? []|].
        intros. left. split; [congruence|]. intros ? ? [].
Qed.
Lemma start_get {N : Num} p : forall sat, dget p (map (fun sat => (sat, map (fun ch => (ch, @None (raw N))) (channels 1 4))) AVHRR1_SATELLITES) = Some sat ->
  sat = map (fun ch => (ch, None)) AVHRR1_CHANNELS /\ In p AVHRR1.
Proof.
  cbn [AVHRR1_SATELLITES map dget]. intros sat. repeat match goal with |- context [String.eqb p ?x] => destruct (String.eqb_spec p x) as [->|_]; [intros [= <-]; split; [reflexivity|cbn; tauto]|] end. discriminate.
Qed.
Lemma get_path_ok options section key p : get_path options section key = Ok p -> exists m, dget section options = Some (CMap m) /\ dget key m = Some (Leaf (LStr p)).
Proof.
  unfold get_path. intros H. bstep H. apply of_opt in E. destruct a as [|m]; [discriminate|]. exists m. split; [exact E|]. destruct (dget key m) as [[[]|]|]; try discriminate. congruence.
Qed.
Lemma avhrr1_load options ex open_workbook ws rsr : @Avhrr1RSR XRN options ex open_workbook ws = Ok rsr ->
  ws = "wavelength" /\ exists path m sheets, dget "avhrr/1" options = Some (CMap m) /\ dget "path" m = Some (Leaf (LStr path)) /\ open_workbook path = Ok sheets /\
    (ex path = false -> exists f, dget "filename" m = Some (Leaf (LStr f))) /\ avhrr1_holds sheets rsr.
Proof.
  unfold Avhrr1RSR. intros H. bstep H. bstep H. bstep H. bstep H. destruct (String.eqb_spec ws "wavelength") as [->|]; [|discriminate]. injection H as <-. split; [reflexivity|].
  destruct (get_path_ok _ _ _ _ E) as (m & M1 & M2). exists a, m, a1. repeat (split; [assumption|]). split.
  - intros X. rewrite X in E0. destruct (get_path_ok _ _ _ _ E0) as (m' & M1' & M2'). rewrite M1 in M1'. injection M1' as <-. eauto.
  - destruct (avhrr1_sheets_ok adjusted) with (2 := E2) as (k & S & D1 & D2 & D3 & D4).
    + intros x y ->. apply adjust_ok.
    + intros p sat G. apply start_get in G as [-> _]. reflexivity.
    + exists k. split; [exact S|]. split; [exact D1|]. split.
      * exact D3.
      * intros p Hp. assert (Kp : In p (dkeys a2)) by (rewrite D1; exact Hp). apply in_dkeys_dget in Kp as (sat & Hs). exists sat. split; [exact Hs|]. assert (Kc := D2 _ _ Hs). split; [exact Kc|].
        intros ch Hc. assert (Kd := Hc). rewrite <- Kc in Kd. apply in_dkeys_dget in Kd as (o & Ho).
        assert (G : dget p (map (fun sat => (sat, map (fun ch => (ch, @None (raw XRN))) (channels 1 4))) AVHRR1_SATELLITES) = Some (map (fun ch => (ch, None)) AVHRR1_CHANNELS)).
        { cbn in Hp. repeat destruct Hp as [<-|Hp]; try reflexivity. destruct Hp. }
        assert (G' : dget ch (map (fun ch => (ch, @None (raw XRN))) AVHRR1_CHANNELS) = Some None). { cbn in Hc. repeat destruct Hc as [<-|Hc]; try reflexivity. destruct Hc. }
        destruct (D4 p ch _ sat None o G Hs G' Ho) as [[-> NS]|(s & r & -> & L)]; [left; auto|right; exists s, r; auto].
Qed.
Lemma avhrr1_unique_channel p sat sheets (rsr : dict (dict (option (raw XRN)))) : avhrr1_holds sheets rsr -> dget p rsr = Some sat -> In p AVHRR1 /\ dkeys sat = AVHRR1_CHANNELS.
Proof.
  intros (k & _ & K & _ & H) G. assert (Hp : In p AVHRR1). { rewrite <- K. apply dget_Some_in in G. apply in_map_iff. exists (p, sat). auto. }
  split; [exact Hp|]. destruct (H p Hp) as (sat' & G' & Kc & _). rewrite G in G'. injection G' as ->. exact Kc.
Qed.
Lemma on_items_total {A B} (f : A -> res B) d : (forall k a, In (k, a) d -> exists b, f a = Ok b) -> exists e, on_items f d = Ok e.
Proof.
  induction d as [|(k, a) d IH]; intros H; cbn [on_items]; [eauto|]. destruct (H k a (or_introl eq_refl)) as (b & ->). cbn [bind]. destruct IH as (e & ->); [intros; eapply H; right; eauto|]. cbn [bind]. eauto.
Qed.
Lemma avhrr1_channels_nodup : NoDup AVHRR1_CHANNELS.
Proof. unfold AVHRR1_CHANNELS. repeat (constructor; [cbn; intuition discriminate|]). constructor. Qed.
Lemma avhrr1_file f32 sheets (rsr : dict (dict (option (raw XRN)))) p h : avhrr1_holds sheets rsr -> generate_avhrr1_file f32 rsr p = Ok h ->
  In p AVHRR1 /\ exists i k, read_rsr h = Ok i /\ sheets_read sheets k /\ ri_bands i = AVHRR1_CHANNELS /\ dkeys (ri_rsr i) = AVHRR1_CHANNELS /\ oscar_opt (Some p) (ri_platform i) /\
    (forall t, oscar p t -> ri_instrument i = dget t INSTRUMENTS) /\
    forall ch, In ch AVHRR1_CHANNELS -> exists s r c, last_sheet adjusted k p ch s r /\ central_of (rw_wavelength r) (rw_response r) c /\
      dget ch (ri_rsr i) = Some [("det-1", [("response", VArr (map f32 (rw_response r))); ("wavelength", VArr (stored f32 (rw_wavelength r))); ("central_wavelength", VNum c)])].
Proof.
  intros Hold H. unfold generate_avhrr1_file in H. bstep H. apply of_opt in E. bstep H. assert (Q := ok_eq _ _ H). clear H. destruct (avhrr1_unique_channel _ _ _ _ Hold E) as [Hp Kc]. split; [exact Hp|].
  apply on_items_ok in E0 as [Ke Fe]. rename a into sat, a0 into e. destruct Hold as (k & S & _ & _ & D). destruct (D p Hp) as (sat' & G & _ & D'). rewrite E in G. injection G as <-.
  assert (B : forall ch, In ch AVHRR1_CHANNELS -> exists s r c, last_sheet adjusted k p ch s r /\ central_of (rw_wavelength r) (rw_response r) c /\ dget ch e = Some (one_group f32 (rw_response r) (rw_wavelength r) c)).
  { intros ch Hc. destruct (D' ch Hc) as [[N _]|(s & r & Hr & L)].
    - destruct (Fe _ _ N) as (b & _ & Hb). discriminate.
    - destruct (Fe _ _ Hr) as (b & Eb & Hb). unfold avhrr1_band in Hb. cbn [of_option bind] in Hb. bstep Hb. exists s, r, a. split; [exact L|]. split; [exact E0|]. rewrite Eb. f_equal. symmetry. exact (ok_eq _ _ Hb). }
  destruct (reads_back h AVHRR1_CHANNELS "Relative Spectral Responses for AVHRR/1" p None) as (i & R1 & R2 & R3 & R4 & _ & R5 & R6); try (rewrite <- Q; cbn [h_band_names h_description h_platform_name h_sensor option_map]; rewrite ?Kc; reflexivity).
  - exact avhrr1_channels_nodup.
  - intros b Hb. rewrite <- Q. cbn [h_bands]. destruct (B b Hb) as (s & r & c & _ & _ & G). eexists. split; [exact G|]. apply one_complete.
  - exists i, k. repeat (split; [assumption || auto|]). intros ch Hc. destruct (B ch Hc) as (s & r & c & L & C & G). destruct (R6 ch Hc) as (g & y & G1 & G2 & BD).
    rewrite <- Q in G1. cbn [h_bands] in G1. rewrite G in G1. injection G1 as <-. apply one_data in BD. subst y. exists s, r, c. auto.
Qed.
Lemma avhrr1_writes f32 sheets (rsr : dict (dict (option (raw XRN)))) p sat : avhrr1_holds sheets rsr -> dget p rsr = Some sat ->
  (forall ch, In ch AVHRR1_CHANNELS -> exists r, dget ch sat = Some (Some r) /\ List.length (rw_response r) = List.length (rw_wavelength r)) -> exists h, generate_avhrr1_file f32 rsr p = Ok h.
Proof.
  intros Hold G H. destruct (avhrr1_unique_channel _ _ _ _ Hold G) as [_ Kc]. unfold generate_avhrr1_file. rewrite G. cbn [of_option bind].
  destruct (on_items_total (avhrr1_band f32) sat) as (e & ->); [|cbn [bind]; eauto]. intros ch o I.
  assert (Ic : In ch AVHRR1_CHANNELS) by (rewrite <- Kc; apply in_map_iff; exists (ch, o); auto). destruct (H ch Ic) as (r & Hr & L).
  assert (Ho : dget ch sat = Some o) by (apply dget_in_nodup; [rewrite Kc; exact avhrr1_channels_nodup|exact I]). rewrite Hr in Ho. injection Ho as <-.
  unfold avhrr1_band. cbn [of_option bind]. destruct (central_total (rw_wavelength r) (rw_response r) L) as (c & Ec). rewrite Ec. cbn [bind]. eauto.
Qed.
Lemma avhrr1_incomplete f32 sheets (rsr : dict (dict (option (raw XRN)))) p sat ch : avhrr1_holds sheets rsr -> dget p rsr = Some sat -> dget ch sat = Some None ->
  exists e, generate_avhrr1_file f32 rsr p = Err e.
Proof.
  intros Hold G H. unfold generate_avhrr1_file. rewrite G. cbn [of_option bind]. destruct (on_items (avhrr1_band f32) sat) as [e|x] eqn:E; cbn [bind]; [|eauto].
  apply on_items_ok in E as [_ F]. destruct (F _ _ H) as (b & _ & K). discriminate.
Qed.
