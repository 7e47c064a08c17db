(** Lemmas about the readers of work books (M_Books). *)
From Coq Require Import String Ascii List Bool ZArith Lia Reals Lra Sorted.
From Verif Require Import Base NumSig XR M_Tables M_Utils M_World M_Hdf5 M_Raw M_Books S_Raw S_Raw2 S_Books P_Raw P_Raw6 P_Raw8 P_Books.
Import ListNotations.
Local Open Scope string_scope.

Lemma filter_picked {A} (P : A -> Prop) f l : (forall x, In x l -> f x = true <-> P x) -> picked P l (filter f l).
Proof.
  induction l as [|x l IH]; intros H; cbn [filter]; [constructor|]. destruct (f x) eqn:E.
  - constructor; [apply H; [now left|exact E]|]. apply IH. intros y Hy. apply H. now right.
  - constructor; [|apply IH; intros y Hy; apply H; now right]. intros K. apply H in K; [congruence|now left].
Qed.
Lemma ok_eq {A} (a b : A) : Ok a = Ok b -> a = b. Proof. now intros [= ->]. Qed.
Lemma append_assoc_ (a b c : string) : (a ++ b) ++ c = a ++ b ++ c.
Proof. induction a as [|x a IH]; cbn; [reflexivity|]. now rewrite IH. Qed.
Lemma dget_table {V} (t : dict V) k v : dget k t = Some v -> In (k, v) t.
Proof. apply dget_Some_in. Qed.

(** ** Two columns of a frame *)
Lemma get_loc_ok {N : Num} name (df : dict (list N)) : forall i, get_loc name df = Ok i -> exists y, nth_error df i = Some (name, y).
Proof.
  induction df as [|(k, c) df IH]; cbn [get_loc]; intros i H; [discriminate|]. destruct (String.eqb_spec name k) as [->|].
  - injection H as <-. exists c. reflexivity.
  - bstep H. injection H as <-. cbn [nth_error]. now apply IH.
Qed.
Lemma left_ok {N : Num} name (df : dict (list N)) i w y : nth_error df i = Some (name, y) -> left_column df i = Ok w -> left_of df name w y.
Proof.
  intros Y. destruct i as [|i]; cbn [left_column]; intros H.
  - apply of_opt in H. destruct (rev df) as [|(k, v) l] eqn:E; cbn [hd_error option_map snd] in H; [discriminate|]. injection H as ->.
    eapply lo_first; [exact Y|]. rewrite <- (rev_involutive df), E. reflexivity.
  - bstep H. injection H as <-. destruct a as (k, v). apply idx_ok in E. eapply lo_next; [exact E|exact Y].
Qed.
Lemma dropna_present l : @dropna XRN l = present l.
Proof. induction l as [|x l IH]; [reflexivity|]. destruct x as [r| | |]; cbn [present]; rewrite <- IH; reflexivity. Qed.
Lemma present_both f rows : present (map (both f) rows) = map (fun q => Fin (f q) : XRN) (somes rows).
Proof. induction rows as [|[q|] rows IH]; cbn [map both present]; [reflexivity| |exact IH]. rewrite IH. reflexivity. Qed.
Lemma thousand x : ndiv XRN (Fin x) (nlit XRN 1000 1) = Fin (x / 1000)%R.
Proof. change (nlit XRN 1000 1) with (Fin (1000 / 1)). eapply eq_trans; [apply (xdiv_fin x (1000 / 1)); lra|]. f_equal. lra. Qed.
Lemma named_ok (df : dict (list XRN)) name r : @left_and_named XRN df name = Ok r -> exists w y, left_of df name w y /\ curve_from w y r.
Proof.
  unfold left_and_named. intros H. bstep H. bstep H. bstep H. bstep H. injection H as <-.
  destruct (get_loc_ok _ _ _ E) as (y & Y). apply idx_ok in E1. rewrite Y in E1. injection E1 as <-. cbn [snd] in E2.
  exists a0, y. split; [now apply (left_ok name df a)|]. apply normalised_ok in E2 as (m & P & ->). rewrite !dropna_present in *. exists m. cbn [rw_wavelength rw_response].
  split; [exact P|]. split; [reflexivity|]. split; [reflexivity|]. intros rows -> ->. unfold points. cbn [rw_wavelength rw_response]. rewrite !present_both, !map_map. clear.
  induction (somes rows) as [|q l IH]; cbn [map combine]; [reflexivity|]. rewrite IH. f_equal. f_equal. apply thousand.
Qed.
Lemma left_tl (df : dict (list XRN)) name w y : left_of (dmap (@tl XRN) df) name w y -> exists w' y', left_of df name w' y' /\ w = tl w' /\ y = tl y'.
Proof.
  assert (G : forall i k v, nth_error (dmap (@tl XRN) df) i = Some (k, v) -> exists v', nth_error df i = Some (k, v') /\ v = tl v').
  { intros i k v. unfold dmap. rewrite nth_error_map. destruct (nth_error df i) as [(k', v')|]; cbn; [|discriminate]. intros [= <- <-]. eauto. }
  intros [j k w0 y0 A B|l k w0 y0 A B].
  - apply G in A as (w' & A & ->). apply G in B as (y' & B & ->). exists w', y'. split; [eapply lo_next; eauto|auto].
  - apply G in A as (y' & A & ->). unfold dmap in B. apply map_eq_app in B as (l1 & l2 & E & <- & E2). destruct l2 as [|(k2, w') [|? ?]]; try discriminate E2.
    injection E2 as <- <-. exists w', y'. split; [eapply lo_first; eauto|auto].
Qed.


  Lemma epic_ok (options : dict cfg) (ex : string -> bool) (read_excel : string -> string -> nat -> res (dict (list XRN))) b p o : @EpicRSR XRN options ex read_excel b p = Ok o ->
    exists path, entry options p "epic" "path" path /\ (ir_rsr o = None <-> ex path = false) /\
      forall r, ir_rsr o = Some r -> exists name df w y, In (b, name) EPIC_COLUMNS /\ read_excel path "Data" 4%nat = Ok df /\ left_of df name w y /\ curve_from (tl w) (tl y) r.
  Proof.
    intros H. apply path_ok in H as (path & En & _ & [(X & r & L & Er)|(X & _ & Er)]); exists path; (split; [exact En|]).
    2: split; [rewrite Er, X; tauto|rewrite Er; discriminate].
    split; [rewrite Er, X; split; discriminate|]. intros r' Er'. rewrite Er in Er'. injection Er' as <-.
    unfold load_epic in L. bstep L. bstep L. bstep L. apply of_opt in E1. apply dget_table in E1. apply named_ok in L as (w & y & L & C).
    assert (D : a0 = dmap (@tl XRN) a). { unfold drop_first in E0. destruct a as [|(k, [|v c]) a]; try discriminate. now injection E0 as <-. } subst a0.
    apply left_tl in L as (w' & y' & L & -> & ->). exists a1, a, w', y'. auto.
  Qed.
  Lemma goci2_ok (options : dict cfg) (ex : string -> bool) (read_csv : string -> res (dict (list XRN))) b p o : @GOCI2RSR XRN options ex read_csv b p = Ok o ->
    exists path, entry options p "goci2" "path" path /\ (ir_rsr o = None <-> ex path = false) /\
      forall r, ir_rsr o = Some r -> exists name df w y, In (b, name) GOCI2_COLUMNS /\ read_csv path = Ok df /\ left_of df name w y /\ curve_from w y r.
  Proof.
    intros H. apply path_ok in H as (path & En & _ & [(X & r & L & Er)|(X & _ & Er)]); exists path; (split; [exact En|]).
    2: split; [rewrite Er, X; tauto|rewrite Er; discriminate].
    split; [rewrite Er, X; split; discriminate|]. intros r' Er'. rewrite Er in Er'. injection Er' as <-.
    unfold load_goci2 in L. bstep L. bstep L. apply of_opt in E0. apply dget_table in E0. apply named_ok in L as (w & y & L & C). exists a0, a, w, y. auto.
  Qed.

  (** ** MSI *)
  Lemma combine_rows (rows : list (R * R)) : combine (firsts rows) (seconds rows) = map (fun q => (Fin (fst q), Fin (snd q)) : XRN * XRN) rows.
  Proof. unfold firsts, seconds. induction rows as [|q rows IH]; cbn [map combine]; [reflexivity|]. f_equal. exact IH. Qed.
  Lemma filter_rows (f : XRN * XRN -> bool) (rows : list (R * R)) :
    filter f (map (fun q => (Fin (fst q), Fin (snd q)) : XRN * XRN) rows) = map (fun q => (Fin (fst q), Fin (snd q)) : XRN * XRN) (filter (fun q => f (Fin (fst q), Fin (snd q))) rows).
  Proof. induction rows as [|q rows IH]; cbn [map filter]; [reflexivity|]. destruct (f (Fin (fst q), Fin (snd q))); cbn [map]; now rewrite IH. Qed.
  Lemma fold_min l : forall x, fold_left (@nmin XRN) (reals l) (Fin x) = Fin (fold_left Rmin l x).
  Proof. induction l as [|y l IH]; intros x; cbn [reals map fold_left]; [reflexivity|]. rewrite nmin_fin. apply IH. Qed.
  Lemma fold_max l : forall x, fold_left (@nmax XRN) (reals l) (Fin x) = Fin (fold_left Rmax l x).
  Proof. induction l as [|y l IH]; intros x; cbn [reals map fold_left]; [reflexivity|]. rewrite nmax_fin. apply IH. Qed.
  Lemma rmin_spec l : forall x, In (fold_left Rmin l x) (x :: l) /\ forall y, In y (x :: l) -> (fold_left Rmin l x <= y)%R.
  Proof.
    induction l as [|z l IH]; intros x; cbn [fold_left]. { split; [now left|]. intros y [->|[]]. lra. }
    destruct (IH (Rmin x z)) as [A B]. split.
    - destruct A as [A|A]; [|now right; right]. rewrite <- A. unfold Rmin. destruct (Rle_dec x z); [left|right; left]; reflexivity.
    - intros y [<-|[<-|H]]; [| |apply B; now right]; (eapply Rle_trans; [apply B; now left|]); [apply Rmin_l|apply Rmin_r].
  Qed.
  Lemma rmax_spec l : forall x, In (fold_left Rmax l x) (x :: l) /\ forall y, In y (x :: l) -> (y <= fold_left Rmax l x)%R.
  Proof.
    induction l as [|z l IH]; intros x; cbn [fold_left]. { split; [now left|]. intros y [->|[]]. lra. }
    destruct (IH (Rmax x z)) as [A B]. split.
    - destruct A as [A|A]; [|now right; right]. rewrite <- A. unfold Rmax. destruct (Rle_dec x z); [right; left|left]; reflexivity.
    - intros y [<-|[<-|H]]; [| |apply B; now right]; (eapply Rle_trans; [|apply B; now left]); [apply Rmax_l|apply Rmax_r].
  Qed.
  Definition significant (q : R * R) : bool := negb (Rleb (snd q) (1 / 100000)).
  Lemma significant_iff q : significant q = true <-> (1 / 100000 < snd q)%R.
  Proof. unfold significant, Rleb. destruct (Rle_dec (snd q) (1 / 100000)); cbn; split; intros; try lra; try discriminate; auto. Qed.
  Lemma near_ok rows pts : @near_significant XRN (firsts rows) (seconds rows) = Ok pts ->
    exists kept, picked (near rows) rows kept /\ pts = map (fun q => (Fin (fst q), Fin (snd q)) : XRN * XRN) kept.
  Proof.
    unfold near_significant. destruct (firsts rows) as [|f0 fs] eqn:F; [discriminate|]. rewrite <- F. clear F f0 fs. rewrite combine_rows, filter_rows.
    change (filter (fun q => negb (nleb XRN (snd (Fin (fst q) : XRN, Fin (snd q) : XRN)) (nlit XRN 1 100000))) rows) with (filter significant rows).
    rewrite map_map. cbn [fst]. change (map (fun x => Fin (fst x)) (filter significant rows)) with (firsts (filter significant rows)).
    destruct (filter significant rows) as [|s0 ss] eqn:S.
    - cbn [firsts map]. intros [= <-]. exists []. split; [|reflexivity].
      assert (K : forall l, (forall q, In q l -> ~ near rows q) -> picked (near rows) l []). { induction l as [|x l IH]; constructor; [apply H; now left|apply IH; intros; apply H; now right]. }
      apply K. intros q _ (a & _ & Ia & _ & Ha & _). apply significant_iff in Ha. assert (In a (filter significant rows)) by now apply filter_In. now rewrite S in H.
    - cbn [firsts map]. intros H. apply ok_eq in H. subst pts. rewrite filter_rows.
      assert (FM : map (fun x : R * R => Fin (fst x) : XRN) ss = reals (map fst ss)) by (unfold reals; now rewrite map_map).
      pose proof (fold_min (map fst ss) (fst s0)) as Mi. pose proof (fold_max (map fst ss) (fst s0)) as Ma. rewrite <- FM in Mi, Ma.
      destruct (rmin_spec (map fst ss) (fst s0)) as [I1 B1]. destruct (rmax_spec (map fst ss) (fst s0)) as [I2 B2].
      eexists. split; [|reflexivity]. apply filter_picked. intros q _. cbn [fst].
      match goal with |- context [nltb XRN ?u (nsub XRN ?l _)] => change l with (fold_left (@nmin XRN) (map (fun x : R * R => Fin (fst x) : XRN) ss) (Fin (fst s0))) end.
      match goal with |- context [nltb XRN (nadd XRN ?l _)] => change l with (fold_left (@nmax XRN) (map (fun x : R * R => Fin (fst x) : XRN) ss) (Fin (fst s0))) end.
      rewrite Mi, Ma. cbn [nltb nadd nsub nlit XRN xlit xsub xadd xneg xltb].
      set (lo := fold_left Rmin _ _) in *. set (hi := fold_left Rmax _ _) in *.
      assert (SI : forall v, In v (fst s0 :: map fst ss) <-> exists a, In a rows /\ (1 / 100000 < snd a)%R /\ fst a = v).
      { intros v. change (fst s0 :: map fst ss) with (map fst (s0 :: ss)). rewrite <- S, in_map_iff. split.
        - intros (a & <- & Ha). apply filter_In in Ha as [Ha Hs]. apply significant_iff in Hs. eauto.
        - intros (a & Ha & Hs & <-). exists a. split; auto. apply filter_In. split; auto. now apply significant_iff. }
      unfold Rltb. split.
      + destruct (Rlt_dec (fst q) _) as [|L1]; [discriminate|]. destruct (Rlt_dec _ (fst q)) as [|L2]; [discriminate|]. intros _.
        apply SI in I1 as (a & A1 & A2 & A3). apply SI in I2 as (b & C1 & C2 & C3). exists a, b. repeat split; auto; lra.
      + intros (a & b & A1 & C1 & A2 & C2 & A3 & C3). assert (Q1 := B1 (fst a) (proj2 (SI _) (ex_intro _ a (conj A1 (conj A2 eq_refl))))).
        assert (Q2 := B2 (fst b) (proj2 (SI _) (ex_intro _ b (conj C1 (conj C2 eq_refl))))).
        destruct (Rlt_dec (fst q) _); [lra|]. destruct (Rlt_dec _ (fst q)); [lra|]. reflexivity.
  Qed.
  Lemma milli (l : list (R * R)) : map (fun p : XRN * XRN => ndiv XRN (fst p) (nlit XRN 1000 1)) (map (fun q => (Fin (fst q), Fin (snd q)) : XRN * XRN) l) = reals (map (fun q => fst q / 1000)%R l).
  Proof. unfold reals. rewrite !map_map. apply map_ext. intros q. apply thousand. Qed.
  Lemma msi_ok (options : dict cfg) (ex : string -> bool) (read_excel : string -> string -> nat -> res (dict (list XRN))) b c p o : In (b, c) MSI_COLUMNS -> @MsiRSR XRN options ex read_excel b p = Ok o ->
    exists path s df w y r, In (p, s) SENTINELS /\ entry options p "msi" "path" path /\ ex path = true /\ read_excel path ("Spectral Responses (" ++ s ++ ")") 0%nat = Ok df /\
      dget "SR_WL" df = Some w /\ dget (s ++ "_SR_AV_" ++ c) df = Some y /\ ir_rsr o = Some r /\
      forall rows, w = firsts rows -> y = seconds rows -> exists kept, picked (near rows) rows kept /\
        rw_wavelength r = reals (map (fun q => fst q / 1000)%R kept) /\ rw_response r = seconds kept.
  Proof.
    unfold MsiRSR. intros Hc H. bstep H. apply of_opt in E. apply dget_table in E. apply path_ok in H as (path & En & _ & [(X & r & L & Er)|(_ & ? & _)]); [|discriminate].
    unfold load_msi in L. bstep L. bstep L. bstep L. bstep L. bstep L. injection L as <-. apply of_opt in E0, E2, E3.
    exists path, a, a1, a2, a3. eexists. split; [exact E|]. split; [exact En|]. split; [exact X|]. split.
    { rewrite <- E1. f_equal. cbn [PLATFORM_SHORT_NAME In] in E. destruct E as [E|[E|[E|[]]]]; injection E as _ <-; injection E0 as <-; reflexivity. }
    split; [exact E2|]. split.
    { rewrite <- E3. f_equal. f_equal. f_equal. cbn [MSI_COLUMNS In] in Hc. repeat (destruct Hc as [Hc|Hc]; [injection Hc as <- <-; reflexivity|]). destruct Hc. }
    split; [exact Er|]. intros rows -> ->. apply near_ok in E4 as (kept & P & ->). exists kept. cbn [rw_wavelength rw_response].
    split; [exact P|]. split; [apply milli|]. unfold seconds. rewrite map_map. reflexivity.
  Qed.
  Lemma msi_missing (options : dict cfg) (ex : string -> bool) (read_excel : string -> string -> nat -> res (dict (list XRN))) b p s path : In (p, s) SENTINELS -> entry options p "msi" "path" path -> ex path = false -> @MsiRSR XRN options ex read_excel b p = Err OSError.
  Proof.
    intros I En X. unfold MsiRSR. assert (D : dget p PLATFORM_SHORT_NAME = Some s). { cbn [SENTINELS In] in I. destruct I as [I|[I|[I|[]]]]; injection I as <- <-; reflexivity. }
    rewrite D. cbn [of_option bind]. now apply (path_missing options ex "msi" p path).
  Qed.

  (** ** OLI and TIRS *)
  Lemma existsb_str_In x l : existsb_str x l = true <-> In x l.
  Proof. unfold existsb_str. rewrite existsb_exists. split; [intros (y & H & E); apply String.eqb_eq in E; now subst|intros H; exists x; split; [auto|apply String.eqb_refl]]. Qed.
  Lemma dhas_Some {V} k (d : dict V) : dhas k d = true -> exists v, dget k d = Some v.
  Proof. unfold dhas. destruct (dget k d); [eauto|discriminate]. Qed.
  Lemma oli_columns_ok (read_excel : string -> string -> nat -> res (dict (list XRN))) path sheet wn rn r : @oli_columns XRN read_excel path sheet wn rn = Ok r -> exists df w, read_excel path sheet 0%nat = Ok df /\
    dget wn df = Some w /\ dget rn df = Some (rw_response r) /\ rw_wavelength r = map (fun x => ndiv XRN x (nlit XRN 1000 1)) w.
  Proof. unfold oli_columns. intros H. bstep H. bstep H. bstep H. injection H as <-. apply of_opt in E0, E1. exists a, a0. auto. Qed.
  Lemma above r rows : rw_wavelength r = map (fun x => ndiv XRN x (nlit XRN 1000 1)) (firsts rows) -> rw_response r = seconds rows ->
    exists kept, picked (fun q => 1 / 500 < snd q)%R rows kept /\ rw_wavelength (@cut XRN (nlit XRN 2 1000) r) = reals (map (fun q => fst q / 1000)%R kept) /\
      rw_response (@cut XRN (nlit XRN 2 1000) r) = seconds kept.
  Proof.
    intros W Y. exists (filter (fun q => Rltb (2 / 1000) (snd q)) rows). split.
    { apply filter_picked. intros q _. unfold Rltb. destruct (Rlt_dec (2 / 1000) (snd q)); split; intros; auto; try discriminate; lra. }
    unfold cut. cbn [rw_wavelength rw_response]. rewrite W, Y.
    assert (K : filter (fun p : XRN * XRN => nltb XRN (nlit XRN 2 1000) (snd p)) (combine (map (fun x => ndiv XRN x (nlit XRN 1000 1)) (firsts rows)) (seconds rows)) =
      map (fun q => (Fin (fst q / 1000), Fin (snd q)) : XRN * XRN) (filter (fun q => Rltb (2 / 1000) (snd q)) rows)).
    { clear. unfold firsts, seconds. induction rows as [|q rows IH]; [reflexivity|]. cbn [map combine filter snd].
      change (nltb XRN (nlit XRN 2 1000) (Fin (snd q))) with (Rltb (2 / 1000) (snd q)). rewrite thousand. destruct (Rltb (2 / 1000) (snd q)); cbn [map]; rewrite <- IH; reflexivity. }
    split; (eapply eq_trans; [apply (f_equal _ K)|]); rewrite map_map; unfold reals, seconds; rewrite ?map_map; reflexivity.
  Qed.
  Lemma oli_ok (options : dict cfg) (ex : string -> bool) (read_excel : string -> string -> nat -> res (dict (list XRN))) b p o : @OliRSR XRN options ex read_excel b p = Ok o ->
    exists path f key sheet wn rn df w y r, oli_layout p b key sheet wn rn /\ entry options p "oli_tirs" "path" path /\ entry options p "oli_tirs" key f /\
      ex (path ++ "/" ++ f) = true /\ read_excel (path ++ "/" ++ f) sheet 0%nat = Ok df /\ dget wn df = Some w /\ dget rn df = Some y /\ ir_rsr o = Some r /\
      forall rows, w = firsts rows -> y = seconds rows -> exists kept, picked (fun q => 1 / 500 < snd q)%R rows kept /\
        rw_wavelength r = reals (map (fun q => fst q / 1000)%R kept) /\ rw_response r = seconds kept.
  Proof.
    unfold OliRSR. intros H. bstep H. destruct a as [[out m] path]. apply options_inv in E as [E1 E2]. bstep H. bstep H.
    unfold file_entry in E0. bstep E0. apply of_opt in E3. destruct a1 as [[f| | | |]|]; try discriminate E0. injection E0 as <-.
    destruct (ex (join path f)) eqn:X; [|discriminate]. bstep H. injection H as <-. cbn [ir_rsr].
    unfold load_oli in E0. bstep E0. injection E0 as <-.
    assert (Fin : forall key sheet wn rn, oli_layout p b key sheet wn rn -> a = key -> oli_columns read_excel (join path f) sheet wn rn = Ok a1 ->
      exists path f key sheet wn rn df w y r, oli_layout p b key sheet wn rn /\ entry options p "oli_tirs" "path" path /\ entry options p "oli_tirs" key f /\
      ex (path ++ "/" ++ f) = true /\ read_excel (path ++ "/" ++ f) sheet 0%nat = Ok df /\ dget wn df = Some w /\ dget rn df = Some y /\ Some (cut (nlit XRN 2 1000) a1) = Some r /\
      forall rows, w = firsts rows -> y = seconds rows -> exists kept, picked (fun q => 1 / 500 < snd q)%R rows kept /\
        rw_wavelength r = reals (map (fun q => fst q / 1000)%R kept) /\ rw_response r = seconds kept).
    { intros key sheet wn rn L <- C. apply oli_columns_ok in C as (df & w & C1 & C2 & C3 & C4). exists path, f, a, sheet, wn, rn, df, w, (rw_response a1). eexists.
      split; [exact L|]. split; [now apply (entry_of _ _ _ m)|]. split; [now apply (entry_of _ _ _ m)|]. split; [exact X|]. split; [exact C1|]. split; [exact C2|]. split; [exact C3|]. split; [reflexivity|].
      intros rows -> Y. now apply above. }
    destruct (dget b OLI_BAND_NAMES) as [sheet|] eqn:D.
    - assert (Ka : a = "oli"). { unfold dhas in E. rewrite D in E. now injection E. }
      apply (Fin "oli" sheet "Wavelength" "BA RSR [watts]"); auto. apply dget_table in D. now constructor.
    - assert (Ka : a = "tirs"). { unfold dhas in E. rewrite D in E. destruct (dget b TIRS_BAND_NAMES_L8); [now injection E|discriminate]. }
      destruct (String.eqb_spec p "Landsat-8") as [->|_].
      + cbn [bind] in E4. bstep E4. bstep E4. apply of_opt in E0, E5. apply dget_table in E0. cbn [TIRS_SHEETNAMES_L8 In] in E0.
        destruct E0 as [E0|[E0|[]]]; injection E0 as <- <-; injection E5 as <-; eapply Fin; eauto; constructor.
      + destruct (String.eqb_spec p "Landsat-9") as [->|_]; [|discriminate E4].
        cbn [bind] in E4. bstep E4. bstep E4. apply of_opt in E0, E5. apply dget_table in E0. cbn [TIRS_SHEETNAMES_L9 In] in E0.
        destruct E0 as [E0|[E0|[]]]; injection E0 as <- <-; injection E5 as <-; eapply Fin; eauto; constructor.
  Qed.
  Lemma oli_missing (options : dict cfg) (ex : string -> bool) (read_excel : string -> string -> nat -> res (dict (list XRN))) b p path key sheet wn rn f : oli_layout p b key sheet wn rn -> entry options p "oli_tirs" "path" path -> entry options p "oli_tirs" key f ->
    ex (path ++ "/" ++ f) = false -> @OliRSR XRN options ex read_excel b p = Err OSError.
  Proof.
    intros L (m & A & B) (m' & A' & B') X. rewrite A in A'. injection A' as <-. unfold OliRSR, get_options_from_config. rewrite A. cbn [of_option bind]. rewrite B. cbn [of_option bind].
    assert (K : (if dhas b OLI_BAND_NAMES then Ok "oli" else if dhas b TIRS_BAND_NAMES_L8 then Ok "tirs" else Err ValueError) = Ok key).
    { destruct L as [p b sheet I| | | |]; try reflexivity. cbn [In] in I. repeat (destruct I as [I|I]; [injection I as <- <-; reflexivity|]). destruct I. }
    rewrite K. cbn [bind]. unfold file_entry. rewrite B'. cbn [of_option bind]. unfold join. now rewrite X.
  Qed.

  (** ** MSU-GS/A *)
  Lemma msugsa_load (read_excel_names : string -> string -> nat -> list string -> res (dict (list XRN))) path b k d r : @load_msugsa XRN read_excel_names path b k = Ok (d, r) -> d = det_name k /\
    exists kind names df, msugsa_sheet b kind names /\ read_excel_names path ("MSU-" ++ band_number k ++ kind) 2%nat names = Ok df /\ frame_curve df b r.
  Proof.
    unfold load_msugsa. intros H. bstep H. bstep H. bstep H. injection H as <- <-. split; [reflexivity|]. apply of_opt in E0, E1.
    destruct (existsb_str b (channels 1 3)) eqn:B1.
    - apply existsb_str_In in B1. eexists _, _, a. split; [apply ms_visible; exact B1|]. split; [|split; [exact E0|exact E1]]. exact E.
    - destruct (existsb_str b (channels 4 7)) eqn:B2; [|discriminate]. apply existsb_str_In in B2. eexists _, _, a. split; [apply ms_infrared; exact B2|].
      split; [|split; [exact E0|exact E1]]. exact E.
  Qed.
  Lemma msugsa_ok (options : dict cfg) (read_excel_names : string -> string -> nat -> list string -> res (dict (list XRN))) b p o : @MsugsaRSR XRN options read_excel_names b p = Ok o ->
    exists path kind names df1 df2 r1 r2, entry options p "msu-gsa" "path" path /\ msugsa_sheet b kind names /\
      read_excel_names path ("MSU-1" ++ kind) 2%nat names = Ok df1 /\ read_excel_names path ("MSU-2" ++ kind) 2%nat names = Ok df2 /\
      frame_curve df1 b r1 /\ frame_curve df2 b r2 /\ sn_rsr o = RMulti [("det-1", r1); ("det-2", r2)].
  Proof.
    unfold MsugsaRSR. intros H. bstep H. bstep H. injection H as <-. apply mapM_Forall2 in E0. inversion E0 as [|? x1 ? l1 E1 E2]; subst. inversion E2 as [|? x2 ? l2 E3 E4]; subst. inversion E4; subst.
    destruct x1 as (d1, r1). destruct x2 as (d2, r2). clear E0 E2 E4.
    apply msugsa_load in E1 as (-> & k1 & n1 & df1 & S1 & L1 & F1). apply msugsa_load in E3 as (-> & k2 & n2 & df2 & S2 & L2 & F2).
    assert (Q : k1 = k2 /\ n1 = n2).
    { destruct S1 as [b I1|b I1]; inversion S2 as [? I2|? I2]; subst; auto; exfalso; revert I1 I2; cbn [In]; intuition congruence. }
    destruct Q as [-> ->]. exists a, k2, n2, df1, df2, r1, r2.
    unfold get_path in E. bstep E. apply of_opt in E0. destruct a0 as [l|m]; [discriminate|]. destruct (dget "path" m) as [[[v| | | |]|]|] eqn:G; try discriminate. injection E as <-.
    split; [now exists m|]. split; [exact S2|]. split; [exact L1|]. split; [exact L2|]. auto.
  Qed.

(** ** AATSR *)

  Lemma aatsr_table_ok {N : Num} (py_float : string -> res N) (f32 : N -> N) lines r : aatsr_table py_float f32 lines = Ok r -> exists pts, Forall2 (aatsr_line py_float f32) lines pts /\
    rw_wavelength r = map fst pts /\ rw_response r = map snd pts.
  Proof.
    unfold aatsr_table. intros H. bstep H. destruct (negb _); [discriminate|]. bstep H. apply mapM_Forall2 in E, E0.
    assert (K : exists w y, mapM (fun r => idx r 0) a0 = Ok w /\ mapM (fun r => idx r 1) a0 = Ok y /\ r = {| rw_wavelength := w; rw_response := y |}).
    { destruct a0; [discriminate|]. bstep H. bstep H. injection H as <-. eauto. }
    destruct K as (w & y & W & Y & ->). clear H. cbn [rw_wavelength rw_response]. apply mapM_Forall2 in W, Y.
    revert a0 w y E0 W Y. induction E as [|c ws lines rows Hc F IH]; intros nums w y E0 W Y; inversion E0 as [|? n ? nums' Hn Hn']; subst.
    - inversion W; inversion Y; subst. exists []. repeat split. constructor.
    - inversion W as [|? x ? w' Hx W']; inversion Y as [|? z ? y' Hz Y']; subst. destruct (IH _ _ _ Hn' W' Y') as (pts & P & -> & ->).
      apply idx_ok in Hx, Hz. apply mapM_Forall2 in Hn. bstep Hc. injection Hc as <-. destruct c as [|line]; [discriminate|]. cbn [text] in E. injection E as ->.
      remember (words a) as fs eqn:Fs. destruct Hn as [|s1 v1 ? ? H1 Hn]; [discriminate|]. destruct Hn as [|s2 v2 ? ? H2 Hn]; [discriminate|].
      injection Hx as ->. injection Hz as ->. bstep H1. bstep H2. injection H1 as <-. injection H2 as <-.
      exists ((f32 a0, f32 a1) :: pts). split; [|split; reflexivity]. constructor; [|exact P].
      symmetry in Fs. apply words_iff in Fs. eexists a, s1, s2, _, a0, a1. eauto 8.
  Qed.
  Lemma aatsr_sheets_ok {N : Num} (py_float : string -> res N) (f32 : N -> N) b : forall l acc o, aatsr_sheets py_float f32 b l acc = Ok o ->
    ((forall s, In s l -> strip (bs_name s) <> "aatsr_" ++ b) /\ o = acc) \/
    exists pre s post lines pts r, l = (pre ++ s :: post)%list /\ strip (bs_name s) = "aatsr_" ++ b /\ (forall s', In s' post -> strip (bs_name s') <> "aatsr_" ++ b) /\
      aatsr_rows s lines /\ Forall2 (aatsr_line py_float f32) lines pts /\ o = Some r /\ rw_wavelength r = map fst pts /\ rw_response r = map snd pts.
  Proof.
    induction l as [|s l IH]; cbn [aatsr_sheets]; intros acc o H; [injection H as <-; left; split; [intros ? []|reflexivity]|].
    destruct (String.eqb_spec (strip (bs_name s)) ("aatsr_" ++ b)) as [Q|Q].
    - bstep H. bstep H. right. destruct (IH _ _ H) as [[NI ->]|(pre & s' & post & ln & pts & r & -> & K)].
      + unfold cells in E. bstep E. injection E as <-. apply idx_ok in E1. apply aatsr_table_ok in E0 as (pts & P & W & Y).
        exists [], s, l, (firstn (258 - 3) (skipn 3 a1)), pts, a0. split; [reflexivity|]. split; [exact Q|]. split; [exact NI|]. split; [exists a1; auto|]. auto.
      + exists (s :: pre), s', post, ln, pts, r. split; [reflexivity|exact K].
    - destruct (IH _ _ H) as [[NI ->]|(pre & s' & post & ln & pts & r & -> & K)].
      + left. split; auto. intros s' [<-|I]; auto.
      + right. exists (s :: pre), s', post, ln, pts, r. split; [reflexivity|exact K].
  Qed.
  Lemma aatsr_ok {N : Num} (options : dict cfg) (py_float : string -> res N) (f32 : N -> N) (open_workbook : string -> res (list (book_sheet N))) b p o : AatsrRSR options py_float f32 open_workbook b p = Ok o ->
    exists path sheets, entry options p "aatsr" "path" path /\ open_workbook path = Ok sheets /\
      (ir_rsr o = None <-> forall s, In s sheets -> strip (bs_name s) <> "aatsr_" ++ b) /\
      forall r, ir_rsr o = Some r -> exists pre s post lines pts, sheets = (pre ++ s :: post)%list /\ strip (bs_name s) = "aatsr_" ++ b /\
        (forall s', In s' post -> strip (bs_name s') <> "aatsr_" ++ b) /\ aatsr_rows s lines /\ Forall2 (aatsr_line py_float f32) lines pts /\
        rw_wavelength r = map fst pts /\ rw_response r = map snd pts.
  Proof.
    unfold AatsrRSR. intros H. bstep H. bstep H. bstep H. injection H as <-. cbn [ir_rsr]. exists a, a0.
    unfold get_path in E. bstep E. apply of_opt in E2. destruct a2 as [l|m]; [discriminate|]. destruct (dget "path" m) as [[[v| | | |]|]|] eqn:G; try discriminate. injection E as <-.
    split; [now exists m|]. split; [exact E0|]. apply aatsr_sheets_ok in E1 as [[NI ->]|(pre & s & post & ln & pts & r & -> & Q & L & A1 & A2 & -> & A3)].
    - split; [tauto|discriminate].
    - split; [split; [discriminate|intros K; exfalso; apply (K s); [apply in_elt|exact Q]]|]. intros r' [= <-]. exists pre, s, post, ln, pts. auto 10.
  Qed.
