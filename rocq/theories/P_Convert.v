(** Conversion of response data to wavenumbers (C48, C49). *)
From Coq Require Import String Ascii List Bool Arith ZArith Lia Reals Lra Sorting.Sorted.
From Verif Require Import Base NumSig XR M_Tables M_Utils M_Rsr S_Rsr P_Rsr.
Import ListNotations.
Local Open Scope string_scope.
Local Open Scope nat_scope.

Section Gen.
  Context {N : Num}.

  (** ** One detector *)
  Definition rev_resp (v : pyval N) : pyval N :=
    match v with
    | VArr r => VArr (rev r)
    | VDict m => VDict (fold_left (fun a nm => match dget nm m with
                                               | Some r => dset nm (rev r) a | None => a end) (dkeys m) [])
    | VNum x => VNum x
    end.

  Definition key_step (d : detector N) (key : string) (acc : detector N) : res (detector N) :=
    a <- wavelength2wavenumber d key acc ;; collect_responses d key a.

  Lemma key_step_eq (d : detector N) key acc : typed_det d -> In key (dkeys d) ->
    key_step d key acc = Ok (
      if String.eqb key "wavelength" then
        match dget "wavelength" d with Some (VArr w) => dset "wavenumber" (VArr (rev (map wl2wn w))) acc | _ => acc end
      else if String.eqb key "response" then
        match dget "response" d with Some v => dset "response" (rev_resp v) acc | None => acc end
      else acc).
  Proof.
    intros [Hw Hr] Hk.
    assert (Hget : dget key d <> None) by (rewrite dget_None_notin; auto).
    unfold key_step, wavelength2wavenumber.
    destruct (String.eqb_spec key "wavelength") as [->|Hnw].
    - destruct (dget "wavelength" d) as [v|] eqn:Ev; [|congruence].
      destruct (Hw _ eq_refl) as [w ->]. unfold get_arr. rewrite Ev. reflexivity.
    - cbn [bind]. unfold collect_responses. destruct (String.eqb_spec key "response") as [->|Hnr]; auto.
      destruct (dget "response" d) as [v|] eqn:Ev; [|congruence].
      destruct v; auto. exfalso. eapply Hr; eauto.
  Qed.

  Lemma det_fold (d : detector N) : typed_det d -> forall l acc, incl l (dkeys d) ->
    exists d', fold_left (fun acc key => a <- acc ;; key_step d key a) l (Ok acc) = Ok d' /\
      forall k, dget k d' =
        if String.eqb k "wavenumber" && existsb (String.eqb "wavelength") l then
          match dget "wavelength" d with Some (VArr w) => Some (VArr (rev (map wl2wn w))) | _ => None end
        else if String.eqb k "response" && existsb (String.eqb "response") l then option_map rev_resp (dget "response" d)
        else dget k acc.
  Proof.
    intros Ht. induction l as [|key l IH]; intros acc Hi.
    - exists acc. split; auto. intros k. cbn [existsb]. now rewrite !andb_false_r.
    - cbn [fold_left bind].
      assert (Hk : In key (dkeys d)) by (apply Hi; now left).
      assert (Hl : incl l (dkeys d)) by (intros x Hx; apply Hi; now right).
      assert (Hget : dget key d <> None) by (rewrite dget_None_notin; auto).
      rewrite (key_step_eq d key acc Ht Hk).
      destruct (String.eqb_spec key "wavelength") as [->|Hnw].
      + destruct (dget "wavelength" d) as [v|] eqn:Ev; [|congruence].
        destruct (proj1 Ht _ Ev) as [w ->].
        destruct (IH (dset "wavenumber" (VArr (rev (map wl2wn w))) acc) Hl) as (d' & E & Hd).
        exists d'. split; [exact E|]. intros k. rewrite Hd, dget_dset. cbn [existsb].
        generalize (existsb (String.eqb "wavelength") l) (existsb (String.eqb "response") l); intros e1 e2.
        cbn [String.eqb Ascii.eqb Bool.eqb orb]. rewrite andb_true_r.
        destruct (String.eqb_spec k "wavenumber") as [->|]; cbn [andb String.eqb Ascii.eqb Bool.eqb]; auto;
        destruct e1; auto.
      + destruct (String.eqb_spec key "response") as [->|Hnr].
        * destruct (dget "response" d) as [v|] eqn:Ev; [|congruence].
          destruct (IH (dset "response" (rev_resp v) acc) Hl) as (d' & E & Hd).
          exists d'. split; [exact E|]. intros k. rewrite Hd, dget_dset. cbn [existsb].
          generalize (existsb (String.eqb "wavelength") l) (existsb (String.eqb "response") l); intros e1 e2.
          cbn [String.eqb Ascii.eqb Bool.eqb orb option_map]. rewrite andb_true_r.
          destruct (String.eqb_spec k "response") as [->|]; cbn [andb String.eqb Ascii.eqb Bool.eqb]; auto;
          destruct e2; auto.
        * destruct (IH acc Hl) as (d' & E & Hd). exists d'. split; [exact E|]. intros k. rewrite Hd.
          cbn [existsb]. replace (String.eqb "wavelength" key) with false
            by (symmetry; apply String.eqb_neq; congruence).
          replace (String.eqb "response" key) with false by (symmetry; apply String.eqb_neq; congruence).
          reflexivity.
  Qed.

  Lemma existsb_keys {V} (d : dict V) k : existsb (String.eqb k) (dkeys d) = dhas k d.
  Proof.
    unfold dhas. destruct (dget k d) eqn:E.
    - apply existsb_exists. exists k. split; [|apply String.eqb_refl]. apply dget_Some_in in E.
      apply (in_map fst) in E. exact E.
    - apply not_true_is_false. intros H. apply existsb_exists in H. destruct H as (x & Hx & He).
      apply String.eqb_eq in He. subst. apply dget_None_notin in E. auto.
  Qed.

  Lemma det2wn_get (d : detector N) : typed_det d -> dhas "wavenumber" d = false ->
    exists d', det2wn d = Ok d' /\
      dget "wavenumber" d' = (match dget "wavelength" d with Some (VArr w) => Some (VArr (rev (map wl2wn w))) | _ => None end) /\
      dget "response" d' = option_map rev_resp (dget "response" d) /\
      (forall k, k <> "wavenumber" -> k <> "response" -> dget k d' = None).
  Proof.
    intros Ht Hn. unfold det2wn. rewrite Hn.
    destruct (det_fold d Ht (dkeys d) [] (incl_refl _)) as (d' & E & Hd).
    exists d'. split; [exact E|]. repeat split.
    - rewrite Hd, !existsb_keys. unfold dhas.
      destruct (dget "wavelength" d) as [[| |]|]; destruct (dget "response" d); reflexivity.
    - rewrite Hd, !existsb_keys. unfold dhas.
      destruct (dget "response" d); reflexivity.
    - intros k H1 H2. rewrite Hd. apply String.eqb_neq in H1, H2. rewrite H1, H2. reflexivity.
  Qed.

  Lemma mapM_keys {V W} (f : V -> res W) (d : dict V) r :
    mapM (fun kv => w <- f (snd kv) ;; Ok (fst kv, w)) d = Ok r ->
    dkeys r = dkeys d /\ forall k, match dget k d with
                                   | Some v => exists w, f v = Ok w /\ dget k r = Some w
                                   | None => dget k r = None end.
  Proof.
    revert r; induction d as [|[k v] d IH]; cbn [mapM]; intros r H.
    - injection H as <-. split; auto. intros k; reflexivity.
    - cbn [fst snd] in H. destruct (f v) as [w|] eqn:E; [|discriminate]. cbn [bind] in H.
      destruct (mapM _ d) as [r'|] eqn:Er; [|discriminate]. cbn [bind] in H. injection H as <-.
      destruct (IH _ eq_refl) as [H1 H2]. split.
      + cbn. f_equal. exact H1.
      + intros k'. cbn [dget]. destruct (String.eqb_spec k' k) as [->|Hne].
        * exists w. auto.
        * apply H2.
  Qed.

  Lemma mapM_ok_ex {A B} (f : A -> res B) l : (forall a, In a l -> exists b, f a = Ok b) -> exists r, mapM f l = Ok r.
  Proof.
    induction l as [|a l IH]; intros H; [eexists; reflexivity|].
    destruct (H a (or_introl eq_refl)) as [b E]. destruct IH as [r Er]; [intros; apply H; now right|].
    cbn [mapM]. rewrite E, Er. eexists; reflexivity.
  Qed.

  Lemma convert_typed (d : rsrdata N) : typed_data d ->
    exists d', convert2wavenumber d = Ok (d', ("cm-1", nlit N 100 1)) /\ dkeys d' = dkeys d /\
      forall b, match dget b d with
                | None => dget b d' = None
                | Some bd => exists bd', dget b d' = Some bd' /\ dkeys bd' = dkeys bd /\
                    forall k, match dget k bd with
                              | None => dget k bd' = None
                              | Some dd => exists dd', dget k bd' = Some dd' /\ det2wn dd = Ok dd'
                              end
                end.
  Proof.
    intros [Hnd Hall].
    assert (Hdet : forall dd : detector N, typed_det dd -> exists dd', det2wn dd = Ok dd').
    { intros dd Ht. destruct (dhas "wavenumber" dd) eqn:E.
      - unfold det2wn. rewrite E. eauto.
      - destruct (det2wn_get dd Ht E) as (d' & E' & _). eauto. }
    assert (Hband : forall bd : band N, NoDup (dkeys bd) -> Forall (fun dv => typed_det (snd dv)) bd ->
        exists bd', band2wavenumber bd = Ok bd' /\ dkeys bd' = dkeys bd /\
          forall k, match dget k bd with
                    | Some v => exists w, det2wn v = Ok w /\ dget k bd' = Some w
                    | None => dget k bd' = None end).
    { intros bd H1 H2. rewrite band2wn_eq by auto.
      destruct (mapM_ok_ex (fun kv : string * detector N => w <- det2wn (snd kv) ;; Ok (fst kv, w)) bd) as [r Er].
      { intros [k v] Hin. rewrite Forall_forall in H2. destruct (Hdet _ (H2 _ Hin)) as [w Ew]. cbn [snd] in *. rewrite Ew.
        eexists; reflexivity. }
      exists r. rewrite Er. destruct (mapM_keys _ _ _ Er) as [E1 E2]. auto. }
    rewrite convert_eq by auto.
    destruct (mapM_ok_ex (fun kv : string * band N => w <- band2wavenumber (snd kv) ;; Ok (fst kv, w)) d) as [r Er].
    { intros [k v] Hin. rewrite Forall_forall in Hall. destruct (Hall _ Hin) as [H1 H2]. cbn [snd] in *.
      destruct (Hband v H1 H2) as (w & Ew & _). rewrite Ew. eexists; reflexivity. }
    exists r. rewrite Er. cbn [bind]. destruct (mapM_keys _ _ _ Er) as [E1 E2]. repeat split; auto.
    intros b. specialize (E2 b). destruct (dget b d) as [bd|] eqn:Eb; auto.
    destruct E2 as (w & Ew & Hw). exists w. split; auto.
    apply dget_Some_in in Eb. rewrite Forall_forall in Hall. destruct (Hall _ Eb) as [H1 H2]. cbn [snd] in *.
    destruct (Hband bd H1 H2) as (w' & Ew' & Hk & Hg). rewrite Ew in Ew'. injection Ew' as <-.
    split; auto. intros k. specialize (Hg k). destruct (dget k bd); auto.
    destruct Hg as (x & Hx1 & Hx2). eauto.
  Qed.

  (** ** The in-place loops *)
  Lemma for_each_app {A} (l1 l2 : list A) (f : A -> stmt) s :
    for_each (N := N) (l1 ++ l2)%list f s = seq_ (for_each l1 f) (for_each l2 f) s.
  Proof.
    revert s; induction l1 as [|a l1 IH]; intros s; [reflexivity|].
    cbn [app]. change (for_each (a :: l1 ++ l2)%list f) with (seq_ (f a) (for_each (l1 ++ l2)%list f)).
    change (for_each (a :: l1) f) with (seq_ (f a) (for_each l1 f)).
    unfold seq_ at 1 2. unfold seq_ at 1. destruct (f a s) as [s' [[]|e]]; auto. apply IH.
  Qed.

  Lemma dset_app_here {V} k (v v' : V) pre suf : ~ In k (dkeys pre) ->
    dset k v' (pre ++ (k, v) :: suf)%list = (pre ++ (k, v') :: suf)%list.
  Proof.
    induction pre as [|[k2 v2] pre IH]; intros H; cbn [app dset].
    - now rewrite String.eqb_refl.
    - cbn in H. destruct (String.eqb_spec k k2) as [->|]; [tauto|]. f_equal. apply IH. tauto.
  Qed.
  Lemma dget_app_here {V} k (v : V) pre suf : ~ In k (dkeys pre) -> dget k (pre ++ (k, v) :: suf)%list = Some v.
  Proof.
    intros H. rewrite dget_app. replace (dget k pre) with (@None V) by (symmetry; now apply dget_None_notin).
    cbn. now rewrite String.eqb_refl.
  Qed.
  Lemma NoDup_app_notin {V} (pre : dict V) k v suf : NoDup (dkeys (pre ++ (k, v) :: suf)%list) -> ~ In k (dkeys pre).
  Proof.
    unfold dkeys. rewrite map_app. cbn. intros H Hin. apply NoDup_remove_2 in H. apply H. apply in_or_app. now left.
  Qed.

  Section Loop.
    Variable step : string * string -> stmt (N := N).
    Variable f : detector N -> detector N.
    Variable T : rsr_state N -> rsr_state N.
    Variable good : string -> string -> detector N -> Prop.
    Hypothesis Hstep : forall s b d bd dd, good b d dd -> dget b (rs_rsr s) = Some bd -> dget d bd = Some dd ->
      step (b, d) s = (T (with_rsr s (upd_det b d f (rs_rsr s))), Ok tt).
    Hypothesis HT1 : forall s, rs_rsr (T s) = rs_rsr s.
    Hypothesis HT2 : forall s x, with_rsr (T s) x = T (with_rsr s x).
    Hypothesis HT3 : forall s, T (T s) = T s.

    Definition Tn (l : list (string * string)) (s : rsr_state N) : rsr_state N :=
      match l with [] => s | _ => T s end.

    Lemma with_rsr_id (s : rsr_state N) : with_rsr s (rs_rsr s) = s.
    Proof. destruct s; reflexivity. Qed.
    Lemma with_rsr_twice (s : rsr_state N) x y : with_rsr (with_rsr s x) y = with_rsr s y.
    Proof. reflexivity. Qed.

    Lemma band_loop b pre suf : ~ In b (dkeys pre) -> forall dsuf dpre s,
      NoDup (dkeys (dpre ++ dsuf)%list) -> Forall (fun dv => good b (fst dv) (snd dv)) dsuf ->
      rs_rsr s = (pre ++ (b, dmap f dpre ++ dsuf) :: suf)%list ->
      for_each (map (fun d => (b, d)) (dkeys dsuf)) step s =
      (Tn (map (fun d => (b, d)) (dkeys dsuf)) (with_rsr s (pre ++ (b, dmap f (dpre ++ dsuf)) :: suf)%list), Ok tt).
    Proof.
      intros Hb. induction dsuf as [|[d dd] dsuf IH]; intros dpre s Hnd Hg Hs.
      - cbn [dkeys map for_each fold_right Tn]. unfold skip. rewrite !app_nil_r in *.
        rewrite <- Hs, with_rsr_id. reflexivity.
      - inversion Hg as [|? ? Hgd Hgs]; subst. cbn [fst snd] in Hgd.
        cbn [dkeys map fst]. change (for_each ((b, d) :: ?l) step) with (seq_ (step (b, d)) (for_each l step)).
        assert (Hd : ~ In d (dkeys (dmap f dpre))).
        { rewrite dkeys_dmap. eapply NoDup_app_notin; eauto. }
        assert (Hg1 : dget b (rs_rsr s) = Some (dmap f dpre ++ (d, dd) :: dsuf)%list)
          by (rewrite Hs; apply dget_app_here; auto).
        assert (Hg2 : dget d (dmap f dpre ++ (d, dd) :: dsuf)%list = Some dd) by (apply dget_app_here; auto).
        cbn [for_each fold_right]. unfold seq_ at 1.
        rewrite (Hstep s b d _ dd Hgd Hg1 Hg2).
        assert (Hu : upd_det b d f (rs_rsr s) = (pre ++ (b, dmap f (dpre ++ [(d, dd)]) ++ dsuf) :: suf)%list).
        { unfold upd_det. rewrite Hg1, Hg2, Hs. rewrite (dset_app_here d) by auto. rewrite (dset_app_here b) by auto.
          unfold dmap. rewrite map_app, <- app_assoc. reflexivity. }
        rewrite Hu.
        pose proof (IH (dpre ++ [(d, dd)])%list (T (with_rsr s (pre ++ (b, dmap f (dpre ++ [(d, dd)]) ++ dsuf) :: suf)%list))) as IH'.
        etransitivity; [apply IH'|].
        + rewrite <- app_assoc. exact Hnd.
        + exact Hgs.
        + rewrite HT1. reflexivity.
        + rewrite <- app_assoc. cbn [app]. rewrite HT2, with_rsr_twice. f_equal.
          cbn [Tn]. destruct (map _ _); cbn [Tn]; auto.
    Qed.

    Lemma data_loop : forall suf pre s,
      NoDup (dkeys (pre ++ suf)%list) ->
      Forall (fun bv => NoDup (dkeys (snd bv)) /\ Forall (fun dv => good (fst bv) (fst dv) (snd dv)) (snd bv)) suf ->
      rs_rsr s = (dmap (dmap f) pre ++ suf)%list ->
      for_each (pairs_of suf) step s = (Tn (pairs_of suf) (with_rsr s (dmap (dmap f) (pre ++ suf))%list), Ok tt).
    Proof.
      induction suf as [|[b bd] suf IH]; intros pre s Hnd Hg Hs.
      - cbn. unfold skip. rewrite !app_nil_r in *. rewrite <- Hs, with_rsr_id. reflexivity.
      - inversion Hg as [|? ? [Hn1 Hg1] Hgs]; subst. cbn [fst snd] in *.
        change (pairs_of ((b, bd) :: suf)) with (map (fun d => (b, d)) (dkeys bd) ++ pairs_of suf)%list.
        rewrite for_each_app. unfold seq_ at 1.
        assert (Hb : ~ In b (dkeys (dmap (dmap f) pre))).
        { rewrite dkeys_dmap. eapply NoDup_app_notin; eauto. }
        pose proof (band_loop b (dmap (dmap f) pre) suf Hb bd [] s Hn1 Hg1 Hs) as HB.
        cbn [app] in HB. rewrite HB.
        cbn beta iota.
        set (s1 := Tn _ _).
        assert (Hs1 : rs_rsr s1 = (dmap (dmap f) (pre ++ [(b, bd)]) ++ suf)%list).
        { subst s1. transitivity (dmap (dmap f) pre ++ (b, dmap f bd) :: suf)%list.
          - destruct (map _ _); cbn [Tn]; rewrite ?HT1; reflexivity.
          - unfold dmap. rewrite map_app, <- app_assoc. reflexivity. }
        rewrite (IH (pre ++ [(b, bd)])%list s1); auto; [|rewrite <- app_assoc; exact Hnd].
        rewrite <- app_assoc. cbn [app]. f_equal. subst s1.
        destruct (map (fun d => (b, d)) (dkeys bd)) as [|p l]; destruct (pairs_of suf) as [|q m]; cbn [Tn app];
          rewrite ?HT2, ?with_rsr_twice, ?HT3; reflexivity.
    Qed.
  End Loop.

  (** ** convert on data as the reader produces them *)
  Definition step1 (d : detector N) : detector N :=
    match d with
    | [("response", VArr r); ("wavelength", VArr w); ("central_wavelength", c)] =>
        [("response", VArr (rev r)); ("wavelength", VArr w); ("central_wavelength", c);
         ("wavenumber", VArr (rev (map wl2wn w)))]
    | _ => d
    end.
  Definition step2 (d : detector N) : detector N :=
    match d with
    | [("response", VArr r); ("wavelength", VArr w); ("central_wavelength", c); ("wavenumber", VArr wn)] =>
        match get_central_wave wn r (WScalar n1) with
        | Ok cw => [("response", VArr r); ("central_wavelength", c); ("wavenumber", VArr wn); ("central_wavenumber", VNum cw)]
        | Err _ => d
        end
    | _ => d
    end.

  Lemma central_total (wn r : list N) : length r = length wn -> exists cw, get_central_wave wn r (WScalar n1) = Ok cw.
  Proof.
    intros H. unfold get_central_wave, vmul. rewrite H, Nat.eqb_refl. cbn [bind wmul].
    unfold trapezoid. rewrite !map_length, combine_length, H, Nat.min_id, Nat.eqb_refl. cbn [bind].
    eexists; reflexivity.
  Qed.

  Lemma pairs_of_dmap {A : Type} (g : detector N -> detector N) (d : rsrdata N) :
    pairs_of (dmap (dmap g) d) = pairs_of d.
  Proof.
    unfold pairs_of. induction d as [|[b bd] d IH]; [reflexivity|].
    change (dmap (dmap g) ((b, bd) :: d)) with ((b, dmap g bd) :: dmap (dmap g) d).
    cbn [flat_map fst snd]. rewrite dkeys_dmap. f_equal. exact IH.
  Qed.

  Lemma det_of_ok s b d bd dd : dget b (rs_rsr s) = Some bd -> dget d bd = Some dd ->
    det_of (N := N) b d s = Ok dd.
  Proof. intros H1 H2. unfold det_of, RSRDict_getitem. rewrite H1. cbn [bind]. rewrite H2. reflexivity. Qed.

  Lemma upd_get b d f (data : rsrdata N) bd dd : dget b data = Some bd -> dget d bd = Some dd ->
    dget b (upd_det b d f data) = Some (dset d (f dd) bd) /\ dget d (dset d (f dd) bd) = Some (f dd).
  Proof. intros H1 H2. unfold upd_det. rewrite H1, H2, !dget_dset_same. auto. Qed.

  Lemma dset_twice {V} k (x y : V) d : dset k x (dset k y d) = dset k x d.
  Proof.
    induction d as [|[k' v] d IH]; cbn [dset].
    - now rewrite String.eqb_refl.
    - destruct (String.eqb k k') eqn:E; cbn [dset]; rewrite E; congruence.
  Qed.

  Lemma upd_upd b d f g (data : rsrdata N) bd dd : dget b data = Some bd -> dget d bd = Some dd ->
    upd_det b d g (upd_det b d f data) = upd_det b d (fun x => g (f x)) data.
  Proof.
    intros H1 H2. unfold upd_det. rewrite H1, H2, !dget_dset_same, !dset_twice. reflexivity.
  Qed.

  Lemma upd_ext b d f g (data : rsrdata N) bd dd : dget b data = Some bd -> dget d bd = Some dd -> f dd = g dd ->
    upd_det b d f data = upd_det b d g data.
  Proof. intros H1 H2 H. unfold upd_det. rewrite H1, H2, H. reflexivity. Qed.

  Lemma set_item_ok b d key v (s : rsr_state N) bd dd : dget b (rs_rsr s) = Some bd -> dget d bd = Some dd ->
    set_item b d key v s = (with_rsr s (upd_det b d (dset key v) (rs_rsr s)), Ok tt).
  Proof. intros H1 H2. unfold set_item, lift. rewrite (det_of_ok s b d bd dd) by auto. reflexivity. Qed.

  Lemma loop1_step (data0 : rsrdata N) u x (s : rsr_state N) b d bd dd bd0 :
    dget b data0 = Some bd0 -> dget d bd0 = Some dd -> reader_det dd ->
    dget b (rs_rsr s) = Some bd -> dget d bd = Some dd ->
    convert_loop1 (dmap (dmap reader_det2wn) data0) u x (b, d) s =
    (with_unit (with_rsr s (upd_det b d step1 (rs_rsr s))) u x, Ok tt).
  Proof.
    intros H1 H2 (r & w & c & ->) H3 H4.
    assert (P : forall key, plain_item (dmap (dmap reader_det2wn) data0) b d key =
      of_option KeyError (dget key [("response", VArr (rev r)); ("wavenumber", VArr (rev (map wl2wn w)))])).
    { intros key. unfold plain_item. rewrite dget_dmap, H1. cbn [option_map of_option bind].
      rewrite dget_dmap, H2. reflexivity. }
    unfold convert_loop1. unfold seq_, lift. rewrite !P. cbn [dget String.eqb Ascii.eqb Bool.eqb of_option WAVE_NUMBER].
    set (v1 := VArr (rev (map wl2wn w))). set (v2 := VArr (rev r)).
    rewrite (set_item_ok b d _ _ s bd _ H3 H4).
    destruct (upd_get b d (dset WAVE_NUMBER v1) (rs_rsr s) bd _ H3 H4) as [E1 E2].
    rewrite (set_item_ok b d _ _ (with_rsr s (upd_det b d (dset WAVE_NUMBER v1) (rs_rsr s))) _ _ E1 E2).
    cbn [rs_rsr with_rsr].
    rewrite (upd_upd _ _ _ _ _ _ _ H3 H4). f_equal. f_equal.
    rewrite with_rsr_twice. f_equal. eapply upd_ext; eauto.
  Qed.

  Lemma loop2_step (s : rsr_state N) b d bd dd : dget b (rs_rsr s) = Some bd -> dget d bd = Some dd ->
    (exists dd0, reader_det dd0 /\ same_length dd0 /\ dd = step1 dd0) ->
    convert_loop2 (b, d) s = (with_rsr s (upd_det b d step2 (rs_rsr s)), Ok tt).
  Proof.
    intros H1 H2 (dd0 & (r & w & c & ->) & Hl & ->).
    specialize (Hl r w eq_refl eq_refl).
    cbn [step1] in *. destruct (central_total (rev (map wl2wn w)) (rev r)) as [cw Ec].
    { rewrite !rev_length, map_length. exact Hl. }
    unfold convert_loop2. unfold seq_, lift. rewrite (det_of_ok s b d _ _ H1 H2).
    cbn [bind]. unfold get_arr, WAVE_NUMBER. cbn [dget String.eqb Ascii.eqb Bool.eqb bind].
    rewrite Ec. rewrite (set_item_ok b d _ _ s bd _ H1 H2).
    destruct (upd_get b d (dset "central_wavenumber" (VNum cw)) (rs_rsr s) bd _ H1 H2) as [E1 E2].
    unfold del_item, lift.
    rewrite (det_of_ok (with_rsr s (upd_det b d (dset "central_wavenumber" (VNum cw)) (rs_rsr s))) b d _ _ E1 E2).
    unfold dhas. cbn [dset dget String.eqb Ascii.eqb Bool.eqb WAVE_LENGTH].
    cbn [rs_rsr with_rsr]. rewrite (upd_upd _ _ _ _ _ _ _ H1 H2). f_equal. rewrite with_rsr_twice. f_equal.
    eapply upd_ext; eauto. cbn [step2]. rewrite Ec. reflexivity.
  Qed.

  Lemma convert_ok (s : rsr_state N) : rs_wavespace s = WAVE_LENGTH -> reader_shaped (rs_rsr s) ->
    all_dets same_length (rs_rsr s) ->
    exists s', convert s = (s', Ok tt) /\
      rs_wavespace s' = WAVE_NUMBER /\ rs_instrument s' = rs_instrument s /\
      rs_rsr s' = dmap (dmap (fun d => step2 (step1 d))) (rs_rsr s) /\
      (rs_unit s' = match pairs_of (rs_rsr s) with [] => rs_unit s | _ => "cm-1" end) /\
      (rs_si_scale s' = match pairs_of (rs_rsr s) with [] => rs_si_scale s | _ => nlit N 100 1 end).
  Proof.
    intros Hw Hr Hl. unfold convert. rewrite Hw, String.eqb_refl. rewrite (convert_reader _ Hr).
    rewrite (pairs_of_dmap (A := unit)).
    set (data := rs_rsr s) in *.
    set (u := "cm-1"). set (x := nlit N 100 1).
    destruct Hr as [Hnd Hsh].
    assert (L1 : for_each (pairs_of data) (convert_loop1 (dmap (dmap reader_det2wn) data) u x) s =
                 (Tn (fun s => with_unit s u x) (pairs_of data) (with_rsr s (dmap (dmap step1) data)), Ok tt)).
    { apply (data_loop _ step1 (fun s => with_unit s u x)
               (fun b d dd => reader_det dd /\ exists bd0, dget b data = Some bd0 /\ dget d bd0 = Some dd)) with (pre := []).
      - intros s0 b d bd dd (Hrd & bd0 & E0 & E1) H1 H2. eapply loop1_step; eauto.
      - reflexivity.
      - reflexivity.
      - reflexivity.
      - exact Hnd.
      - apply Forall_forall. intros [b bd] Hin. rewrite Forall_forall in Hsh. destruct (Hsh _ Hin) as [Hn Hd]. cbn [fst snd] in *.
        split; auto. apply Forall_forall. intros [d dd] Hin2. rewrite Forall_forall in Hd. cbn [fst snd]. split; [apply (Hd _ Hin2)|].
        exists bd. split; [apply dget_in_nodup; auto|apply dget_in_nodup; auto].
      - reflexivity. }
    unfold seq_ at 1. rewrite L1. unfold seq_ at 1.
    set (s1 := Tn _ _ _).
    assert (Hs1 : rs_rsr (with_wavespace s1 WAVE_NUMBER) = dmap (dmap step1) data).
    { subst s1. destruct (pairs_of data); reflexivity. }
    assert (L2 : for_each (pairs_of data) convert_loop2 (with_wavespace s1 WAVE_NUMBER) =
                 (with_rsr (with_wavespace s1 WAVE_NUMBER) (dmap (dmap step2) (dmap (dmap step1) data)), Ok tt)).
    { rewrite <- (pairs_of_dmap (A := unit) step1 data).
      pose proof (data_loop convert_loop2 step2 (fun s => s)
               (fun b d dd => exists dd0, reader_det dd0 /\ same_length dd0 /\ dd = step1 dd0)) as DL.
      etransitivity; [apply DL with (pre := [])|].
      - intros s0 b d bd dd Hg H1 H2. eapply loop2_step; eauto.
      - reflexivity.
      - reflexivity.
      - reflexivity.
      - cbn [app]. rewrite dkeys_dmap. exact Hnd.
      - unfold dmap at 2. apply Forall_map. apply Forall_forall. intros [b bd] Hin. rewrite Forall_forall in Hsh.
        destruct (Hsh _ Hin) as [Hn Hd]. cbn [fst snd] in *.
        change (map (fun kv => (fst kv, step1 (snd kv))) bd) with (dmap step1 bd). rewrite dkeys_dmap. split; auto.
        unfold dmap. apply Forall_map. apply Forall_forall. intros [d dd] Hin2. cbn [fst snd].
        rewrite Forall_forall in Hd. exists dd. repeat split; [apply (Hd _ Hin2)|].
        unfold all_dets in Hl. rewrite Forall_forall in Hl. specialize (Hl _ Hin). cbn [snd] in Hl.
        rewrite Forall_forall in Hl. apply (Hl _ Hin2).
      - exact Hs1.
      - f_equal. unfold Tn. destruct (pairs_of (dmap (dmap step1) data)); reflexivity. }
    rewrite L2. eexists. split; [reflexivity|]. repeat split.
    - subst s1. destruct (pairs_of data); reflexivity.
    - cbn [rs_rsr with_rsr]. unfold dmap. rewrite map_map. apply map_ext. intros [b bd]. cbn [fst snd]. f_equal.
      rewrite map_map. apply map_ext. intros [d dd]. reflexivity.
    - subst s1. destruct (pairs_of data); reflexivity.
    - subst s1. destruct (pairs_of data); reflexivity.
  Qed.

  (** a response given as a dictionary of arrays is reversed entry by entry *)
  Lemma rev_resp_dict (m : dict (list N)) : exists m', rev_resp (VDict m) = VDict m' /\
    forall nm, dget nm m' = option_map (@rev N) (dget nm m).
  Proof.
    eexists. split; [reflexivity|]. intros nm.
    assert (G : forall l acc, incl l (dkeys m) ->
      dget nm (fold_left (fun a k => match dget k m with Some r => dset k (rev r) a | None => a end) l acc) =
      if existsb (String.eqb nm) l then option_map (@rev N) (dget nm m) else dget nm acc).
    { induction l as [|k l IH]; intros acc Hi; [reflexivity|]. cbn [fold_left existsb].
      rewrite IH by (intros x Hx; apply Hi; now right).
      destruct (existsb (String.eqb nm) l); [now rewrite orb_true_r|]. rewrite orb_false_r.
      destruct (dget k m) as [r|] eqn:E.
      - rewrite dget_dset. destruct (String.eqb_spec nm k) as [->|]; auto. now rewrite E.
      - exfalso. apply dget_None_notin in E. apply E. apply Hi. now left. }
    rewrite G by apply incl_refl. rewrite existsb_keys. unfold dhas. destruct (dget nm m); reflexivity.
  Qed.

  Lemma convert_again (s : rsr_state N) : rs_wavespace s <> WAVE_LENGTH -> convert s = (s, Err NotImplementedError).
  Proof.
    intros H. unfold convert. apply String.eqb_neq in H. now rewrite H.
  Qed.
  (** after conversion no detector has wavelengths any more *)
  Lemma step2_no_wavelength (d : detector N) : reader_det d -> same_length d -> dget "wavelength" (step2 (step1 d)) = None.
  Proof.
    intros (r & w & c & ->) Hl. specialize (Hl r w eq_refl eq_refl). cbn [step1 step2].
    destruct (central_total (rev (map wl2wn w)) (rev r)) as [cw Ec].
    { rewrite !rev_length, map_length. exact Hl. }
    rewrite Ec. reflexivity.
  Qed.

  Lemma integral_no_wavelength (s : rsr_state N) b bd :
    dget b (rs_rsr s) = Some bd -> bd <> [] ->
    Forall (fun dv => dget "wavelength" (snd dv) = None) bd -> integral s b = Err KeyError.
  Proof.
    intros H Hne Hf. unfold integral, RSRDict_getitem. rewrite H. cbn [bind].
    destruct bd as [|[d dd] bd]; [congruence|]. inversion Hf as [|? ? Hd _]; subst. cbn [snd] in Hd.
    cbn [dkeys map fst fold_left bind dget]. rewrite String.eqb_refl. cbn [of_option bind]. unfold get_arr.
    rewrite Hd. cbn [bind].
    match goal with |- fold_left ?g ?l _ = _ => 
      assert (Hb : forall e l0, fold_left g l0 (Err e) = Err e) end.
    { intros e l0; induction l0; simpl; auto. }
    apply Hb.
  Qed.
End Gen.
