(** Lemmas on checking and downloading LUTs (C42). *)
From Coq Require Import String Ascii List Bool.
From Verif Require Import Base M_Tables M_Utils M_World M_Config M_Download S_Names S_Download P_Strings P_Events P_Config P_Download P_Crash P_Lut.
Import ListNotations.
Local Open Scope string_scope.

(** ** paths *)
Lemma noslash_inj a : forall b n m, has_char "/" a = false -> has_char "/" b = false ->
  a ++ "/" ++ n = b ++ "/" ++ m -> a = b.
Proof.
  induction a as [|c a IH]; intros b n m Ha Hb H.
  - destruct b as [|d b]; [reflexivity|]. cbn in H. injection H as <- _. cbn in Hb. discriminate.
  - destruct b as [|d b]; cbn in H.
    + injection H as -> _. cbn in Ha. discriminate.
    + injection H as -> H. cbn in Ha, Hb. apply orb_false_iff in Ha, Hb. f_equal. eapply IH; [apply Ha|apply Hb|exact H].
Qed.
Lemma lut_path_inj d t t' n m : has_char "/" t = false -> has_char "/" t' = false ->
  join (join d t) n = join (join d t') m -> t = t'.
Proof.
  intros Ht Ht' H. unfold join in H. rewrite !sapp_assoc in H. apply sapp_inj in H. cbn in H. injection H as H.
  exact (noslash_inj t t' n m Ht Ht' H).
Qed.
Lemma has_char_app c a b : has_char c (a ++ b) = has_char c a || has_char c b.
Proof. induction a as [|x a IH]; [reflexivity|]. cbn. rewrite IH. apply orb_assoc. Qed.
Lemma lut_dir_path d t t' n : has_char "/" t = false -> join (join d t') n <> join d t.
Proof.
  intros Ht H. unfold join in H. rewrite !sapp_assoc in H. apply sapp_inj in H. cbn in H. injection H as H.
  rewrite <- H, has_char_app in Ht. cbn in Ht. rewrite orb_true_r in Ht. discriminate.
Qed.

(** ** which types are needed *)
Lemma needed_at_conf x w c rsr ray types : conf x w c rsr ray -> fst (needed_types x types w) = w.
Proof.
  intros Hc. induction types as [|t types IH]; [reflexivity|]. cbn [needed_types]. unfold iobind at 1.
  pose proof (base_init x w w c rsr ray t "us-standard" (conf_get_config _ _ _ _ _ Hc) Hc) as B.
  change (negb (dhas "us-standard" ATMOSPHERES)) with false in B. cbv iota in B.
  destruct (negb (existsb_str t AEROSOL_TYPES)).
  - now rewrite B.
  - destruct B as (v & f & _ & _ & ->). destruct (bind _ _); [|reflexivity]. unfold iobind, ret.
    destruct (needed_types x types w) as [w2 [l|e]]; exact IH.
Qed.

Lemma needed_first x w w1 c types : get_config x None w = (w1, Ok c) -> types <> [] -> needed_types x types w = needed_types x types w1.
Proof.
  intros Hg Hne. destruct types as [|t types]; [contradiction|]. cbn [needed_types]. unfold iobind at 1 3.
  destruct (get_config_conf _ _ _ _ Hg) as (rsr & ray & Hc & _).
  pose proof (base_init x w w1 c rsr ray t "us-standard" Hg Hc) as B.
  pose proof (base_init x w1 w1 c rsr ray t "us-standard" (conf_get_config _ _ _ _ _ Hc) Hc) as B'.
  change (negb (dhas "us-standard" ATMOSPHERES)) with false in B, B'. cbv iota in B, B'.
  destruct (negb (existsb_str t AEROSOL_TYPES)); [now rewrite B, B'|].
  destruct B as (v & f & A & _ & ->). destruct B' as (v' & f' & A' & _ & ->). rewrite A in A'. injection A' as <- <-. reflexivity.
Qed.

Lemma needed_list x w c rsr ray : conf x w c rsr ray -> forall types,
  Forall (fun t => In t AEROSOL_TYPES /\ lut_readable ray t w) types ->
  exists l, needed_types x types w = (w, Ok l) /\ outdated ray w types l.
Proof.
  intros Hc. induction types as [|t types IH]; intros H; [exists []; split; [reflexivity|constructor]|].
  inversion H as [|? ? [Ht Hr] H']; subst. destruct (IH H') as (l & El & Ol). cbn [needed_types]. unfold iobind.
  destruct (base_supported x w w c rsr ray t "us-standard" 9 (conf_get_config _ _ _ _ _ Hc) Hc eq_refl Ht) as (Hb & He & _).
  apply He in Hr. destruct Hr as [b Eb]. destruct (Hb b Eb) as (_ & Hup & _). rewrite Eb, El. unfold ret.
  eexists. split; [reflexivity|]. destruct (rb_uptodate b) eqn:E.
  - apply od_drop; [now apply Hup|exact Ol].
  - apply od_keep; [|exact Ol]. intros C. apply Hup in C. discriminate.
Qed.

Lemma needed_fails x w c rsr ray types : conf x w c rsr ray ->
  Exists (fun t => ~ (In t AEROSOL_TYPES /\ lut_readable ray t w)) types -> exists e, needed_types x types w = (w, Err e).
Proof.
  intros Hc. induction types as [|t types IH]; intros H; [inversion H|]. cbn [needed_types]. unfold iobind at 1.
  destruct (in_dec string_dec t AEROSOL_TYPES) as [Ht|Ht].
  - destruct (base_supported x w w c rsr ray t "us-standard" 9 (conf_get_config _ _ _ _ _ Hc) Hc eq_refl Ht) as (_ & He & Hw).
    destruct (ray_base_init x t "us-standard" w) as [w2 [b|e]] eqn:Eb; cbn [fst] in Hw; subst w2; [|eauto].
    inversion H as [? ? Hx|? ? Hx]; subst.
    + exfalso. apply Hx. split; [exact Ht|]. apply He. eauto.
    + destruct (IH Hx) as [e Ee]. unfold iobind. rewrite Ee. eauto.
  - rewrite (unsupported x t "us-standard" w w c (conf_get_config _ _ _ _ _ Hc) (or_intror Ht)). eauto.
Qed.

Lemma outdated_types d w types l : outdated d w types l -> forall t, In t l -> In t types /\ ~ lut_current d t w.
Proof.
  induction 1 as [|t0 l l' Hn H IH|t0 l l' Hn H IH]; intros t Hi; [destruct Hi| |].
  - destruct Hi as [<-|Hi]; [split; [now left|exact Hn]|]. destruct (IH t Hi). split; [now right|auto].
  - destruct (IH t Hi). split; [now right|auto].
Qed.
Lemma outdated_rest d w types l : outdated d w types l -> forall t, In t types -> lut_current d t w \/ In t l.
Proof.
  induction 1 as [|t0 l l' Hn H IH|t0 l l' Hn H IH]; intros t Hi; [destruct Hi| |].
  - destruct Hi as [<-|Hi]; [right; now left|]. destruct (IH t Hi); [auto|right; now right].
  - destruct Hi as [<-|Hi]; [auto|auto].
Qed.
Lemma all_current d w types : (forall t, In t types -> lut_current d t w) -> outdated d w types [].
Proof. induction types as [|t types IH]; intros H; [constructor|]. apply od_drop; [apply H; now left|apply IH; intros; apply H; now right]. Qed.

(** ** one download *)
Section One.
  Variables (x : extern) (c : dict cfg) (rsr ray : string) (members : string -> list (string * string)).
  Hypothesis Hs : forall t, In t AEROSOL_TYPES -> serves x (lut_url t) (members t).

  Lemma one_step w t w' o : conf x w c rsr ray -> In t AEROSOL_TYPES ->
    ~ written_by (join ray t) lut_tarball (members t) (config_path x w) ->
    download_lut x false t w = (w', o) ->
    conf x w' c rsr ray /\ config_path x w' = config_path x w /\
    (w_requests w' = lut_url t :: w_requests w \/ w_requests w' = w_requests w /\ exists e, o = Err e) /\
    (forall t' v f, In t' AEROSOL_TYPES -> dget t' ATM_CORRECTION_LUT_VERSION = Some (v, f) ->
        is_dir w' (join (join ray t') f) = is_dir w (join (join ray t') f)) /\
    (forall t', In t' AEROSOL_TYPES -> t' <> t -> lut_current ray t' w -> lut_current ray t' w') /\
    (o = Ok tt -> forall v f text, dget t ATM_CORRECTION_LUT_VERSION = Some (v, f) -> is_dir w (join (join ray t) f) = false ->
        dget f (rev (members t)) = Some text -> utf8_valid text = true -> version_line text v -> lut_current ray t w').
  Proof.
    intros Hc Ht Hw H.
    destruct (download_lut_step _ _ _ _ _ _ _ _ Hc Ht H) as [(R & -> & e & ->)|(w1 & M & F)].
    { repeat split; auto; try discriminate. right. eauto. }
    destruct (makedirs_ok _ _ _ _ M) as (_ & Me & Mf & Mr & _). destruct (makedirs_dir _ _ _ _ M) as [_ Md].
    destruct (fetch_frame _ _ _ _ _ _ _ F) as (Fr & Fe & Fd).
    assert (K : forall p, ~ written_by (join ray t) lut_tarball (members t) p -> dget p (w_files w') = dget p (w_files w)).
    { intros p Hp. rewrite <- Mf. eapply fetch_keeps; eauto. }
    destruct (type_facts t Ht) as (v0 & f0 & T1 & _ & _ & T2 & _ & T3).
    assert (Dn : forall p, p <> join ray t -> is_dir w' p = is_dir w p).
    { intros p Hp. assert (is_dir w' p = is_dir w1 p) as -> by (unfold is_dir; now rewrite Fd).
      destruct Md as [[-> _]|[-> _]]; [reflexivity|]. rewrite is_dir_cons. destruct (String.eqb_spec p (join ray t)); [contradiction|reflexivity]. }
    assert (Ecp : config_path x w' = config_path x w) by (unfold config_path; now rewrite Fe, Me).
    assert (Dv : forall t' v f, In t' AEROSOL_TYPES -> dget t' ATM_CORRECTION_LUT_VERSION = Some (v, f) ->
        is_dir w' (join (join ray t') f) = is_dir w (join (join ray t') f)) by (intros; apply Dn, lut_dir_path, T2).
    split; [|split; [exact Ecp|split; [left; now rewrite Fr, Mr|split; [exact Dv|split]]]].
    - pose proof Hc as (tx & Et & Ed & _ & _ & _ & D1 & D2). eapply conf_stable; [exact Hc|now rewrite Fe, Me|now apply K| |].
      + intros d Hd. destruct (String.eqb_spec d (join ray t)) as [->|Hn]; [|now rewrite Dn].
        assert (is_dir w' (join ray t) = is_dir w1 (join ray t)) as -> by (unfold is_dir; now rewrite Fd).
        now destruct (makedirs_dir _ _ _ _ M) as [? _].
      + destruct (String.eqb_spec (config_path x w) (join ray t)) as [E|Hn]; [|now rewrite Dn].
        assert (is_dir w' (config_path x w) = is_dir w1 (config_path x w)) as -> by (unfold is_dir; now rewrite Fd).
        destruct Md as [[-> _]|[-> Hnf]]; [exact Ed|]. exfalso. rewrite <- E in Hnf. unfold is_file, dhas in Hnf. now rewrite Et in Hnf.
    - intros t' Ht' Hn (v & f & A & S). exists v, f. split; [exact A|]. eapply says_same; [| |exact S].
      + apply K. destruct (type_facts t' Ht') as (_ & _ & _ & _ & _ & T2' & _).
        intros [E|(n & _ & E)]; apply (lut_path_inj ray t' t) in E; auto.
      + eapply Dv; eauto.
    - intros -> v f text A Nd Hm Hu Hl. exists v, f. split; [exact A|]. exists text. rewrite (Dv _ _ _ Ht A).
      split; [exact Nd|]. split; [|auto]. rewrite T1 in A. injection A as <- <-.
      destruct (fetch_success _ _ _ _ _ _ F) as (r & ms & En & Ho & He & Eu & _ & Hmm & _).
      pose proof (Hs t Ht _ _ En Ho He) as Hx. rewrite Eu in Hx. subst ms. apply Hmm; auto.
  Qed.

  Lemma loop cfgp : forall l w w' o, conf x w c rsr ray -> config_path x w = cfgp ->
    (forall t, In t l -> In t AEROSOL_TYPES /\ ~ written_by (join ray t) lut_tarball (members t) cfgp) ->
    (forall t v f, In t AEROSOL_TYPES -> In t l -> dget t ATM_CORRECTION_LUT_VERSION = Some (v, f) -> is_dir w (join (join ray t) f) = false) ->
    for_each (download_lut x false) l w = (w', o) ->
    conf x w' c rsr ray /\ config_path x w' = cfgp /\
    (exists k, w_requests w' = (rev (map lut_url (firstn k l)) ++ w_requests w)%list /\ (o = Ok tt -> firstn k l = l)) /\
    (forall t, In t AEROSOL_TYPES -> ~ In t l -> lut_current ray t w -> lut_current ray t w') /\
    (o = Ok tt -> forall t, In t l -> has_version members t -> lut_current ray t w').
  Proof.
    induction l as [|t l IH]; intros w w' o Hc Hp Hl Hnd H.
    - injection H as <- <-. split; [exact Hc|]. split; [exact Hp|]. split; [exists 0; auto|]. split; [auto|contradiction].
    - cbn [for_each] in H. unfold iobind in H. destruct (download_lut x false t w) as [w1 o1] eqn:E1.
      destruct (Hl t (or_introl eq_refl)) as [Ht Hw]. rewrite <- Hp in Hw.
      destruct (one_step w t w1 o1 Hc Ht Hw E1) as (Hc1 & Hp1 & Hr & Hd & Hk & Hv).
      destruct o1 as [[]|e].
      + destruct (IH w1 w' o Hc1 (eq_trans Hp1 Hp)) as (Hc2 & Hp2 & (k & Hr2 & Hall) & Hk2 & Hv2); auto.
        { intros t' Hi. apply Hl. now right. }
        { intros t' v f Ht' Hi A. rewrite (Hd _ _ _ Ht' A). eapply Hnd; eauto. now right. }
        split; [exact Hc2|]. split; [exact Hp2|]. split; [|split].
        * exists (S k). destruct Hr as [Hr|(_ & e & Hr)]; [|discriminate]. cbn. rewrite Hr2, Hr, <- app_assoc. split; [reflexivity|].
          intros Ho. now rewrite Hall.
        * intros t' Ht' Hn Hcur. apply Hk2; auto; [intros Hi; apply Hn; now right|]. apply Hk; auto. intros ->. apply Hn. now left.
        * intros Ho t' Hi Hh. destruct (in_dec string_dec t' l) as [Hi'|Hi']; [now apply Hv2|].
          destruct Hi as [<-|Hi]; [|contradiction]. apply Hk2; auto. destruct Hh as (v & f & text & A & B & C & D).
          eapply Hv; eauto. eapply Hnd; eauto. now left.
      + injection H as <- <-. split; [exact Hc1|]. split; [congruence|]. split; [|split; [|discriminate]].
        * destruct Hr as [Hr|(Hr & _)]; [exists 1|exists 0]; cbn; (split; [exact Hr|discriminate]).
        * intros t' Ht' Hn. apply Hk; auto. intros ->. apply Hn. now left.
  Qed.
End One.

Lemma asked_nonempty a : asked a <> [].
Proof. destruct a as [[|t l]|]; discriminate. Qed.

Lemma lut_check : forall x w w1 c ray a members,
  get_config x None w = (w1, Ok c) -> path_option "rayleigh_dir" c = Ok ray ->
  (forall t, In t (asked a) -> In t AEROSOL_TYPES) -> (forall t, In t (asked a) -> lut_readable ray t w1) ->
  (forall t, In t AEROSOL_TYPES -> serves x (lut_url t) (members t)) ->
  (forall t, In t (asked a) -> ~ written_by (join ray t) lut_tarball (members t) (config_path x w)) ->
  forall w' o, ray_check_and_download x false a w = (w', o) ->
  exists l k, outdated ray w1 (asked a) l /\
    w_requests w' = (rev (map lut_url (firstn k l)) ++ w_requests w)%list /\ (o = Ok tt -> firstn k l = l) /\
    (o = Ok tt -> (forall t, In t l -> has_version members t) ->
       forall dry, ray_check_and_download x dry a w' = (w', Ok tt)).
Proof.
  intros x w w1 c ray a members Hg Hp Ht Hr Hs Hw w' o H.
  destruct (get_config_conf _ _ _ _ Hg) as (rsr & ray' & Hc & He & _ & Hrq & _). destruct (conf_dirs _ _ _ _ _ Hc) as [_ Ep].
  rewrite Ep in Hp. injection Hp as ->.
  assert (Hall : Forall (fun t => In t AEROSOL_TYPES /\ lut_readable ray t w1) (asked a)) by (apply Forall_forall; auto).
  destruct (needed_list x w1 c rsr ray Hc _ Hall) as (l & El & Ol). exists l.
  unfold ray_check_and_download, iobind in H. fold (asked a) in H. rewrite (needed_first _ _ _ _ _ Hg (asked_nonempty a)), El in H.
  assert (Hcp : config_path x w1 = config_path x w) by (unfold config_path; now rewrite He).
  assert (Loop : for_each (download_lut x false) l w1 = (w', o)).
  { destruct l; [exact H|]. exact H. }
  destruct (loop x c rsr ray members Hs (config_path x w) l w1 w' o Hc Hcp) as (Hc' & _ & (k & Hk & Hfull) & Hkeep & Hnew); auto.
  { intros t Hi. destruct (outdated_types _ _ _ _ Ol t Hi) as [Ha _]. split; [auto|]. now apply Hw. }
  { intros t v f _ Hi A. destruct (outdated_types _ _ _ _ Ol t Hi) as [Ha _]. exact (proj1 (Hr t Ha v f A)). }
  exists k. split; [exact Ol|]. split; [now rewrite Hk, Hrq|]. split; [exact Hfull|].
  intros Ho Hver dry. assert (Cur : forall t, In t (asked a) -> lut_current ray t w').
  { intros t Hi. destruct (in_dec string_dec t l) as [Hl|Hl]; [now apply Hnew; auto|].
    destruct (outdated_rest _ _ _ _ Ol t Hi) as [Hcur|]; [|contradiction]. apply Hkeep; auto. }
  assert (Hall' : Forall (fun t => In t AEROSOL_TYPES /\ lut_readable ray t w') (asked a)).
  { apply Forall_forall. intros t Hi. split; [auto|]. intros v f A. destruct (Cur t Hi) as (v' & f' & A' & (tx & B1 & B2 & B3 & _)).
    rewrite A in A'. injection A' as <- <-. split; [exact B1|]. intros t' E. rewrite B2 in E. now injection E as <-. }
  destruct (needed_list x w' c rsr ray Hc' _ Hall') as (l2 & El2 & Ol2).
  unfold ray_check_and_download, iobind. fold (asked a). rewrite El2. destruct l2 as [|t2 l2]; [reflexivity|].
  exfalso. destruct (outdated_types _ _ _ _ Ol2 t2 (or_introl eq_refl)) as [Hi Hn]. apply Hn. auto.
Qed.

Lemma lut_check_dry : forall x w w1 c ray a,
  get_config x None w = (w1, Ok c) -> path_option "rayleigh_dir" c = Ok ray ->
  (forall t, In t (asked a) -> In t AEROSOL_TYPES) -> (forall t, In t (asked a) -> lut_readable ray t w1) ->
  ray_check_and_download x true a w = (w1, Ok tt) /\ w_requests w1 = w_requests w /\ w_files w1 = w_files w.
Proof.
  intros x w w1 c ray a Hg Hp Ht Hr.
  destruct (get_config_conf _ _ _ _ Hg) as (rsr & ray' & Hc & He & Hfi & Hrq & _). destruct (conf_dirs _ _ _ _ _ Hc) as [_ Ep].
  rewrite Ep in Hp. injection Hp as ->.
  assert (Hall : Forall (fun t => In t AEROSOL_TYPES /\ lut_readable ray t w1) (asked a)) by (apply Forall_forall; auto).
  destruct (needed_list x w1 c rsr ray Hc _ Hall) as (l & El & Ol).
  unfold ray_check_and_download, iobind. fold (asked a). rewrite (needed_first _ _ _ _ _ Hg (asked_nonempty a)), El.
  split; [|auto]. assert (Hl : forall t, In t l -> In t AEROSOL_TYPES) by (intros t Hi; apply Ht; now apply (outdated_types _ _ _ _ Ol)).
  destruct l as [|t0 l0]; [reflexivity|]. unfold download_luts. cbn [get_aerosol_types]. revert Hl. generalize (t0 :: l0). clear El Ol.
  induction l as [|t l IH]; intros Hl; [reflexivity|]. cbn [for_each]. unfold iobind.
  rewrite (download_lut_dry _ _ _ _ _ _ Hc (Hl t (or_introl eq_refl))). apply IH. intros. apply Hl. now right.
Qed.

Lemma lut_check_bad : forall x w w1 c ray a dry,
  get_config x None w = (w1, Ok c) -> path_option "rayleigh_dir" c = Ok ray ->
  (exists t, In t (asked a) /\ (~ In t AEROSOL_TYPES \/ ~ lut_readable ray t w1)) ->
  exists e, ray_check_and_download x dry a w = (w1, Err e) /\ w_requests w1 = w_requests w /\ w_files w1 = w_files w.
Proof.
  intros x w w1 c ray a dry Hg Hp (t & Hi & Hbad).
  destruct (get_config_conf _ _ _ _ Hg) as (rsr & ray' & Hc & He & Hfi & Hrq & _). destruct (conf_dirs _ _ _ _ _ Hc) as [_ Ep].
  rewrite Ep in Hp. injection Hp as ->.
  destruct (needed_fails x w1 c rsr ray (asked a) Hc) as [e Ee]. { apply Exists_exists. exists t. split; [exact Hi|tauto]. }
  exists e. unfold ray_check_and_download, iobind. fold (asked a). rewrite (needed_first _ _ _ _ _ Hg (asked_nonempty a)), Ee. auto.
Qed.

(** ** C62 *)
Lemma aerosol_selection : forall many one dry x w,
  download_luts x many dry one w =
    for_each (download_lut x dry)
      (match one with
       | Some (AOne s) => [s]
       | Some (AMany l) => l
       | None => match many with Some l => l | None => AEROSOL_TYPES end
       end) w.
Proof. intros many [[s|l]|] dry x w; [reflexivity|reflexivity|destruct many; reflexivity]. Qed.

(** ** The option *)
Lemma download_enabled_iff c : download_enabled c = true <-> wants_downloads c.
Proof.
  unfold download_enabled, wants_downloads. destruct (dget "download_from_internet" c) as [v|].
  - assert (K : truthy v = true <-> ~ In v [Leaf LNull; Leaf (LBool false); Leaf (LInt 0); Leaf (LStr ""); Leaf (LSeq []); CMap []]).
    { destruct v as [[s|[]|[|n]| |[|a l]]|[|a m]]; cbn [truthy In Nat.eqb negb];
        try (split; [intros _; intuition discriminate|reflexivity]); try (split; [discriminate|intros H; exfalso; apply H; tauto]).
      destruct (String.eqb_spec s "") as [->|H]; cbn [negb]; split; try discriminate; try reflexivity; intros K; try (exfalso; apply K; tauto).
      intuition congruence. }
    rewrite K. split; [eauto|]. intros (v' & [= <-] & H). exact H.
  - split; [discriminate|]. intros (v & H & _). discriminate.
Qed.
Lemma rsr_setting : forall x w w1 c db, get_config x None w = (w1, Ok c) -> snd (rsr_db_init x w) = Ok db ->
  (db_download db = true <-> wants_downloads c).
Proof.
  intros x w w1 c db Hc H. unfold rsr_db_init, iobind in H. rewrite Hc in H. unfold lift in H.
  destruct (path_option "rsr_dir" c); [|discriminate H]. cbn in H. injection H as <-. cbn [db_download]. apply download_enabled_iff.
Qed.
Lemma ray_setting : forall x t atm w w1 c b, get_config x None w = (w1, Ok c) -> snd (ray_base_init x t atm w) = Ok b ->
  (rb_download b = true <-> wants_downloads c).
Proof.
  intros x t atm w w1 c b Hc H. unfold ray_base_init, iobind in H. rewrite Hc in H. unfold lift in H.
  destruct (negb _); [discriminate H|]. destruct (negb _); [discriminate H|].
  destruct (dget t ATM_CORRECTION_LUT_VERSION) as [[v f]|].
  - destruct (get_lutfiles_version x t f w1) as [w2 [u|]]; [|discriminate H]. cbn in H. injection H as <-. cbn [rb_download]. apply download_enabled_iff.
  - cbn in H. injection H as <-. cbn [rb_download]. apply download_enabled_iff.
Qed.
