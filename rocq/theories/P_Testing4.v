(** Lemmas on mocks of outdated data (C69). *)
From Coq Require Import String Ascii List Bool.
From Verif Require Import Base M_Tables M_Utils M_World M_Config M_Download S_Names S_Config S_Download M_Testing S_Testing
  P_Strings P_Events P_Config P_Download P_Crash P_Lut P_Lut2 P_Testing P_Testing2 P_Testing3.
Import ListNotations.
Local Open Scope string_scope.

Lemma tree_back_inv x T o c rsr ray : reads_back x T o -> tree_of x (t_dump T o) = Ok (c, rsr, ray) ->
  expanduser x (dir_option x "rsr_dir" o) = Ok rsr /\ expanduser x (dir_option x "rayleigh_dir" o) = Ok ray /\
  forall k, k <> "rsr_dir" -> k <> "rayleigh_dir" -> dget k c = dget k o.
Proof.
  intros Hrb Tr. destruct (dir_option x "rsr_dir" o) as [[]|] eqn:E1; destruct (dir_option x "rayleigh_dir" o) as [[]|] eqn:E2;
    try (destruct (tree_back x T o _ _ Hrb E1 E2) as (c' & Tr' & Hk); rewrite Tr' in Tr; injection Tr as <- <- <-; auto; fail);
    exfalso; destruct Hrb as (mm & Ey & Wf & Eq); unfold tree_of in Tr; rewrite Ey in Tr; cbn [bind] in Tr;
    change (recursive_dict_update (CMap mm) (CMap [])) with (upd (CMap mm) (CMap [])) in Tr; rewrite upd_empty in Tr by exact Wf; cbn [bind] in Tr; cbv zeta in Tr;
    unfold dir_option in E1, E2; rewrite (Eq "rsr_dir"), E1 in Tr; cbn [expanduser bind] in Tr; try discriminate;
    rewrite dget_dset_other in Tr by discriminate; rewrite (Eq "rayleigh_dir"), E2 in Tr; cbn [expanduser bind] in Tr; discriminate.
Qed.
Lemma download_back x T o c rsr ray : reads_back x T o -> tree_of x (t_dump T o) = Ok (c, rsr, ray) -> download_enabled c = download_enabled o.
Proof. intros Hrb Tr. destruct (tree_back_inv _ _ _ _ _ _ Hrb Tr) as (_ & _ & H). unfold download_enabled. rewrite H by discriminate. reflexivity. Qed.

(** the configuration found by the body *)
Lemma config_in_body x T o f v w1 c : reads_back x T o -> dget f (w_files v) = Some (t_dump T o) -> config_path x v = f ->
  get_config x None v = (w1, Ok c) ->
  exists rsr ray, conf x w1 c rsr ray /\ expanduser x (dir_option x "rsr_dir" o) = Ok rsr /\ expanduser x (dir_option x "rayleigh_dir" o) = Ok ray /\
    download_enabled c = download_enabled o /\ w_files w1 = w_files v /\ w_requests w1 = w_requests v /\
    (forall d, is_dir v d = true -> is_dir w1 d = true).
Proof.
  intros Hrb Hf Hp Hg. destruct (get_config_conf _ _ _ _ Hg) as (rsr & ray & Hc & He & Hfi & Hr & Hm & _). exists rsr, ray.
  split; [exact Hc|]. destruct Hc as (text & Et & _ & Tr & _).
  assert (Ep : config_path x w1 = f) by (unfold config_path in *; now rewrite He). rewrite Ep, Hfi, Hf in Et. injection Et as <-.
  destruct (tree_back_inv _ _ _ _ _ _ Hrb Tr) as (A & B & _). pose proof (download_back _ _ _ _ _ _ Hrb Tr). auto 8.
Qed.

(** a constructor whose table is outdated *)
Lemma stale_ray_init x p s t atm n v w1 c ray : get_config x None v = (w1, Ok c) -> path_option "rayleigh_dir" c = Ok ray ->
  dget atm ATMOSPHERES = Some n -> In t AEROSOL_TYPES -> (forall l, dget p INSTRUMENTS = Some (IList l) -> In s l) ->
  download_enabled c = true -> ~ lut_current ray t w1 -> w_requests w1 = w_requests v ->
  let r := ray_init x p s t atm v in
  w_requests (fst r) = lut_url t :: w_requests v \/ (exists e, snd r = Err e) /\ w_requests (fst r) = w_requests v.
Proof.
  intros Hg Hp Ha Ht Hs Hd Hn Hq. cbv zeta.
  destruct (get_config_conf _ _ _ _ Hg) as (rsr & ray' & Hc & _). destruct (conf_dirs _ _ _ _ _ Hc) as [_ Ep].
  rewrite Ep in Hp. injection Hp as ->.
  destruct (base_supported x v w1 c rsr ray t atm n Hg Hc Ha Ht) as (Hb & He & Hw).
  destruct (ray_base_init x t atm v) as [w2 [b|e]] eqn:Eb; cbn [fst] in Hw; subst w2.
  2:{ right. unfold ray_init, iobind. rewrite Eb. cbn [fst snd]. split; [eauto|exact Hq]. }
  destruct (Hb b eq_refl) as (B1 & B2 & B3). assert (Hr : lut_readable ray t w1) by (apply He; eauto).
  destruct (rb_uptodate b) eqn:Eu; [exfalso; apply Hn, B2; reflexivity|].
  destruct (makedirs x (join ray t) w1) as [w2 [[]|e]] eqn:M.
  - destruct (ray_init x p s t atm v) as [w' o] eqn:Er.
    destruct (ray_init_requests x p s t atm n v w1 c ray Hg Ep Ha Ht Hr _ _ Er) as [_ R]. destruct (R Hs) as (_ & R2 & _).
    destruct (R2 Hn Hd w2 M) as (_ & R3 & _). now left.
  - right.
    assert (Dl : exists er, download_luts x (Some [t]) false None w1 = (w1, Err er)).
    { unfold download_luts. cbn [get_aerosol_types for_each]. unfold iobind at 1. destruct (download_lut x false t w1) as [w3 o3] eqn:Ed.
      destruct (download_lut_step x w1 c rsr ray t w3 o3 Hc Ht Ed) as [(_ & -> & er & ->)|(w4 & M' & _)]; [eauto|congruence]. }
    destruct Dl as [er Dl].
    assert (Sn : exists s', normalize_sensor p s = Ok s').
    { rewrite sensor_rule. destruct (dget p INSTRUMENTS) as [[i|l]|]; eauto. specialize (Hs l eq_refl). apply existsb_In in Hs. rewrite Hs. eauto. }
    destruct Sn as [s' Sn].
    assert (Er : ray_init x p s t atm v = (w1, Err er)).
    { unfold ray_init. unfold iobind at 1. rewrite Eb. rewrite Sn. unfold iobind at 1, lift. unfold iobind at 1.
      rewrite (lut_dir_eq _ _ _ _ _ _ Hc). cbv zeta. rewrite Eu, B1, Hd. cbn [negb andb]. unfold iobind. now rewrite Dl. }
    rewrite Er. cbn [fst snd]. split; [eauto|exact Hq].
Qed.

Lemma unwanted_luts x T ray e atms v0 v p : wanted e = false -> make_luts x T ray e None atms v0 = (v, Ok tt) ->
  p <> join ray BASE_RAYLEIGH_LUT_FILENAME -> dget p (w_files v) = dget p (w_files v0) /\ (is_dir v0 p = true -> is_dir v p = true).
Proof.
  intros He H Hp. split; [|apply (calm_luts x T ray e None atms _ _ _ H)].
  unfold make_luts in H. cbv zeta in H. rewrite He in H. unfold iobind in H.
  destruct (makedirs x ray v0) as [v1 [[]|]] eqn:M; [|discriminate]. destruct (makedirs_ok _ _ _ _ M) as (_ & _ & F & _).
  unfold put in H. destruct (is_dir v1 _); [discriminate|]. unfold ret in H. injection H as <-.
  destruct (write_facts (join ray BASE_RAYLEIGH_LUT_FILENAME) (t_fake_lut T) v1) as (_ & _ & _ & _ & E). rewrite E by exact Hp. now rewrite F.
Qed.

Lemma stale_luts_request : forall x T o ray e atms p s t atm n w,
  reads_back x T o -> dget "rayleigh_dir" o = Some (Leaf (LStr ray)) -> x_expanduser x ray = ray -> download_enabled o = true ->
  temp_elsewhere T w ray -> dget atm ATMOSPHERES = Some n -> In t AEROSOL_TYPES ->
  (forall l, dget p INSTRUMENTS = Some (IList l) -> In s l) -> stale e ray t w ->
  let r := override_config T (Some o) None (fun _ => mock_rayleigh_luts x T ray e None atms (ray_init x p s t atm)) w in
  w_requests (fst r) = lut_url t :: w_requests w \/ (exists err, snd r = Err err) /\ w_requests (fst r) = w_requests w.
Proof.
  intros x T o ray e atms p s t atm n w Hrb Hro He Hd Ht Ha Hi Hs Hst. cbv zeta.
  change (fun _ : string => mock_rayleigh_luts x T ray e None atms (ray_init x p s t atm)) with
    (fun _ : string => _ <~ make_luts x T ray e None atms ;; ray_init x p s t atm).
  assert (Cm : calm (fun p => exists q, p = join ray q) (make_luts x T ray e None atms)).
  { eapply calm_weaken; [|apply calm_luts]. intros q [->|(_ & t' & v' & f' & _ & _ & ->)]; [eauto|].
    exists (t' ++ "/" ++ f'). unfold join. now rewrite !sapp_assoc. }
  destruct (override_setup ray_obj x T o _ (make_luts x T ray e None atms) (ray_init x p s t atm) w Cm)
    as [(er & L & Lr)|(f & v0 & v & Fo & D1 & D2 & (d & Md & Ef) & E & Hp & Hf & Hdf & Hq & Hr & Ho)].
  { intros d Hmd [q Hqq]. exact (Ht d Hmd q Hqq). }
  { right. eauto. }
  set (r := override_config T (Some o) None _ w) in *. clearbody r.
  destruct (type_facts t Hi) as (vt & ft & At & _ & _ & Nt & Nf & _).
  assert (Hnf : join (join ray t) ft <> f).
  { intros Eq. apply (Ht d Md (t ++ "/" ++ ft)). rewrite <- Ef, <- Eq. unfold join. now rewrite !sapp_assoc. }
  assert (Hnb : join (join ray t) ft <> join ray BASE_RAYLEIGH_LUT_FILENAME) by (apply lut_dir_path; reflexivity).
  assert (Hout : forall er, snd (ray_init x p s t atm v) = Err er -> exists er', snd r = Err er').
  { intros er Er. destruct Ho as [[-> _]| ->]; eauto. }
  rewrite Hr. destruct (get_config x None v) as [w1 [c|er]] eqn:Hg.
  2:{ right. assert (Er : ray_init x p s t atm v = (w1, Err er)).
      { unfold ray_init, iobind at 1, ray_base_init, iobind at 1. now rewrite Hg. }
      split; [apply (Hout er); now rewrite Er|]. rewrite Er. cbn [fst]. pose proof (quiet_config x None v) as [Q _]. rewrite Hg in Q. now rewrite <- Hq. }
  destruct (config_in_body x T o f v w1 c Hrb Hf Hp Hg) as (rsr & ray' & Hc & _ & Er' & Hd' & Fi & Rq & Dm).
  unfold dir_option in Er'. rewrite Hro in Er'. cbn [expanduser] in Er'. rewrite He in Er'. injection Er' as <-.
  assert (Hn : ~ lut_current ray t w1).
  { intros (v' & f' & A' & text & S1 & S2 & S3 & S4). rewrite At in A'. injection A' as <- <-. rewrite Fi in S2.
    assert (Sv : is_dir v (join (join ray t) ft) = false).
    { destruct (is_dir v (join (join ray t) ft)) eqn:Ed; [apply Dm in Ed; congruence|reflexivity]. }
    assert (Hold : wanted e = false -> lut_current ray t w).
    { intros Hw. exists vt, ft. split; [exact At|]. exists text. destruct (unwanted_luts x T ray e atms v0 v _ Hw E Hnb) as [U1 U2].
      rewrite U1, Fo in S2 by exact Hnf. repeat split; auto. destruct (is_dir w (join (join ray t) ft)) eqn:Ed; [|reflexivity].
      apply D1, U2 in Ed. congruence. }
    destruct e as [| |vs]; cbn [stale wanted] in *; [contradiction|auto|]. destruct Hst as [[-> Hst]|[Hne Hst]]; [auto|].
    destruct (luts_made _ _ _ _ _ _ _ _ E) as (_ & _ & Hl). destruct (Hl ltac:(cbn; now apply negb_true_iff, String.eqb_neq) t Hi) as (v3 & f3 & A3 & _ & C3).
    rewrite At in A3. injection A3 as <- <-. rewrite C3 in S2. cbn [lut_content] in S2. injection S2 as <-. exact (Hst vt ft At S4). }
  destruct (conf_dirs _ _ _ _ _ Hc) as [_ Ep]. rewrite Hd in Hd'.
  destruct (stale_ray_init x p s t atm n v w1 c ray Hg Ep Ha Hi Hs Hd' Hn Rq) as [R|[[er R] R2]].
  - left. now rewrite R, Hq.
  - right. split; [exact (Hout er R)|]. now rewrite R2.
Qed.

(** ** outdated responses *)
Lemma stale_rsr_request : forall x T rsr version w,
  let o := [("rsr_dir", Leaf (LStr rsr)); ("download_from_internet", Leaf (LBool true))] in
  reads_back x T o -> x_expanduser x rsr = rsr -> temp_elsewhere T w rsr ->
  match version with
  | None => ~ says (join rsr RSR_DATA_VERSION_FILENAME) RSR_DATA_VERSION w
  | Some s => ~ version_line s RSR_DATA_VERSION
  end ->
  let r := mock_rsr x T rsr version true (rsr_check_and_download x None false) w in
  w_requests (fst r) = HTTP_PYSPECTRAL_RSR :: w_requests w \/ (exists err, snd r = Err err) /\ w_requests (fst r) = w_requests w.
Proof.
  intros x T rsr version w o Hrb He Ht Hst. cbv zeta.
  assert (Em : mock_rsr x T rsr version true (rsr_check_and_download x None false) w =
     override_config T (Some o) None (fun _ => _ <~ rsr_files x rsr version ;; rsr_check_and_download x None false) w) by reflexivity.
  rewrite Em. clear Em.
  assert (Cm : calm (fun p => exists q, p = join rsr q) (rsr_files x rsr version)).
  { eapply calm_weaken; [|apply calm_rsr_files]. intros p ->. eauto. }
  destruct (override_setup unit x T o _ (rsr_files x rsr version) (rsr_check_and_download x None false) w Cm)
    as [(er & L & Lr)|(f & v0 & v & Fo & D1 & D2 & (d & Md & Ef) & E & Hp & Hf & Hdf & Hq & Hr & Ho)].
  { intros d Hmd [q Hqq]. exact (Ht d Hmd q Hqq). }
  { right. eauto. }
  set (r := override_config T (Some o) None _ w) in *. clearbody r.
  assert (Hout : forall er, snd (rsr_check_and_download x None false v) = Err er -> exists er', snd r = Err er').
  { intros er Er. destruct Ho as [[-> _]| ->]; eauto. }
  rewrite Hr. destruct (get_config x None v) as [w1 [c|er]] eqn:Hg.
  2:{ right. assert (Er : rsr_check_and_download x None false v = (w1, Err er)).
      { unfold rsr_check_and_download, iobind at 1, rsr_db_init, iobind at 1. now rewrite Hg. }
      split; [apply (Hout er); now rewrite Er|]. rewrite Er. cbn [fst]. pose proof (quiet_config x None v) as [Q _]. rewrite Hg in Q. now rewrite <- Hq. }
  destruct (config_in_body x T o f v w1 c Hrb Hf Hp Hg) as (rsr' & ray & Hc & Er' & _ & Hd' & Fi & Rq & Dm).
  cbn [expanduser dir_option o dget String.eqb] in Er'. change (expanduser x (dir_option x "rsr_dir" o)) with (Ok (x_expanduser x rsr)) in Er'.
  rewrite He in Er'. injection Er' as <-. change (download_enabled o) with true in Hd'.
  assert (Hnf : join rsr RSR_DATA_VERSION_FILENAME <> f) by (intros Eq; apply (Ht d Md RSR_DATA_VERSION_FILENAME); congruence).
  assert (Hn : ~ says (join rsr RSR_DATA_VERSION_FILENAME) RSR_DATA_VERSION w1).
  { intros (text & S1 & S2 & S3 & S4). rewrite Fi in S2. destruct version as [vs|].
    - destruct (rsr_made _ _ _ _ _ E) as (_ & _ & _ & G). rewrite G in S2. injection S2 as <-. contradiction.
    - unfold rsr_files, ret in E. injection E as <-. apply Hst. exists text. rewrite Fo in S2 by exact Hnf. repeat split; auto.
      destruct (is_dir w (join rsr RSR_DATA_VERSION_FILENAME)) eqn:Ed; [|reflexivity]. apply D1, Dm in Ed. congruence. }
  pose proof (db_init_cases x v) as Db. rewrite Hg in Db. destruct Db as (rsr2 & ray2 & Hc2 & Db).
  destruct (conf_fun _ _ _ _ _ _ _ _ _ Hc Hc2 eq_refl eq_refl) as (_ & -> & ->).
  set (db := {| db_dir := x_expanduser x rsr; db_download := download_enabled c |}) in *.
  assert (Ec : rsr_check_and_download x None false v = (_ <~ download_rsr_updates x db None false ;; ret tt) w1).
  { unfold rsr_check_and_download, iobind at 1. now rewrite Db. }
  rewrite Ec in Hout |- *. unfold iobind in *. destruct (download_rsr_updates x db None false w1) as [w2 o2] eqn:Eu.
  destruct (updates_requests x db None false w1 w2 o2 Eu) as [U1 U2]. cbn [db_dir db_download db] in U2. rewrite He in U2.
  pose proof (updates_cases x db None false w1) as Uc. cbv zeta in Uc. destruct (rsr_uptodate db w1) as [[]|er] eqn:Ud.
  - exfalso. apply uptodate_true in Ud. unfold vpath in Ud. cbn [db_dir db] in Ud. rewrite He in Ud. contradiction.
  - left. apply uptodate_false in Ud. unfold vpath in Ud. cbn [db_dir db] in Ud. rewrite He in Ud.
    assert (E2 : w_requests w2 = HTTP_PYSPECTRAL_RSR :: w_requests w1).
    { apply U2. repeat split; try apply Ud. 1: exact Hd'. exists c. now rewrite (conf_get_config _ _ _ _ _ Hc). }
    destruct o2; cbn [fst ret]; rewrite E2, Rq, Hq; reflexivity.
  - right. rewrite Eu in Uc. injection Uc as -> ->. cbn [fst snd] in *. split; [eauto|]. now rewrite Rq, Hq.
Qed.
