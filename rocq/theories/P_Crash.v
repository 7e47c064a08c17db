(** Lemmas on interrupted downloads (C46). *)
From Coq Require Import String Ascii List Bool.
From Verif Require Import Base M_Tables M_Utils M_World M_Config M_Download S_Download P_Strings P_Events P_Config P_Download.
Import ListNotations.
Local Open Scope string_scope.

Lemma existsb_In d l : existsb_str d l = true <-> In d l.
Proof.
  unfold existsb_str. rewrite existsb_exists. split.
  - intros (y & Hy & E). apply String.eqb_eq in E. now subst.
  - intros H. exists d. split; [exact H|apply String.eqb_refl].
Qed.

Section Hist.
  Variables (x : extern) (env0 : dict string) (f text0 : string) (c : dict cfg) (rsr ray : string)
            (front : list (string * string)) (vtext : string).
  Let members := (front ++ [(RSR_DATA_VERSION_FILENAME, vtext)])%list.
  Let V := join rsr RSR_DATA_VERSION_FILENAME.
  Hypothesis Hf : f = match dget "PSP_CONFIG_FILE" env0 with Some f => f | None => x_builtin_config x end.
  Hypothesis Htree : tree_of x text0 = Ok (c, rsr, ray).
  Hypothesis Hexp : x_expanduser x rsr = rsr.
  Hypothesis Hsrv : serves x HTTP_PYSPECTRAL_RSR members.
  Hypothesis Hcfg : ~ written_by rsr rsr_tarball members f.
  Hypothesis Hv : ~ In RSR_DATA_VERSION_FILENAME (map fst front).
  Hypothesis Ht : ~ In rsr_tarball (map fst front).

  Definition consistent (w : world) : Prop := says V RSR_DATA_VERSION w -> extracted rsr front w.
  Definition Inv (w : world) : Prop := w_env w = env0 /\ dget f (w_files w) = Some text0 /\ consistent w.

  Lemma inv_path w : Inv w -> config_path x w = f.
  Proof. intros (E & _). unfold config_path. now rewrite E, Hf. Qed.

  (** worlds differing in directories and requests only *)
  Lemma inv_dirs w w' : Inv w -> w_env w' = w_env w -> w_files w' = w_files w ->
    (forall d, is_dir w d = true -> is_dir w' d = true) -> Inv w'.
  Proof.
    intros (E & T & C) He Hfi Hd. split; [congruence|]. split; [now rewrite Hfi|].
    intros (t & Nd & G & U & L). assert (says V RSR_DATA_VERSION w) as S.
    { exists t. rewrite <- Hfi. repeat split; auto. destruct (is_dir w V) eqn:Ed; [apply Hd in Ed; congruence|reflexivity]. }
    intros n s Hn. rewrite Hfi. exact (C S n s Hn).
  Qed.

  Lemma inv_get_config w w1 o : Inv w -> get_config x None w = (w1, o) -> Inv w1.
  Proof.
    intros H Hg. pose proof (get_config_frame x None w) as (A & B & _). rewrite Hg in A, B. cbn [fst] in *.
    destruct o as [c'|e].
    - destruct (get_config_conf _ _ _ _ Hg) as (r & y & _ & _ & _ & _ & Hd & _). eapply inv_dirs; eauto.
    - eapply inv_dirs; [exact H|exact A|exact B|]. intros d Hd. unfold get_config in Hg.
      destruct (bind _ _) as [[[c' r] y]|]; [|now injection Hg as <- _].
      destruct (makedirs x r w) as [w2 [[]|e2]] eqn:M1.
      + destruct (makedirs_dir _ _ _ _ M1) as [_ C1]. assert (D2 : is_dir w2 d = true).
        { destruct C1 as [[-> _]|[-> _]]; [exact Hd|]. rewrite is_dir_cons, Hd. apply orb_true_r. }
        destruct (makedirs x y w2) as [w3 [[]|e3]] eqn:M2; [discriminate|].
        apply makedirs_err in M2. injection Hg as <- _. now subst.
      + apply makedirs_err in M1. injection Hg as <- _. now subst.
  Qed.

  Lemma inv_conf w w1 c' : Inv w -> get_config x None w = (w1, Ok c') ->
    c' = c /\ conf x w1 c rsr ray.
  Proof.
    intros H Hg. pose proof (inv_get_config _ _ _ H Hg) as H1.
    destruct (get_config_conf _ _ _ _ Hg) as (r & y & Hc & He & Hfi & _).
    pose proof Hc as (text & Et & _ & Tr & _). rewrite (inv_path _ H1) in Et.
    destruct H1 as (_ & T & _). rewrite T in Et. injection Et as <-. rewrite Htree in Tr. injection Tr as <- <- <-. auto.
  Qed.

  (** interrupted anywhere *)
  Lemma inv_cut w ch l : Inv w -> ~ says V RSR_DATA_VERSION w ->
    cut (full_trace rsr rsr_tarball ch members) l -> Inv (run_evs l (log_request HTTP_PYSPECTRAL_RSR w)).
  Proof.
    intros H Hs Hc. set (w0 := log_request HTTP_PYSPECTRAL_RSR w).
    assert (Hfe : Forall file_ev l) by (eapply cut_file_ev; [exact Hc|apply full_trace_file_ev]).
    destruct (run_frame l w0) as (E & _ & D). specialize (D Hfe).
    destruct H as (He & T & _). split; [rewrite E; exact He|]. split.
    { rewrite run_other; [exact T|]. eapply cut_avoids; [exact Hc|]. now apply full_trace_avoids. }
    intros S. unfold full_trace, members in Hc. rewrite member_events_app in Hc.
    rewrite <- app_assoc in Hc. rewrite app_assoc in Hc.
    apply cut_app in Hc. destruct Hc as [Hc|(b & -> & Hb)].
    - exfalso. apply Hs. eapply says_same; [| |exact S].
      + symmetry. change (dget V (w_files w)) with (dget V (w_files w0)). apply run_other. eapply cut_avoids; [exact Hc|].
        apply Forall_app. split; [apply write_avoids|apply member_avoids].
        * unfold V. intros E'. apply join_inj in E'. vm_compute in E'. discriminate.
        * unfold V. intros n Hn E'. apply join_inj in E'. subst n. contradiction.
      + symmetry. unfold is_dir. rewrite D. reflexivity.
    - intros n s Hn. rewrite run_app.
      assert (Hin : In n (map fst front)).
      { apply dget_Some_in in Hn. apply in_rev in Hn. apply (in_map fst) in Hn. exact Hn. }
      rewrite run_other.
      + rewrite run_app. now apply member_text.
      + eapply cut_avoids; [exact Hb|]. cbn. repeat constructor; cbn.
        * intros [= E']. apply join_inj in E'. subst n. contradiction.
        * intros [= E']. apply join_inj in E'. subst n. contradiction.
        * intros [= E']. apply join_inj in E'. subst n. contradiction.
  Qed.

  Lemma inv_fetch w w' o : Inv w -> ~ says V RSR_DATA_VERSION w -> fetch x HTTP_PYSPECTRAL_RSR rsr_tarball rsr w = (w', o) -> Inv w'.
  Proof.
    intros H Hs Hft. unfold fetch in Hft. destruct (x_net x (w_requests w) HTTP_PYSPECTRAL_RSR) as [r|] eqn:En.
    - destruct (transfer_events _ _ _ _ _) as [l o'] eqn:Et. injection Hft as <- <-.
      destruct (transfer_cut _ _ _ _ _ _ _ _ _ _ Hsrv En Et) as [Hc _]. eapply inv_cut; eauto.
    - injection Hft as <- <-. exact (inv_cut w [] [] H Hs (cut_stop _)).
  Qed.

  Let db := {| db_dir := x_expanduser x rsr; db_download := download_enabled c |}.
  Lemma vpath_db : vpath db = V. Proof. unfold vpath, db, V. cbn. now rewrite Hexp. Qed.

  Lemma inv_updates w w' dry o : Inv w -> download_rsr_updates x db None dry w = (w', o) -> Inv w'.
  Proof.
    intros H Hu. pose proof (updates_cases x db None dry w) as C. cbv zeta in C. rewrite Hu in C.
    destruct (rsr_uptodate db w) as [[]|e] eqn:U; [injection C as -> _; exact H| |injection C as -> _; exact H].
    apply uptodate_false in U. rewrite vpath_db in U. destruct U as [_ U].
    destruct (db_download db); [|injection C as -> _; exact H].
    destruct (get_config x None w) as [w1 [c'|e]] eqn:Ec.
    - pose proof (inv_get_config _ _ _ H Ec) as H1. destruct (inv_conf _ _ _ H Ec) as [-> Hc].
      destruct C as (d & Ed & C). destruct (conf_dirs _ _ _ _ _ Hc) as [Ep _]. rewrite Ep in Ed. injection Ed as <-.
      destruct dry; [injection C as -> _; exact H1|].
      destruct (fetch x HTTP_PYSPECTRAL_RSR rsr_tarball rsr w1) as [w2 o2] eqn:Ef. injection C as -> _.
      eapply inv_fetch; [exact H1| |exact Ef]. intros S. apply U.
      destruct (get_config_conf _ _ _ _ Ec) as (r & y & _ & _ & Hfi & _ & Hm & _).
      destruct S as (t & Nd & G & U8 & L). exists t. rewrite <- Hfi. repeat split; auto.
      destruct (is_dir w V) eqn:EdV; [apply Hm in EdV; congruence|reflexivity].
    - injection C as -> _. eapply inv_get_config; eauto.
  Qed.

  Lemma inv_db_init w w1 o : Inv w -> rsr_db_init x w = (w1, o) -> Inv w1 /\ (forall db', o = Ok db' -> db' = db /\ conf x w1 c rsr ray).
  Proof.
    intros H Hd. pose proof (db_init_cases x w) as D. destruct (get_config x None w) as [w2 [c'|e]] eqn:Ec.
    - destruct D as (r & y & Hc & D). rewrite D in Hd. injection Hd as -> <-.
      destruct (inv_conf _ _ _ H Ec) as [-> Hc']. destruct (conf_fun _ _ _ _ _ _ _ _ _ Hc Hc' eq_refl eq_refl) as (_ & <- & <-).
      split; [eapply inv_get_config; eauto|]. intros db' [= <-]. auto.
    - rewrite D in Hd. injection Hd as -> <-. split; [eapply inv_get_config; eauto|discriminate].
  Qed.

  Lemma inv_step w w' : Inv w -> rsr_step x w w' -> Inv w'.
  Proof.
    intros H S. destruct S.
    - unfold rsr_check_and_download, iobind. destruct (rsr_db_init x w) as [w1 o] eqn:Ed.
      destruct (inv_db_init _ _ _ H Ed) as [H1 Hdb]. destruct o as [db'|e]; [|exact H1].
      destruct (Hdb db' eq_refl) as [-> _]. destruct (download_rsr_updates x db None dry w1) as [w2 [b|e]] eqn:Eu; exact (inv_updates _ _ _ _ H1 Eu).
    - unfold rsr_init, iobind. destruct (rsr_db_init x w) as [w1 o] eqn:Ed.
      destruct (inv_db_init _ _ _ H Ed) as [H1 Hdb]. destruct o as [db'|e]; [|exact H1].
      destruct (Hdb db' eq_refl) as [-> _]. unfold lift. destruct (sanitize_inputs db f0 p i) as [[[path p'] i']|]; [|exact H1].
      assert (E : exists w2 o2, (match f0 with Some _ => ret false | None => download_rsr_updates x db None false end) w1 = (w2, o2) /\ Inv w2).
      { destruct f0; [exists w1, (Ok false); auto|]. destruct (download_rsr_updates x db None false w1) as [w2 o2] eqn:Eu.
        exists w2, o2. split; [reflexivity|]. exact (inv_updates _ _ _ _ H1 Eu). }
      destruct E as (w2 & o2 & -> & H2). destruct o2; [|exact H2]. unfold look.
      destruct (load_rsr_info load path w2) as [[[fp fi] data]|]; exact H2.
    - eapply inv_dirs; [exact H|reflexivity|reflexivity|]. intros d Hd. unfold is_dir. cbn. apply existsb_In. auto.
    - rename H0 into Hdi, H1 into Hup, H2 into Hdl, H3 into Hgc, H4 into Hpo, H5 into Hnet, H6 into Htr, H7 into Hcut.
      destruct (inv_db_init _ _ _ H Hdi) as [H1 Hdb]. destruct (Hdb _ eq_refl) as [-> _].
      pose proof (inv_get_config _ _ _ H1 Hgc) as H2. destruct (inv_conf _ _ _ H1 Hgc) as [-> Hc].
      destruct (conf_dirs _ _ _ _ _ Hc) as [Ep _]. rewrite Ep in Hpo. injection Hpo as <-.
      apply uptodate_false in Hup. rewrite vpath_db in Hup. destruct Hup as [_ U].
      destruct (transfer_cut _ _ _ _ _ _ _ _ _ _ Hsrv Hnet Htr) as [Hct _].
      eapply inv_cut; [exact H2| |eapply cut_trans; eauto].
      intros S. apply U. destruct (get_config_conf _ _ _ _ Hgc) as (r' & y & _ & _ & Hfi & _ & Hm & _).
      destruct S as (t & Nd & G & U8 & L). exists t. rewrite <- Hfi. repeat split; auto.
      destruct (is_dir w1 V) eqn:EdV; [apply Hm in EdV; congruence|reflexivity].
  Qed.

  Lemma inv_history w w' : Inv w -> rsr_history x w w' -> Inv w'.
  Proof. intros H S. induction S; [exact H|]. apply IHS. eapply inv_step; eauto. Qed.

  (** a later completed check *)
  Lemma inv_completes w w' : Inv w -> download_enabled c = true -> rsr_check_and_download x None false w = (w', Ok tt) ->
    utf8_valid vtext = true -> version_line vtext RSR_DATA_VERSION -> extracted rsr front w' /\ says V RSR_DATA_VERSION w'.
  Proof.
    intros H Hen Hck Hu8 Hvl. assert (Sd : settled x w').
    { eapply check_settles; [exact Hsrv| |exact Hu8|exact Hvl|exact Hck|].
      - unfold members. rewrite rev_app_distr. cbn. reflexivity.
      - intros c' Hc'. destruct (get_config x None w) as [w1 o] eqn:Eg. cbn in Hc'. subst o.
        destruct (inv_conf _ _ _ H Eg) as [-> Hcf]. split; [exact Hen|]. exists rsr.
        destruct (conf_dirs _ _ _ _ _ Hcf) as [Ep _]. rewrite (inv_path _ H). auto. }
    assert (H' : Inv w').
    { eapply inv_step; [exact H|]. pose proof (st_check x w false) as S. rewrite Hck in S. exact S. }
    destruct Sd as (c2 & r2 & y2 & Hcf & S).
    assert (Ec : get_config x None w' = (w', Ok c2)) by (eapply conf_get_config; eauto).
    destruct (inv_conf _ _ _ H' Ec) as [-> Hcf']. destruct (conf_fun _ _ _ _ _ _ _ _ _ Hcf' Hcf eq_refl eq_refl) as (_ & -> & ->).
    rewrite Hexp in S. split; [|exact S]. destruct H' as (_ & _ & Co). exact (Co S).
  Qed.
End Hist.

(** statements without the section's vocabulary *)
Lemma conf_of_result x w w1 c rsr : get_config x None w = (w1, Ok c) -> path_option "rsr_dir" c = Ok rsr ->
  exists text ray, dget (config_path x w) (w_files w) = Some text /\ tree_of x text = Ok (c, rsr, ray).
Proof.
  intros Hg Hp. destruct (get_config_conf _ _ _ _ Hg) as (r & y & Hc & He & Hfi & _).
  destruct (conf_dirs _ _ _ _ _ Hc) as [Ep _]. rewrite Ep in Hp. injection Hp as ->.
  destruct Hc as (text & Et & _ & Tr & _). exists text, y. split; [|exact Tr].
  assert (config_path x w1 = config_path x w) as <- by (unfold config_path; now rewrite He). now rewrite <- Hfi.
Qed.

Lemma version_last : forall x w0 w w1 c rsr front vtext,
  get_config x None w0 = (w1, Ok c) -> path_option "rsr_dir" c = Ok rsr -> x_expanduser x rsr = rsr ->
  serves x HTTP_PYSPECTRAL_RSR (front ++ [(RSR_DATA_VERSION_FILENAME, vtext)]) ->
  ~ written_by rsr rsr_tarball (front ++ [(RSR_DATA_VERSION_FILENAME, vtext)]) (config_path x w0) ->
  ~ In RSR_DATA_VERSION_FILENAME (map fst front) -> ~ In rsr_tarball (map fst front) ->
  (says (join rsr RSR_DATA_VERSION_FILENAME) RSR_DATA_VERSION w0 -> extracted rsr front w0) ->
  rsr_history x w0 w ->
  (says (join rsr RSR_DATA_VERSION_FILENAME) RSR_DATA_VERSION w -> extracted rsr front w) /\
  (forall w', download_enabled c = true -> utf8_valid vtext = true -> version_line vtext RSR_DATA_VERSION ->
     rsr_check_and_download x None false w = (w', Ok tt) ->
     extracted rsr front w' /\ says (join rsr RSR_DATA_VERSION_FILENAME) RSR_DATA_VERSION w').
Proof.
  intros x w0 w w1 c rsr front vtext Hg Hp Hx Hs Hw Hv Ht H0 Hh.
  destruct (conf_of_result _ _ _ _ _ Hg Hp) as (text & ray & Et & Tr).
  assert (I0 : Inv (w_env w0) (config_path x w0) text rsr front w0) by (repeat split; auto).
  assert (I : Inv (w_env w0) (config_path x w0) text rsr front w) by (eapply inv_history; eauto; reflexivity).
  split; [apply I|]. intros w' Hen Hu Hl Hck.
  eapply inv_completes; eauto; reflexivity.
Qed.

(** interrupted downloads touch nothing else *)
Lemma crash_frame : forall x url r tb dir w l o l' members reqs p, serves x url members -> x_net x reqs url = Ok r ->
  transfer_events x r tb dir w = (l, o) -> cut l l' -> ~ written_by dir tb members p ->
  dget p (w_files (run_evs l' w)) = dget p (w_files w) /\
  w_env (run_evs l' w) = w_env w /\ w_dirs (run_evs l' w) = w_dirs w /\ w_requests (run_evs l' w) = w_requests w.
Proof.
  intros x url r tb dir w l o l' members reqs p Hs Hn Ht Hc Hp.
  destruct (transfer_cut _ _ _ _ _ _ _ _ _ _ Hs Hn Ht) as [Hct _].
  assert (Hall : cut (full_trace dir tb (rs_chunks r) members) l') by (eapply cut_trans; eauto).
  destruct (run_frame l' w) as (A & B & C). split; [|split; [exact A|split; [|exact B]]].
  - apply run_other. eapply cut_avoids; [exact Hall|]. now apply full_trace_avoids.
  - apply C. eapply cut_file_ev; [exact Hall|apply full_trace_file_ev].
Qed.

(** version file too early *)
Lemma version_early : forall x w w1 c rsr w2 r a vtext n content b,
  get_config x None w = (w1, Ok c) -> path_option "rsr_dir" c = Ok rsr -> x_expanduser x rsr = rsr ->
  download_enabled c = true ->
  readable (join rsr RSR_DATA_VERSION_FILENAME) w1 -> ~ says (join rsr RSR_DATA_VERSION_FILENAME) RSR_DATA_VERSION w1 ->
  x_net x (w_requests w1) HTTP_PYSPECTRAL_RSR = Ok r ->
  fetch x HTTP_PYSPECTRAL_RSR rsr_tarball rsr w1 = (w2, Ok tt) ->
  x_untar x (String.concat "" (rs_chunks r)) = ((a ++ (RSR_DATA_VERSION_FILENAME, vtext) :: (n, content) :: b)%list, Ok tt) ->
  utf8_valid vtext = true -> version_line vtext RSR_DATA_VERSION ->
  ~ written_by rsr rsr_tarball (a ++ [(RSR_DATA_VERSION_FILENAME, vtext)])%list (config_path x w) ->
  ~ In n (map fst a) -> n <> RSR_DATA_VERSION_FILENAME -> n <> rsr_tarball ->
  exists w', rsr_step x w w' /\ dget (join rsr n) (w_files w') = dget (join rsr n) (w_files w) /\
    forall dest dry, rsr_check_and_download x dest dry w' = (w', Ok tt).
Proof.
  intros x w w1 c rsr w2 r a vtext n content b Hg Hp Hx Hen Hr Hn Hnet Hft Hu Hu8 Hvl Hcf Hna Hnv Hnt.
  destruct (get_config_conf _ _ _ _ Hg) as (r' & ray & Hc & He & Hfi & Hrq & _ & _ & _).
  destruct (conf_dirs _ _ _ _ _ Hc) as [Ep _]. rewrite Ep in Hp. injection Hp as ->.
  unfold fetch in Hft. rewrite Hnet in Hft.
  destruct (transfer_events x r rsr_tarball rsr (log_request HTTP_PYSPECTRAL_RSR w1)) as [l o] eqn:Et.
  injection Hft as Hw2 ->.
  destruct (transfer_shape _ _ _ _ _ _ _ Et) as [(_ & Ho & Hend & Hdir & ms & Eu & El)|(e & Hbad & _)]; [|discriminate].
  rewrite Hu in Eu. injection Eu as <-.
  set (l' := (write_events (join rsr rsr_tarball) (rs_chunks r) ++ member_events rsr (a ++ [(RSR_DATA_VERSION_FILENAME, vtext)]))%list).
  set (w0 := log_request HTTP_PYSPECTRAL_RSR w1) in *. exists (run_evs l' w0).
  assert (Hcut : cut l l').
  { rewrite El. unfold l', full_trace. apply cut_app_r, cut_app_l.
    change (a ++ (RSR_DATA_VERSION_FILENAME, vtext) :: (n, content) :: b)%list with (a ++ ([(RSR_DATA_VERSION_FILENAME, vtext)] ++ (n, content) :: b))%list.
    rewrite (app_assoc a), (member_events_app rsr (a ++ _)). apply cut_prefix. }
  assert (Hf : Forall file_ev l') by (apply Forall_app; split; [apply write_file_ev|apply member_file_ev]).
  destruct (run_frame l' w0) as (E & R & D). specialize (D Hf).
  assert (Av : forall p, ~ written_by rsr rsr_tarball (a ++ [(RSR_DATA_VERSION_FILENAME, vtext)])%list p -> avoids p l').
  { intros p Hpn. apply Forall_app. split; [apply write_avoids|apply member_avoids].
    - intros ->. apply Hpn. now left.
    - intros m Hm ->. apply Hpn. right. eauto. }
  assert (Hdb : rsr_db_init x w = (w1, Ok {| db_dir := x_expanduser x rsr; db_download := download_enabled c |})).
  { pose proof (db_init_cases x w) as Dd. rewrite Hg in Dd. destruct Dd as (r1 & y1 & Hc1 & Dd).
    destruct (conf_fun _ _ _ _ _ _ _ _ _ Hc Hc1 eq_refl eq_refl) as (_ & -> & _). exact Dd. }
  split; [|split].
  - eapply st_crash_late with (l := l) (o := Ok tt) (d := rsr) (r := r) (c := c) (db := {| db_dir := x_expanduser x rsr; db_download := download_enabled c |}) (w1 := w1); auto.
    + apply uptodate_false. unfold vpath. cbn. rewrite Hx. auto.
    + eapply conf_get_config; eauto.
  - rewrite run_other; [unfold w0; cbn; now rewrite Hfi|]. apply Av. intros [E'|(m & Hm & E')]; apply join_inj in E'; [contradiction|].
    subst m. rewrite map_app, in_app_iff in Hm. destruct Hm as [Hm|[Hm|[]]]; [contradiction|]. cbn in Hm. now symmetry in Hm.
  - intros dest dry. apply settled_check. exists c, rsr, ray.
    assert (Ecp : config_path x w1 = config_path x w) by (unfold config_path; now rewrite He).
    split.
    + eapply conf_stable; [exact Hc|exact E| | |].
      * rewrite run_other; [reflexivity|]. apply Av. now rewrite Ecp.
      * intros d. unfold is_dir. rewrite D. auto.
      * unfold is_dir. rewrite D. destruct Hc as (? & _ & Hnd & _). exact Hnd.
    + rewrite Hx. exists vtext. split; [unfold is_dir; rewrite D; exact (proj1 Hr)|]. split; [|auto].
      unfold l'. rewrite run_app. apply member_text. rewrite rev_app_distr. cbn. reflexivity.
Qed.
