(** Lemmas: the configuration that mock_rsr and mock_tb_conversion show (C69). *)
From Coq Require Import String Ascii List Bool.
From Verif Require Import Base M_Tables M_Utils M_World M_Config M_Download S_Names S_Config S_Download M_Testing S_Testing
  P_Strings P_Events P_Config P_Download P_Crash P_Lut P_Lut2 P_Testing P_Testing2 P_Testing3 P_Testing4 P_Testing5.
Import ListNotations.
Local Open Scope string_scope.

Lemma settings_in_body x T o f v w1 c : reads_back x T o -> dget f (w_files v) = Some (t_dump T o) -> config_path x v = f ->
  get_config x None v = (w1, Ok c) -> forall k, k <> "rsr_dir" -> k <> "rayleigh_dir" -> dget k c = dget k o.
Proof.
  intros Hrb Hf Hp Hg. destruct (get_config_conf _ _ _ _ Hg) as (rsr & ray & Hc & He & Hfi & _).
  destruct Hc as (text & Et & _ & Tr & _).
  assert (Ep : config_path x w1 = f) by (unfold config_path in *; now rewrite He). rewrite Ep, Hfi, Hf in Et. injection Et as <-.
  exact (proj2 (proj2 (tree_back_inv _ _ _ _ _ _ Hrb Tr))).
Qed.

Lemma responses_mock A x T o rsr version (body : io A) w : reads_back x T o -> dget "rsr_dir" o = Some (Leaf (LStr rsr)) -> temp_elsewhere T w rsr ->
  let r := override_config T (Some o) None (fun _ => mock_rsr_files x rsr version body) w in
  (exists e, snd r = Err e /\ w_requests (fst r) = w_requests w) \/
  exists v, shown x o (x_expanduser x rsr) v /\ (forall s, version = Some s -> dget (join rsr RSR_DATA_VERSION_FILENAME) (w_files v) = Some s) /\
    w_requests v = w_requests w /\ w_requests (fst r) = w_requests (fst (body v)) /\
    (dget "PSP_CONFIG_FILE" (w_env (fst (body v))) <> None -> snd r = snd (body v)).
Proof.
  intros Hrb Ho Ht. cbv zeta.
  assert (Em : override_config T (Some o) None (fun _ => mock_rsr_files x rsr version body) w =
     override_config T (Some o) None (fun _ => _ <~ rsr_files x rsr version ;; body) w) by reflexivity.
  rewrite Em. clear Em.
  assert (Cm : calm (fun p => exists q, p = join rsr q) (rsr_files x rsr version)).
  { eapply calm_weaken; [|apply calm_rsr_files]. intros p ->. eauto. }
  destruct (override_setup A x T o _ (rsr_files x rsr version) body w Cm)
    as [L|(f & v0 & v & Fo & D1 & D2 & _ & E & Hp & Hf & Hdf & Hq & Hr & Hout)].
  { intros d Hmd [q Hqq]. exact (Ht d Hmd q Hqq). }
  { left. exact L. }
  right. exists v. split; [|split; [|split; [exact Hq|split; [exact Hr|]]]].
  - intros w1 c Hg. destruct (config_in_body x T o f v w1 c Hrb Hf Hp Hg) as (rsr' & ray & Hc & Er & _).
    unfold dir_option in Er. rewrite Ho in Er. injection Er as <-. destruct (conf_dirs _ _ _ _ _ Hc) as [Ep _].
    split; [exact (settings_in_body x T o f v w1 c Hrb Hf Hp Hg)|].
    unfold path_option in Ep. destruct (dget "rsr_dir" c) as [[[s| | | |]|]|]; try discriminate. now injection Ep as ->.
  - intros s ->. destruct (rsr_made _ _ _ _ _ E) as (_ & _ & _ & G). exact G.
  - intros Hn. destruct Hout as [[_ Hx]|Hx]; [contradiction|exact Hx].
Qed.

Lemma mocked_rsr : forall A x T rsr version download (body : io A) w,
  let o := [("rsr_dir", Leaf (LStr rsr)); ("download_from_internet", Leaf (LBool download))] in
  reads_back x T o -> temp_elsewhere T w rsr ->
  let r := mock_rsr x T rsr version download body w in
  (exists e, snd r = Err e /\ w_requests (fst r) = w_requests w) \/
  exists v, shown x o (x_expanduser x rsr) v /\ (forall s, version = Some s -> dget (join rsr RSR_DATA_VERSION_FILENAME) (w_files v) = Some s) /\
    w_requests v = w_requests w /\ w_requests (fst r) = w_requests (fst (body v)) /\
    (dget "PSP_CONFIG_FILE" (w_env (fst (body v))) <> None -> snd r = snd (body v)).
Proof. intros A x T rsr version download body w o Hrb Ht. now apply responses_mock. Qed.
Lemma mocked_tb : forall A x T tb2rad rsr version (body : io A) w,
  let rsr' := match rsr with None => tb2rad | Some d => d end in
  let o := [("rsr_dir", Leaf (LStr rsr')); ("tb2rad_dir", Leaf (LStr tb2rad)); ("download_from_internet", Leaf (LBool false))] in
  reads_back x T o -> temp_elsewhere T w rsr' ->
  let r := mock_tb_conversion x T tb2rad rsr version body w in
  (exists e, snd r = Err e /\ w_requests (fst r) = w_requests w) \/
  exists v, shown x o (x_expanduser x rsr') v /\ (forall s, version = Some s -> dget (join rsr' RSR_DATA_VERSION_FILENAME) (w_files v) = Some s) /\
    w_requests v = w_requests w /\ w_requests (fst r) = w_requests (fst (body v)) /\
    (dget "PSP_CONFIG_FILE" (w_env (fst (body v))) <> None -> snd r = snd (body v)).
Proof. intros A x T tb2rad rsr version body w rsr' o Hrb Ht. now apply responses_mock. Qed.
Lemma mocked_rsr_disabled : forall x T rsr version dest dry w,
  reads_back x T [("rsr_dir", Leaf (LStr rsr)); ("download_from_internet", Leaf (LBool false))] -> temp_elsewhere T w rsr ->
  w_requests (fst (mock_rsr x T rsr version false (rsr_check_and_download x dest dry) w)) = w_requests w.
Proof.
  intros x T rsr version dest dry w Hrb Ht.
  destruct (mocked_rsr unit x T rsr version false (rsr_check_and_download x dest dry) w Hrb Ht) as [(e & _ & L)|(v & Sh & _ & Q & R & _)]; [exact L|].
  rewrite R, <- Q. apply check_disabled. intros w1 c Hg. destruct (Sh w1 c Hg) as [K _]. unfold download_enabled. now rewrite K by discriminate.
Qed.
