(** Lemmas: inside the mock downloads are disabled, whatever the version file says (C69). *)
From Coq Require Import String Ascii List Bool.
From Verif Require Import Base M_Tables M_Utils M_World M_Config M_Download S_Names S_Config S_Download M_Testing S_Testing
  P_Strings P_Events P_Config P_Download P_Crash P_Lut P_Lut2 P_Testing P_Testing2 P_Testing3 P_Testing4.
Import ListNotations.
Local Open Scope string_scope.

Lemma check_disabled x dest dry v : (forall w1 c, get_config x None v = (w1, Ok c) -> download_enabled c = false) ->
  w_requests (fst (rsr_check_and_download x dest dry v)) = w_requests v.
Proof.
  intros H. pose proof (quiet_config x None v) as [Q _]. pose proof (db_init_cases x v) as Db.
  unfold rsr_check_and_download, iobind at 1. destruct (get_config x None v) as [w1 [c|e]]; [|rewrite Db; exact Q].
  specialize (H w1 c eq_refl). destruct Db as (rsr & ray & _ & ->). unfold iobind.
  set (db := {| db_dir := x_expanduser x rsr; db_download := download_enabled c |}).
  destruct (download_rsr_updates x db dest dry w1) as [w2 o2] eqn:Eu.
  destruct (updates_requests x db dest dry w1 w2 o2 Eu) as [U1 U2]. cbn [fst] in Q.
  assert (E2 : w_requests w2 = w_requests w1).
  { destruct U1 as [U1|U1]; [exact U1|]. apply U2 in U1. destruct U1 as (_ & _ & D & _). cbn [db_download db] in D. congruence. }
  destruct o2; cbn [fst ret]; congruence.
Qed.

Lemma mocked_disabled : forall x T tmp extra version dest dry w,
  reads_back x T (fake_options tmp extra) -> ~ In "download_from_internet" (dkeys extra) -> temp_elsewhere T w tmp ->
  w_requests (fst (mock_pyspectral_downloads x T tmp extra version (rsr_check_and_download x dest dry) w)) = w_requests w.
Proof.
  intros x T tmp extra version dest dry w Hrb Hn Ht. set (body := rsr_check_and_download x dest dry).
  set (rsr := join tmp "fake_rsr") in *. set (ray := join tmp "fake_rayleigh") in *.
  set (last_part := _ <~ makedirs x (join tmp "fake_tb2rad") ;; rsr_files x rsr version).
  set (m := _ <~ make_luts x T ray Yes None None ;; last_part).
  assert (Em : forall w, override_config T (Some (fake_options tmp extra)) None (fun _ => _ <~ m ;; body) w =
     mock_pyspectral_downloads x T tmp extra version body w).
  { intros w0. unfold mock_pyspectral_downloads, override_config, with_temp_config, with_temp_dir.
    destruct (t_mkdtemp T w0) as [d|]; [|reflexivity]. cbv zeta. unfold put, iobind at 1 3. destruct (is_dir (apply_ev (EMkdir d) w0) _); [reflexivity|].
    assert (Eb : forall u, (_ <~ m ;; body) u = mock_rayleigh_luts x T (join tmp "fake_rayleigh") Yes None None
        (init_tb_cache x (join tmp "fake_tb2rad") (mock_rsr_files x (join tmp "fake_rsr") version body)) u).
    { intros u. unfold m, last_part, mock_rayleigh_luts, init_tb_cache, rsr, ray. rewrite mock_rsr_files_eq. unfold iobind.
      destruct (make_luts x T (join tmp "fake_rayleigh") Yes None None u) as [u1 [|]]; [|reflexivity].
      destruct (makedirs x (join tmp "fake_tb2rad") u1) as [u2 [|]]; [|reflexivity].
      destruct (rsr_files x (join tmp "fake_rsr") version u2) as [u3 [|]]; reflexivity. }
    unfold config_scope. now rewrite Eb. }
  rewrite <- Em. clear Em.
  assert (Cl : calm (fun p => p = join rsr RSR_DATA_VERSION_FILENAME) last_part).
  { apply calm_bind; [apply calm_makedirs|]. intros _. apply calm_rsr_files. }
  assert (Cm : calm (fun p => exists q, p = join tmp q) m).
  { apply calm_bind.
    - eapply calm_weaken; [|apply calm_luts]. intros p [->|(_ & t & v & f & _ & _ & ->)]; unfold ray, join.
      + exists ("fake_rayleigh" ++ "/" ++ BASE_RAYLEIGH_LUT_FILENAME). now rewrite !sapp_assoc.
      + exists ("fake_rayleigh" ++ "/" ++ t ++ "/" ++ f). now rewrite !sapp_assoc.
    - intros _. eapply calm_weaken; [|exact Cl]. intros p ->. exists ("fake_rsr" ++ "/" ++ RSR_DATA_VERSION_FILENAME). unfold rsr, join. now rewrite !sapp_assoc. }
  destruct (override_setup unit x T (fake_options tmp extra) _ m body w Cm) as [(e & _ & L)|(f & v0 & v & _ & _ & _ & _ & E & Hp & Hf & Hd & Hq & Hr & Ho)].
  { intros d Hd [q Hq]. exact (Ht d Hd q Hq). }
  { exact L. }
  rewrite Hr, <- Hq. apply check_disabled. intros w1 c Hg.
  destruct (config_in_body x T _ f v w1 c Hrb Hf Hp Hg) as (rsr' & ray' & _ & _ & _ & Hd' & _).
  rewrite Hd'. unfold download_enabled, fake_options. now rewrite dupdate_get.
Qed.
