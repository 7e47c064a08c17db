(** Lemmas on the mocks as a whole (C69). *)
From Coq Require Import String Ascii List Bool.
From Verif Require Import Base M_Tables M_Utils M_World M_Config M_Download S_Names S_Config S_Download M_Testing S_Testing
  P_Strings P_Events P_Config P_Download P_Crash P_Lut P_Lut2 P_Testing P_Testing2.
Import ListNotations.
Local Open Scope string_scope.

(** a body that prepares files before it starts *)
Lemma override_setup A x T o S (m : io unit) (body : io A) w : calm S m ->
  (forall d, t_mkdtemp T w = Ok d -> ~ S (join d "pyspectral.yaml")) ->
  let r := override_config T (Some o) None (fun _ => _ <~ m ;; body) w in
  (exists e, snd r = Err e /\ w_requests (fst r) = w_requests w) \/
  exists f v0 v, (forall p, p <> f -> dget p (w_files v0) = dget p (w_files w)) /\
    (forall e, is_dir w e = true -> is_dir v0 e = true) /\
    (forall e, is_dir v0 e = true -> is_dir w e = true \/ f = join e "pyspectral.yaml") /\
    (exists d, t_mkdtemp T w = Ok d /\ f = join d "pyspectral.yaml") /\
    m v0 = (v, Ok tt) /\ config_path x v = f /\ dget f (w_files v) = Some (t_dump T o) /\ is_dir v f = false /\
    w_requests v = w_requests w /\ w_requests (fst r) = w_requests (fst (body v)) /\
    (snd r = Err KeyError /\ dget "PSP_CONFIG_FILE" (w_env (fst (body v))) = None \/ snd r = snd (body v)).
Proof.
  intros Hm HS. cbv zeta.
  destruct (override_failed T (Some o) (fun _ => _ <~ m ;; body) w) as [(e & _ & ->)|[(d & _ & _ & ->)|(d & H1 & H2)]].
  - left. exists e. auto.
  - left. exists OSError. split; [reflexivity|]. cbn [fst rmtree w_requests]. exact (proj1 (proj2 (proj2 (mkdir_frame d w)))).
  - assert (H2' : is_dir w (join d "pyspectral.yaml") = false).
    { rewrite (proj2 (proj2 (proj2 (mkdir_frame d w)))) in H2. now apply orb_false_iff in H2. }
    destruct (temp_path A T (Some o) (fun _ => _ <~ m ;; body) w d H1 H2') as (v0 & O & F & Fo & Di & R1 & R2 & R3 & R4 & R5).
    set (f := join d "pyspectral.yaml") in *. set (r := override_config T (Some o) None (fun _ => _ <~ m ;; body) w) in *.
    assert (Hdf : is_dir v0 f = false) by (rewrite Di, H2'; unfold f; now apply join_neq).
    unfold iobind in R4, R5. destruct (m v0) as [v [[]|e]] eqn:Em.
    + right. destruct (Hm _ _ _ Em) as (C1 & C2 & C3 & C4 & C5 & C6).
      assert (Hfi : is_file v0 f = true) by (apply is_file_get; eauto).
      exists f, v0, v. split; [exact Fo|]. split; [intros e He; rewrite Di, He; reflexivity|].
      split; [intros e He; rewrite Di in He; apply orb_prop in He; destruct He as [He|He]; [auto|]; apply String.eqb_eq in He; subst e; auto|].
      split; [eauto|]. split; [exact Em|]. split; [unfold config_path; now rewrite C1, (proj1 O)|].
      split; [rewrite C6; [exact F|exact Hfi|exact (HS d H1)]|]. split; [now rewrite C4|]. split; [destruct O as (_ & _ & O); congruence|]. split; [exact R4|].
      destruct R5 as [(_ & E & E')|[_ E]]; [left; auto|right; exact E].
    + left. destruct (Hm _ _ _ Em) as (C1 & C2 & _). cbn [fst snd] in R4, R5. destruct R5 as [(_ & _ & E)|[_ E]]; rewrite E; [exists KeyError|exists e]; (split; [reflexivity|]);
        destruct O as (_ & _ & O); congruence.
Qed.

Lemma fake_conf x T o c f v rsr ray : dget f (w_files v) = Some (t_dump T o) -> is_dir v f = false -> config_path x v = f ->
  tree_of x (t_dump T o) = Ok (c, rsr, ray) -> rsr <> "" -> ray <> "" -> is_dir v rsr = true -> is_dir v ray = true -> conf x v c rsr ray.
Proof. intros. exists (t_dump T o). subst f. auto 8. Qed.

Lemma dupdate_get {V} (u : dict V) : forall d k, ~ In k (dkeys u) -> dget k (dupdate d u) = dget k d.
Proof.
  unfold dupdate. induction u as [|[a v] u IH]; intros d k H; [reflexivity|]. cbn [fold_left fst snd]. rewrite IH.
  - apply dget_dset_other. intros ->. apply H. now left.
  - intros Hi. apply H. now right.
Qed.

Lemma version_says p v w : is_dir w p = false -> dget p (w_files w) = Some v -> utf8_valid v = true -> strip (first_line v) = v -> says p v w.
Proof. intros A B C D. exists v. repeat split; auto. now apply version_line_iff. Qed.
Lemma table_versions : forallb (fun kv => utf8_valid (fst (snd kv)) && String.eqb (strip (first_line (fst (snd kv)))) (fst (snd kv))) ATM_CORRECTION_LUT_VERSION = true.
Proof. vm_compute. reflexivity. Qed.
Lemma table_version t v f : dget t ATM_CORRECTION_LUT_VERSION = Some (v, f) -> utf8_valid v = true /\ strip (first_line v) = v.
Proof.
  intros E. apply dget_Some_in in E. pose proof table_versions as H. rewrite forallb_forall in H. specialize (H _ E). cbn [fst snd] in H.
  apply andb_true_iff in H. rewrite String.eqb_eq in H. exact H.
Qed.
Lemma rsr_version_ok : utf8_valid RSR_DATA_VERSION = true /\ strip (first_line RSR_DATA_VERSION) = RSR_DATA_VERSION.
Proof. vm_compute. auto. Qed.

Lemma last_part_inj a : forall b g h, has_char "/" g = false -> has_char "/" h = false -> join a g = join b h -> g = h.
Proof.
  unfold join. induction a as [|c a IH]; intros b g h Hg Hh E.
  - destruct b as [|d b]; cbn in E; [now injection E|]. injection E as _ E. rewrite E, has_char_app in Hg. cbn in Hg. rewrite orb_true_r in Hg. discriminate.
  - destruct b as [|d b]; cbn in E.
    + injection E as _ E. rewrite <- E, has_char_app in Hh. cbn in Hh. rewrite orb_true_r in Hh. discriminate.
    + injection E as _ E. eapply IH; eauto.
Qed.
Lemma table_names : forallb (fun kv => negb (has_char "/" (snd (snd kv))) && negb (String.eqb (snd (snd kv)) RSR_DATA_VERSION_FILENAME)) ATM_CORRECTION_LUT_VERSION = true.
Proof. vm_compute. reflexivity. Qed.
Lemma version_names ray t rsr v f : dget t ATM_CORRECTION_LUT_VERSION = Some (v, f) -> join (join ray t) f <> join rsr RSR_DATA_VERSION_FILENAME.
Proof.
  intros E. apply dget_Some_in in E. pose proof table_names as H. rewrite forallb_forall in H. specialize (H _ E). cbn [fst snd] in H.
  apply andb_true_iff in H. rewrite !negb_true_iff in H. destruct H as [H1 H2]. intros Eq. apply last_part_inj in Eq; [|exact H1|reflexivity].
  subst f. now rewrite String.eqb_refl in H2.
Qed.

(** tables made for all types, and nothing of them overwritten *)
Lemma all_types_current x T ray atms v0 v1 v2 (S : string -> Prop) (m : io unit) : make_luts x T ray Yes None atms v0 = (v1, Ok tt) ->
  calm S m -> m v1 = (v2, Ok tt) -> (forall t f, ~ S (join (join ray t) f)) -> forall t, In t AEROSOL_TYPES -> lut_current ray t v2.
Proof.
  intros E1 Cm E2 HS t Ht. destruct (luts_made _ _ _ _ _ _ _ _ E1) as (_ & _ & H). destruct (H eq_refl t Ht) as (v & f & A & B & C).
  destruct (Cm _ _ _ E2) as (_ & _ & _ & K4 & _ & K6). exists v, f. split; [exact A|].
  assert (Fi : is_file v1 (join (join ray t) f) = true) by (apply is_file_get; eauto).
  destruct (table_version _ _ _ A). apply version_says; auto; [now rewrite K4|now rewrite K6].
Qed.

Lemma mocked_downloads : forall A x T tmp extra (body : io A) w,
  reads_back x T (fake_options tmp extra) -> ~ In "rsr_dir" (dkeys extra) -> ~ In "rayleigh_dir" (dkeys extra) ->
  x_expanduser x (join tmp "fake_rsr") = join tmp "fake_rsr" -> x_expanduser x (join tmp "fake_rayleigh") = join tmp "fake_rayleigh" ->
  temp_elsewhere T w tmp ->
  let r := mock_pyspectral_downloads x T tmp extra (Some RSR_DATA_VERSION) body w in
  (exists e, snd r = Err e /\ w_requests (fst r) = w_requests w) \/
  exists v, undisturbed x v /\ furnished x (map fst ATMOSPHERES) v /\ w_requests v = w_requests w /\ w_requests (fst r) = w_requests (fst (body v)) /\
    (dget "PSP_CONFIG_FILE" (w_env (fst (body v))) <> None -> snd r = snd (body v)).
Proof.
  intros A x T tmp extra body w Hrb Hn1 Hn2 He1 He2 Ht. cbv zeta.
  set (rsr := join tmp "fake_rsr") in *. set (ray := join tmp "fake_rayleigh") in *.
  set (last_part := _ <~ makedirs x (join tmp "fake_tb2rad") ;; rsr_files x rsr (Some RSR_DATA_VERSION)).
  set (m := _ <~ make_luts x T ray Yes None None ;; last_part).
  assert (Em : forall w, override_config T (Some (fake_options tmp extra)) None (fun _ => _ <~ m ;; body) w =
     mock_pyspectral_downloads x T tmp extra (Some RSR_DATA_VERSION) body w).
  { intros w0. unfold mock_pyspectral_downloads, override_config, with_temp_config, with_temp_dir.
    destruct (t_mkdtemp T w0) as [d|]; [|reflexivity]. cbv zeta. unfold put, iobind at 1 3. destruct (is_dir (apply_ev (EMkdir d) w0) _); [reflexivity|].
    assert (Eb : forall u, (_ <~ m ;; body) u = mock_rayleigh_luts x T (join tmp "fake_rayleigh") Yes None None
        (init_tb_cache x (join tmp "fake_tb2rad") (mock_rsr_files x (join tmp "fake_rsr") (Some RSR_DATA_VERSION) body)) u).
    { intros u. unfold m, last_part, mock_rayleigh_luts, init_tb_cache, rsr, ray. rewrite mock_rsr_files_eq. unfold iobind.
      destruct (make_luts x T (join tmp "fake_rayleigh") Yes None None u) as [u1 [|]]; [|reflexivity].
      destruct (makedirs x (join tmp "fake_tb2rad") u1) as [u2 [|]]; [|reflexivity].
      destruct (rsr_files x (join tmp "fake_rsr") (Some RSR_DATA_VERSION) u2) as [u3 [|]]; reflexivity. }
    unfold config_scope. now rewrite Eb. }
  rewrite <- Em. clear Em.
  assert (Cl : calm (fun p => p = join rsr RSR_DATA_VERSION_FILENAME) last_part).
  { apply calm_bind; [apply calm_makedirs|]. intros _. apply calm_rsr_files. }
  assert (Cm : calm (fun p => exists q, p = join tmp q) m).
  { apply calm_bind.
    - eapply calm_weaken; [|apply calm_luts]. intros p [->|(_ & t & v & f & _ & _ & ->)]; unfold ray, join.
      + exists ("fake_rayleigh" ++ "/" ++ BASE_RAYLEIGH_LUT_FILENAME). now rewrite !sapp_assoc.
      + exists ("fake_rayleigh" ++ "/" ++ t ++ "/" ++ f). now rewrite !sapp_assoc.
    - intros _. eapply calm_weaken; [|exact Cl]. intros p ->. exists ("fake_rsr" ++ "/" ++ RSR_DATA_VERSION_FILENAME). unfold rsr, join. now rewrite !sapp_assoc. }
  destruct (override_setup A x T (fake_options tmp extra) _ m body w Cm) as [L|(f & v0 & v & _ & _ & _ & _ & E & Hp & Hf & Hd & Hq & Hr & Ho)].
  { intros d Hd [q Hq]. exact (Ht d Hd q Hq). }
  { left. exact L. }
  right. exists v. enough (undisturbed x v /\ furnished x (map fst ATMOSPHERES) v) as [U1 U2].
  { split; [exact U1|]. split; [exact U2|]. repeat split; auto; intros Hnn; destruct Ho as [[_ Ho]|Ho]; [contradiction|exact Ho]. }
  unfold m, iobind at 1 in E. destruct (make_luts x T ray Yes None None v0) as [v1 [[]|]] eqn:E1; [|discriminate].
  destruct (luts_made _ _ _ _ _ _ _ _ E1) as (Dr & Nr & _). destruct (Cl _ _ _ E) as (_ & _ & L3 & _).
  unfold last_part, iobind in E. destruct (makedirs x (join tmp "fake_tb2rad") v1) as [v2 [[]|]] eqn:E2; [|discriminate].
  destruct (rsr_made _ _ _ _ _ E) as (Ds & Ns & Nv & Gv).
  destruct (tree_back x T (fake_options tmp extra) rsr ray Hrb) as (c & Tr & _).
  { unfold dir_option, fake_options. now rewrite dupdate_get. }
  { unfold dir_option, fake_options. now rewrite dupdate_get. }
  rewrite He1, He2 in Tr. assert (Hcf : conf x v c rsr ray) by (eapply fake_conf; eauto).
  split; [apply (up_to_date_undisturbed x v c rsr ray Hcf)|apply (furnished_by_tables x v c rsr ray _ Hcf)].
  - rewrite He1. destruct rsr_version_ok. now apply version_says.
  - apply (all_types_current x T ray None v0 v1 v _ last_part E1 Cl).
    + unfold last_part, iobind. now rewrite E2.
    + intros t g Eq. unfold rsr, ray, join in Eq. rewrite !sapp_assoc in Eq. apply sapp_inj in Eq. discriminate.
  - intros t a Ht' Ha. apply (calm_there _ last_part v1 v (Ok tt) _ Cl).
    + unfold last_part, iobind. now rewrite E2.
    + exact (tables_made _ _ _ _ _ _ _ _ E1 eq_refl t a Ht' Ha).
Qed.

Lemma mocked_rayleigh : forall A x T ray rsr atms (body : io A) w,
  let rsr' := match rsr with None => ray | Some d => d end in
  let o := [("rayleigh_dir", Leaf (LStr ray)); ("rsr_dir", Leaf (LStr rsr')); ("download_from_internet", Leaf (LBool false))] in
  reads_back x T o -> x_expanduser x rsr' = rsr' -> x_expanduser x ray = ray ->
  temp_elsewhere T w ray -> temp_elsewhere T w rsr' ->
  let r := mock_rayleigh x T ray rsr Yes None atms body w in
  (exists e, snd r = Err e /\ w_requests (fst r) = w_requests w) \/
  exists v, undisturbed x v /\ furnished x (match atms with None => map fst ATMOSPHERES | Some l => l end) v /\ w_requests v = w_requests w /\ w_requests (fst r) = w_requests (fst (body v)) /\
    (dget "PSP_CONFIG_FILE" (w_env (fst (body v))) <> None -> snd r = snd (body v)).
Proof.
  intros A x T ray rsr0 atms body w rsr o Hrb He1 He2 Ht1 Ht2. cbv zeta.
  set (last_part := rsr_files x rsr (Some RSR_DATA_VERSION)). set (m := _ <~ make_luts x T ray Yes None atms ;; last_part).
  assert (Em : forall w, override_config T (Some o) None (fun _ => _ <~ m ;; body) w = mock_rayleigh x T ray rsr0 Yes None atms body w).
  { intros w0. unfold mock_rayleigh, override_config, with_temp_config, with_temp_dir. fold rsr. fold o.
    destruct (t_mkdtemp T w0) as [d|]; [|reflexivity]. cbv zeta. unfold put, iobind at 1 3. fold rsr. fold o.
    destruct (is_dir (apply_ev (EMkdir d) w0) _); [reflexivity|].
    assert (Eb : forall u, (_ <~ m ;; body) u = mock_rayleigh_luts x T ray Yes None atms (mock_rsr_files x rsr (Some RSR_DATA_VERSION) body) u).
    { intros u. unfold m, last_part, mock_rayleigh_luts. rewrite mock_rsr_files_eq. unfold iobind.
      destruct (make_luts x T ray Yes None atms u) as [u1 [|]]; [|reflexivity].
      destruct (rsr_files x rsr (Some RSR_DATA_VERSION) u1) as [u3 [|]]; reflexivity. }
    unfold config_scope. now rewrite Eb. }
  rewrite <- Em. clear Em.
  assert (Cl : calm (fun p => p = join rsr RSR_DATA_VERSION_FILENAME) last_part) by apply calm_rsr_files.
  assert (Cm : calm (fun p => (exists q, p = join ray q) \/ exists q, p = join rsr q) m).
  { apply calm_bind.
    - eapply calm_weaken; [|apply calm_luts]. intros p [->|(_ & t & v & f & _ & _ & ->)]; left; [eauto|].
      exists (t ++ "/" ++ f). unfold join. now rewrite !sapp_assoc.
    - intros _. eapply calm_weaken; [|exact Cl]. intros p ->. right. eauto. }
  destruct (override_setup A x T o _ m body w Cm) as [L|(f & v0 & v & _ & _ & _ & _ & E & Hp & Hf & Hd & Hq & Hr & Ho)].
  { intros d Hd [[q Hq]|[q Hq]]; [exact (Ht1 d Hd q Hq)|exact (Ht2 d Hd q Hq)]. }
  { left. exact L. }
  right. exists v. enough (undisturbed x v /\ furnished x (atms_of atms) v) as [U1 U2].
  { split; [exact U1|]. split; [exact U2|]. repeat split; auto; intros Hnn; destruct Ho as [[_ Ho]|Ho]; [contradiction|exact Ho]. }
  unfold m, iobind in E. destruct (make_luts x T ray Yes None atms v0) as [v1 [[]|]] eqn:E1; [|discriminate].
  destruct (luts_made _ _ _ _ _ _ _ _ E1) as (Dr & Nr & Hl). destruct (Cl _ _ _ E) as (_ & _ & L3 & L4 & _ & L6).
  destruct (rsr_made _ _ _ _ _ E) as (Ds & Ns & Nv & Gv).
  destruct (tree_back x T o rsr ray Hrb) as (c & Tr & _); [reflexivity|reflexivity|].
  rewrite He1, He2 in Tr. assert (Hcf : conf x v c rsr ray) by (eapply fake_conf; eauto).
  split; [apply (up_to_date_undisturbed x v c rsr ray Hcf)|apply (furnished_by_tables x v c rsr ray _ Hcf)].
  - rewrite He1. destruct rsr_version_ok. now apply version_says.
  - intros t Hi. destruct (Hl eq_refl t Hi) as (ver & g & B1 & B2 & B3). exists ver, g. split; [exact B1|].
    assert (Fi : is_file v1 (join (join ray t) g) = true) by (apply is_file_get; eauto).
    destruct (table_version _ _ _ B1). apply version_says; auto; [now rewrite L4|]. rewrite L6; auto.
    exact (version_names ray t rsr ver g B1).
  - intros t a Ht' Ha. apply (calm_there _ last_part v1 v (Ok tt) _ Cl E). exact (tables_made _ _ _ _ _ _ _ _ E1 eq_refl t a Ht' Ha).
Qed.
