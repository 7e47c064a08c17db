(** Lemmas on configuration stability, version files and RSR downloads (C44-C46). *)
From Coq Require Import String Ascii List Bool.
From Verif Require Import Base M_Tables M_Utils M_World M_Config M_Download S_Download P_Strings P_Events P_Config P_Names.
Import ListNotations.
Local Open Scope string_scope.

(** ** configuration *)
Definition tree_of (x : extern) (text : string) : res (dict cfg * string * string) :=
  content <- x_yaml x text ;;
  let (d, o) := recursive_dict_update content (CMap []) in
  _ <- o ;;
  match d with
  | Leaf _ => Err AttributeError
  | CMap config =>
      let deflt := Leaf (LStr (x_user_data_dir x)) in
      let get k c := match dget k c with Some v => v | None => deflt end in
      rsr <- expanduser x (get "rsr_dir" config) ;;
      let config := dset "rsr_dir" (Leaf (LStr rsr)) config in
      ray <- expanduser x (get "rayleigh_dir" config) ;;
      let config := dset "rayleigh_dir" (Leaf (LStr ray)) config in
      Ok (config, rsr, ray)
  end.
Lemma config_tree_eq x w f : config_tree x w f = (text <- read_file w f ;; tree_of x text).
Proof. reflexivity. Qed.

Lemma tree_of_dirs x t c rsr ray : tree_of x t = Ok (c, rsr, ray) ->
  dget "rsr_dir" c = Some (Leaf (LStr rsr)) /\ dget "rayleigh_dir" c = Some (Leaf (LStr ray)).
Proof.
  unfold tree_of. destruct (x_yaml x t) as [content|]; [|discriminate]. cbn [bind].
  destruct (recursive_dict_update content (CMap [])) as [d o]. destruct o as [|]; [|discriminate]. cbn [bind].
  destruct d as [|config]; [discriminate|]. cbv zeta.
  match goal with |- context [bind (expanduser x ?a) _] => destruct (expanduser x a) as [rsr'|]; [|discriminate] end. cbn [bind].
  match goal with |- context [bind (expanduser x ?a) _] => destruct (expanduser x a) as [ray'|]; [|discriminate] end. cbn [bind].
  intros [= <- <- <-]. split; [rewrite dget_dset_other by discriminate|]; apply dget_dset_same.
Qed.

Lemma makedirs_dir x d w w' : makedirs x d w = (w', Ok tt) ->
  is_dir w' d = true /\ (w' = w /\ is_dir w d = true \/ w' = set_dirs (d :: w_dirs w) w /\ is_file w d = false).
Proof.
  unfold makedirs. destruct (String.eqb d ""); [discriminate|]. destruct (is_dir w d) eqn:E.
  - intros [= <-]. auto.
  - destruct (is_file w d) eqn:Ef; [discriminate|]. destruct (x_mkdir_ok x d); [|discriminate].
    intros [= <-]. cbn [apply_ev]. rewrite E. split; [|right; auto]. unfold is_dir. cbn. now rewrite String.eqb_refl.
Qed.
Lemma makedirs_noop x d w : d <> "" -> is_dir w d = true -> makedirs x d w = (w, Ok tt).
Proof. intros Hd H. unfold makedirs. destruct (String.eqb_spec d ""); [contradiction|]. now rewrite H. Qed.
Lemma makedirs_nonempty x d w w' : makedirs x d w = (w', Ok tt) -> d <> "".
Proof. unfold makedirs. destruct (String.eqb_spec d ""); [discriminate|auto]. Qed.

Lemma is_dir_cons d e w : is_dir (set_dirs (e :: w_dirs w) w) d = String.eqb d e || is_dir w d.
Proof. reflexivity. Qed.

(** the configuration of a world *)
Definition conf (x : extern) (w : world) (c : dict cfg) (rsr ray : string) : Prop :=
  exists text, dget (config_path x w) (w_files w) = Some text /\ is_dir w (config_path x w) = false /\
    tree_of x text = Ok (c, rsr, ray) /\ rsr <> "" /\ ray <> "" /\ is_dir w rsr = true /\ is_dir w ray = true.

Lemma get_config_conf x w w1 c : get_config x None w = (w1, Ok c) ->
  exists rsr ray, conf x w1 c rsr ray /\ w_env w1 = w_env w /\ w_files w1 = w_files w /\ w_requests w1 = w_requests w /\
    (forall d, is_dir w d = true -> is_dir w1 d = true) /\
    (forall d, is_dir w1 d = true -> is_dir w d = true \/ d = rsr \/ d = ray) /\
    (forall d, is_file w d = true -> is_dir w1 d = is_dir w d).
Proof.
  unfold get_config. intros H.
  assert (Hf : exists f, config_path x w = f /\ (match config_tree x w f with
       | Err e => (w, Err e)
       | Ok (config, rsr, ray) => let (w, o) := makedirs x rsr w in
          match o with Err e => (w, Err e) | Ok _ => let (w, o) := makedirs x ray w in (w, _ <- o ;; Ok config) end end) = (w1, Ok c)).
  { unfold get_env_or_builtin_config_path in H. unfold config_path.
    destruct (dget "PSP_CONFIG_FILE" (w_env w)) as [f|]; [|eauto].
    destruct (is_file w f); [eauto|discriminate]. }
  clear H. destruct Hf as (f & Ef & H). rewrite config_tree_eq in H. unfold read_file in H.
  destruct (is_dir w f) eqn:Ed; [discriminate|]. destruct (dget f (w_files w)) as [text|] eqn:Et; [|discriminate].
  cbn [of_option bind] in H. destruct (tree_of x text) as [[[c' rsr] ray]|] eqn:Tr; [|discriminate].
  destruct (makedirs x rsr w) as [w2 o2] eqn:M1. destruct o2 as [[]|]; [|discriminate].
  destruct (makedirs x ray w2) as [w3 o3] eqn:M2. destruct o3 as [[]|]; [|discriminate].
  cbn [bind] in H. injection H as <- <-. exists rsr, ray.
  pose proof (makedirs_nonempty _ _ _ _ M1) as N1. pose proof (makedirs_nonempty _ _ _ _ M2) as N2.
  destruct (makedirs_ok _ _ _ _ M1) as (D1 & V1 & F1 & R1 & _). destruct (makedirs_ok _ _ _ _ M2) as (D2 & V2 & F2 & R2 & _).
  destruct (makedirs_dir _ _ _ _ M1) as [_ C1]. destruct (makedirs_dir _ _ _ _ M2) as [_ C2].
  assert (Mono : forall d, is_dir w d = true -> is_dir w2 d = true).
  { intros d Hd. destruct C1 as [[-> _]|[-> _]]; [exact Hd|]. rewrite is_dir_cons, Hd. apply orb_true_r. }
  assert (Mono2 : forall d, is_dir w2 d = true -> is_dir w3 d = true).
  { intros d Hd. destruct C2 as [[-> _]|[-> _]]; [exact Hd|]. rewrite is_dir_cons, Hd. apply orb_true_r. }
  assert (New : forall d, is_dir w3 d = true -> is_dir w d = true \/ d = rsr \/ d = ray).
  { intros d Hd. assert (H2 : is_dir w2 d = true \/ d = ray).
    { destruct C2 as [[-> _]|[-> _]]; [auto|]. rewrite is_dir_cons in Hd. apply orb_prop in Hd. destruct Hd as [Hd|Hd]; [right; now apply String.eqb_eq|auto]. }
    destruct H2 as [H2| ->]; [|auto]. destruct C1 as [[-> _]|[-> _]]; [auto|]. rewrite is_dir_cons in H2. apply orb_prop in H2.
    destruct H2 as [H2|H2]; [apply String.eqb_eq in H2; auto|auto]. }
  assert (Fi : forall d, is_file w d = true -> is_dir w3 d = is_dir w d).
  { intros d Hd. assert (is_file w2 d = true) as Hd2 by (unfold is_file in *; now rewrite F1).
    transitivity (is_dir w2 d).
    - destruct C2 as [[-> _]|[-> Hn]]; [reflexivity|]. rewrite is_dir_cons. destruct (String.eqb_spec d ray); [congruence|reflexivity].
    - destruct C1 as [[-> _]|[-> Hn]]; [reflexivity|]. rewrite is_dir_cons. destruct (String.eqb_spec d rsr); [congruence|reflexivity]. }
  split; [|repeat split; try congruence; auto].
  assert (Ev : w_env w3 = w_env w) by congruence. assert (Fl : w_files w3 = w_files w) by congruence.
  exists text. assert (Ep : config_path x w3 = f) by (unfold config_path in *; now rewrite Ev). rewrite Ep, Fl.
  repeat split; auto. rewrite Fi; [exact Ed|]. unfold is_file, dhas. now rewrite Et.
Qed.

Lemma conf_get_config x w c rsr ray : conf x w c rsr ray -> get_config x None w = (w, Ok c).
Proof.
  intros (text & Et & Ed & Tr & N1 & N2 & D1 & D2). unfold get_config, get_env_or_builtin_config_path.
  unfold config_path in *. assert (E : (f <- match dget "PSP_CONFIG_FILE" (w_env w) with
     | Some f => if is_file w f then Ok f else Err OSError | None => Ok (x_builtin_config x) end ;; config_tree x w f)
     = config_tree x w (match dget "PSP_CONFIG_FILE" (w_env w) with Some f => f | None => x_builtin_config x end)).
  { destruct (dget "PSP_CONFIG_FILE" (w_env w)); [|reflexivity]. unfold is_file, dhas. now rewrite Et. }
  cbn [bind] in *. rewrite E, config_tree_eq. unfold read_file. rewrite Ed, Et. cbn [of_option bind]. rewrite Tr.
  rewrite (makedirs_noop x rsr w), (makedirs_noop x ray w) by assumption. reflexivity.
Qed.

Lemma conf_dirs x w c rsr ray : conf x w c rsr ray ->
  path_option "rsr_dir" c = Ok rsr /\ path_option "rayleigh_dir" c = Ok ray.
Proof.
  intros (text & _ & _ & Tr & _). destruct (tree_of_dirs _ _ _ _ _ Tr) as [A B]. unfold path_option. now rewrite A, B.
Qed.

(** it survives every change that spares the configuration file *)
Lemma conf_stable x w v c rsr ray : conf x w c rsr ray -> w_env v = w_env w ->
  dget (config_path x w) (w_files v) = dget (config_path x w) (w_files w) ->
  (forall d, is_dir w d = true -> is_dir v d = true) -> is_dir v (config_path x w) = false -> conf x v c rsr ray.
Proof.
  intros (text & Et & Ed & Tr & N1 & N2 & D1 & D2) He Hf Hd Hn. exists text.
  assert (Ep : config_path x v = config_path x w) by (unfold config_path; now rewrite He). rewrite Ep.
  repeat split; auto. now rewrite Hf.
Qed.

Lemma conf_fun x w v c rsr ray c' rsr' ray' : conf x w c rsr ray -> conf x v c' rsr' ray' -> w_env v = w_env w ->
  dget (config_path x w) (w_files v) = dget (config_path x w) (w_files w) -> c' = c /\ rsr' = rsr /\ ray' = ray.
Proof.
  intros (text & Et & _ & Tr & _) (text' & Et' & _ & Tr' & _) He Hf.
  assert (Ep : config_path x v = config_path x w) by (unfold config_path; now rewrite He).
  rewrite Ep, Hf, Et in Et'. injection Et' as <-. rewrite Tr in Tr'. injection Tr' as <- <- <-. auto.
Qed.

(** ** version files *)
Lemma read_version_ok p w : (exists v, read_version p w = Ok v) <-> readable p w.
Proof.
  unfold read_version, readable, is_file, dhas, read_file. destruct (is_dir w p) eqn:Ed.
  - rewrite orb_true_r. cbn. split; [intros [v H]; discriminate|intros [H _]; discriminate].
  - rewrite orb_false_r. destruct (dget p (w_files w)) as [t|].
    + cbn. destruct (utf8_valid t) eqn:U; split.
      * intros _. split; [reflexivity|]. intros t' [= <-]. exact U.
      * eauto.
      * intros [v H]. discriminate.
      * intros [_ H]. rewrite (H t eq_refl) in U. discriminate.
    + split; [split; [reflexivity|discriminate]|eauto].
Qed.

Lemma read_version_says p w v : v <> "v0.0.0" -> (read_version p w = Ok v <-> says p v w).
Proof.
  intros Hv. unfold read_version, says, is_file, dhas, read_file. destruct (is_dir w p) eqn:Ed.
  - rewrite orb_true_r. cbn. split; [discriminate|intros (t & H & _); discriminate].
  - rewrite orb_false_r. destruct (dget p (w_files w)) as [t|].
    + cbn. destruct (utf8_valid t) eqn:U; split.
      * intros [= H]. apply version_line_iff in H. exists t. auto.
      * intros (t' & _ & [= <-] & _ & H). apply version_line_iff in H. now rewrite H.
      * discriminate.
      * intros (t' & _ & [= <-] & H & _). congruence.
    + split; [intros [= <-]; contradiction|intros (t & _ & H & _); discriminate].
Qed.

Lemma says_same p v w w' : dget p (w_files w') = dget p (w_files w) -> is_dir w' p = is_dir w p -> says p v w -> says p v w'.
Proof. intros E1 E2 (t & A & B & C & D). exists t. rewrite E1, E2. auto. Qed.

Definition vpath (db : rsr_db) : string := join (db_dir db) RSR_DATA_VERSION_FILENAME.

Lemma uptodate_true db w : rsr_uptodate db w = Ok true <-> says (vpath db) RSR_DATA_VERSION w.
Proof.
  unfold rsr_uptodate, rsr_data_version. fold (vpath db).
  rewrite <- (read_version_says (vpath db) w RSR_DATA_VERSION) by (vm_compute; discriminate).
  destruct (read_version (vpath db) w) as [v|]; cbn; [|split; discriminate].
  split; [intros [= H]; apply String.eqb_eq in H; now subst|intros [= ->]; now rewrite String.eqb_refl].
Qed.
Lemma uptodate_ok db w : (exists b, rsr_uptodate db w = Ok b) <-> readable (vpath db) w.
Proof.
  rewrite <- read_version_ok. unfold rsr_uptodate, rsr_data_version. fold (vpath db).
  destruct (read_version (vpath db) w); cbn; split; intros [b H]; try discriminate; eauto.
Qed.
Lemma uptodate_false db w : rsr_uptodate db w = Ok false <-> readable (vpath db) w /\ ~ says (vpath db) RSR_DATA_VERSION w.
Proof.
  rewrite <- uptodate_true, <- uptodate_ok. destruct (rsr_uptodate db w) as [[]|]; split.
  - discriminate.
  - intros [_ H]. now contradiction H.
  - intros _. split; [eauto|discriminate].
  - auto.
  - discriminate.
  - intros [[b H] _]. discriminate.
Qed.

(** ** requests *)
Lemma fetch_frame x url tb dir w w' o : fetch x url tb dir w = (w', o) ->
  w_requests w' = url :: w_requests w /\ w_env w' = w_env w /\ w_dirs w' = w_dirs w.
Proof.
  unfold fetch. destruct (x_net x (w_requests w) url) as [r|]; [|intros [= <- <-]; auto].
  destruct (transfer_events x r tb dir (log_request url w)) as [l o'] eqn:E. intros [= <- <-].
  destruct (run_frame l (log_request url w)) as (A & B & C).
  assert (F : Forall file_ev l).
  { destruct (transfer_shape _ _ _ _ _ _ _ E) as [(_ & _ & _ & _ & ms & _ & ->)|(e & _ & [(-> & _)|[(_ & _ & ->)|(_ & _ & _ & ms & o2 & a & b & _ & _ & ->)]])].
    - apply full_trace_file_ev.
    - constructor.
    - apply write_file_ev.
    - apply Forall_app. split; [apply write_file_ev|apply member_file_ev]. }
  rewrite A, B, (C F). auto.
Qed.

Lemma cons_neq {A} (a : A) l : a :: l <> l.
Proof. intros H. apply (f_equal (@List.length A)) in H. cbn in H. symmetry in H. exact (n_Sn _ H). Qed.

Lemma updates_cases x db dest dry w : 
  let out := download_rsr_updates x db dest dry w in
  match rsr_uptodate db w with
  | Err e => out = (w, Err e)
  | Ok true => out = (w, Ok false)
  | Ok false =>
      if db_download db then
        match get_config x None w with
        | (w1, Err e) => out = (w1, Err e)
        | (w1, Ok c) => exists d, path_option "rsr_dir" c = Ok d /\
            if dry then out = (w1, Ok true)
            else out = (let (w2, o) := fetch x HTTP_PYSPECTRAL_RSR rsr_tarball (match dest with Some d' => d' | None => d end) w1 in
                        (w2, match o with Ok _ => Ok true | Err e => Err e end))
        end
      else out = (w, Ok true)
  end.
Proof.
  cbv zeta. unfold download_rsr_updates, download_rsr, iobind, look, lift, ret.
  destruct (rsr_uptodate db w) as [[]|e]; [reflexivity| |reflexivity].
  destruct (db_download db); cbn [negb]; [|reflexivity].
  destruct (get_config x None w) as [w1 [c|e]] eqn:Ec; [|reflexivity].
  destruct (get_config_conf _ _ _ _ Ec) as (rsr & ray & Hc & _). destruct (conf_dirs _ _ _ _ _ Hc) as [Ep _].
  exists rsr. split; [exact Ep|]. rewrite Ep. destruct dry; [reflexivity|].
  destruct (fetch x HTTP_PYSPECTRAL_RSR rsr_tarball _ w1) as [w2 [[]|]]; reflexivity.
Qed.

Lemma updates_true : forall x db dest dry w w' b, download_rsr_updates x db dest dry w = (w', Ok b) ->
  (b = false <-> says (join (db_dir db) RSR_DATA_VERSION_FILENAME) RSR_DATA_VERSION w).
Proof.
  intros x db dest dry w w' b H. fold (vpath db). rewrite <- uptodate_true. pose proof (updates_cases x db dest dry w) as C. cbv zeta in C.
  rewrite H in C. destruct (rsr_uptodate db w) as [[]|e]; [injection C as _ ->; tauto| |discriminate].
  assert (b = true) as ->; [|split; discriminate].
  destruct (db_download db); [|now injection C].
  destruct (get_config x None w) as [w1 [c|e]]; [|discriminate]. destruct C as (d & _ & C).
  destruct dry; [now injection C|]. destruct (fetch _ _ _ _ w1) as [w2 [|]]; [now injection C|discriminate].
Qed.

Lemma updates_requests : forall x db dest dry w w' o, download_rsr_updates x db dest dry w = (w', o) ->
  (w_requests w' = w_requests w \/ w_requests w' = HTTP_PYSPECTRAL_RSR :: w_requests w) /\
  (w_requests w' = HTTP_PYSPECTRAL_RSR :: w_requests w <->
     readable (join (db_dir db) RSR_DATA_VERSION_FILENAME) w /\
     ~ says (join (db_dir db) RSR_DATA_VERSION_FILENAME) RSR_DATA_VERSION w /\
     db_download db = true /\ dry = false /\ exists c, snd (get_config x None w) = Ok c).
Proof.
  intros x db dest dry w w' o H. pose proof (updates_cases x db dest dry w) as C. cbv zeta in C. rewrite H in C.
  fold (vpath db).
  assert (D : (readable (vpath db) w /\ ~ says (vpath db) RSR_DATA_VERSION w /\ db_download db = true /\ dry = false /\ exists c, snd (get_config x None w) = Ok c)
     <-> rsr_uptodate db w = Ok false /\ db_download db = true /\ dry = false /\ exists c, snd (get_config x None w) = Ok c).
  { rewrite uptodate_false. tauto. }
  rewrite D. clear D.
  assert (Same : w_requests w' = w_requests w -> (w_requests w' = w_requests w \/ w_requests w' = HTTP_PYSPECTRAL_RSR :: w_requests w) /\
     (w_requests w' = HTTP_PYSPECTRAL_RSR :: w_requests w -> False)).
  { intros E. rewrite E. split; [auto|]. intros E'. symmetry in E'. exact (cons_neq _ _ E'). }
  destruct (rsr_uptodate db w) as [[]|e].
  - injection C as -> _. split; [auto|]. split; [intros E; symmetry in E; now apply cons_neq in E|intros (E & _); discriminate].
  - destruct (db_download db) eqn:Dd.
    + pose proof (get_config_frame x None w) as (_ & _ & F).
      destruct (get_config x None w) as [w1 [c|e]] eqn:Ec; cbn [fst] in F.
      * destruct C as (d & _ & C). destruct dry.
        -- injection C as -> _. destruct (Same F) as [S1 S2]. split; [exact S1|]. split; [contradiction|intros (_ & _ & E & _); discriminate].
        -- destruct (fetch _ _ _ _ w1) as [w2 o2] eqn:Ef. destruct (fetch_frame _ _ _ _ _ _ _ Ef) as (R & _).
           assert (w' = w2) as -> by (now injection C). rewrite R, F. split; [auto|]. split; [|reflexivity]. intros _.
           repeat split; auto. cbn. eauto.
      * injection C as -> _. destruct (Same F) as [S1 S2]. split; [exact S1|]. split; [contradiction|].
        intros (_ & _ & _ & c & E). discriminate.
    + injection C as -> _. split; [auto|]. split; [intros E; symmetry in E; now apply cons_neq in E|intros (_ & E & _); discriminate].
  - injection C as -> _. split; [auto|]. split; [intros E; symmetry in E; now apply cons_neq in E|intros (E & _); discriminate].
Qed.

(** ** once current, nothing happens *)
Lemma db_init_cases x w : match get_config x None w with
  | (w1, Err e) => rsr_db_init x w = (w1, Err e)
  | (w1, Ok c) => exists rsr ray, conf x w1 c rsr ray /\
       rsr_db_init x w = (w1, Ok {| db_dir := x_expanduser x rsr; db_download := download_enabled c |})
  end.
Proof.
  unfold rsr_db_init, iobind, lift, ret. destruct (get_config x None w) as [w1 [c|e]] eqn:Ec; [|reflexivity].
  destruct (get_config_conf _ _ _ _ Ec) as (rsr & ray & Hc & _). destruct (conf_dirs _ _ _ _ _ Hc) as [Ep _].
  exists rsr, ray. split; [exact Hc|]. now rewrite Ep.
Qed.

Definition settled (x : extern) (w : world) : Prop :=
  exists c rsr ray, conf x w c rsr ray /\ says (join (x_expanduser x rsr) RSR_DATA_VERSION_FILENAME) RSR_DATA_VERSION w.

Lemma settled_check x dest dry w : settled x w -> rsr_check_and_download x dest dry w = (w, Ok tt).
Proof.
  intros (c & rsr & ray & Hc & Hs). unfold rsr_check_and_download, iobind. pose proof (db_init_cases x w) as D.
  rewrite (conf_get_config _ _ _ _ _ Hc) in D. destruct D as (rsr' & ray' & Hc' & D).
  destruct (conf_fun _ _ _ _ _ _ _ _ _ Hc Hc' eq_refl eq_refl) as (_ & -> & ->). rewrite D.
  set (db := {| db_dir := x_expanduser x rsr; db_download := download_enabled c |}) in *.
  pose proof (updates_cases x db dest dry w) as C. cbv zeta in C.
  assert (U : rsr_uptodate db w = Ok true) by (now apply uptodate_true). rewrite U in C. rewrite C. reflexivity.
Qed.

Lemma settled_construct x A (load : string -> res (string * string * A)) p i f w : settled x w -> fst (rsr_init x load p i f w) = w.
Proof.
  intros (c & rsr & ray & Hc & Hs). unfold rsr_init, iobind. pose proof (db_init_cases x w) as D.
  rewrite (conf_get_config _ _ _ _ _ Hc) in D. destruct D as (rsr' & ray' & Hc' & D).
  destruct (conf_fun _ _ _ _ _ _ _ _ _ Hc Hc' eq_refl eq_refl) as (_ & -> & ->). rewrite D.
  set (db := {| db_dir := x_expanduser x rsr; db_download := download_enabled c |}) in *. unfold lift.
  destruct (sanitize_inputs db f p i) as [[[path p'] i']|]; [|reflexivity].
  pose proof (updates_cases x db None false w) as C. cbv zeta in C.
  assert (U : rsr_uptodate db w = Ok true) by (now apply uptodate_true). rewrite U in C.
  assert (E : (match f with Some _ => ret false | None => download_rsr_updates x db None false end) w = (w, Ok false)) by (destruct f; [reflexivity|exact C]).
  rewrite E. unfold look. destruct (load_rsr_info load path w) as [[[fp fi] data]|]; reflexivity.
Qed.

(** a completed check leaves everything settled *)
Lemma check_settles : forall x members text w w1,
  serves x HTTP_PYSPECTRAL_RSR members -> dget RSR_DATA_VERSION_FILENAME (rev members) = Some text ->
  utf8_valid text = true -> version_line text RSR_DATA_VERSION ->
  rsr_check_and_download x None false w = (w1, Ok tt) ->
  (forall c, snd (get_config x None w) = Ok c -> download_enabled c = true /\
     exists rsr, path_option "rsr_dir" c = Ok rsr /\ x_expanduser x rsr = rsr /\
       ~ written_by rsr rsr_tarball members (config_path x w)) ->
  settled x w1.
Proof.
  intros x members text w w1 Hs Hv Hu Hl H Hc. unfold rsr_check_and_download, iobind in H.
  pose proof (db_init_cases x w) as D. destruct (get_config x None w) as [w2 [c|e]] eqn:Ec; [|rewrite D in H; discriminate].
  destruct D as (rsr & ray & Hcf & D). rewrite D in H.
  destruct (Hc c eq_refl) as (Hd & rsr' & Hp & Hx & Hn). destruct (conf_dirs _ _ _ _ _ Hcf) as [Ep _]. rewrite Ep in Hp. injection Hp as <-.
  destruct (get_config_conf _ _ _ _ Ec) as (rsr2 & ray2 & Hcf2 & He & Hf & _ & _ & _ & Hfd).
  set (db := {| db_dir := x_expanduser x rsr; db_download := download_enabled c |}) in *.
  pose proof (updates_cases x db None false w2) as C. cbv zeta in C.
  destruct (rsr_uptodate db w2) as [[]|e] eqn:U.
  - rewrite C in H. injection H as <-. exists c, rsr, ray. split; [exact Hcf|]. apply uptodate_true in U. exact U.
  - assert (Edd : db_download db = true) by exact Hd. rewrite Edd in C.
    rewrite (conf_get_config _ _ _ _ _ Hcf) in C. destruct C as (d & Ed & C). rewrite Ep in Ed. injection Ed as <-.
    rewrite C in H. clear C.
    destruct (fetch x HTTP_PYSPECTRAL_RSR rsr_tarball rsr w2) as [w3 [[]|e]] eqn:Ef; [|discriminate].
    unfold ret in H. injection H as <-.
    destruct (fetch_success _ _ _ _ _ _ Ef) as (r & ms & En & Ho & Hre & Eu & _ & Hm & Hk & _ & Hdirs & Henv).
    pose proof (Hs _ _ En Ho Hre) as Hms. rewrite Eu in Hms. subst ms.
    assert (Ecp : config_path x w2 = config_path x w) by (unfold config_path; now rewrite He).
    assert (Dsame : forall d, is_dir w3 d = is_dir w2 d) by (intros d; unfold is_dir; now rewrite Hdirs).
    exists c, rsr, ray. split.
    + eapply conf_stable; [exact Hcf|exact Henv| |intros d; rewrite Dsame; auto|].
      * rewrite Ecp. now apply Hk.
      * rewrite Dsame. now destruct Hcf as (? & _ & Hnd & _).
    + exists text. rewrite Hx. split; [|split; [|split; [exact Hu|exact Hl]]].
      * apply uptodate_false in U. destruct U as [[U _] _]. rewrite Dsame. unfold vpath, db in U. cbn in U. now rewrite Hx in U.
      * apply Hm; [exact Hv|]. vm_compute. discriminate.
  - rewrite C in H. discriminate.
Qed.

(** downloading into some other directory never helps *)
Definition unsettled (x : extern) (members : list (string * string)) (dest : string) (w : world) : Prop :=
  exists c rsr ray, conf x w c rsr ray /\ download_enabled c = true /\
    readable (join (x_expanduser x rsr) RSR_DATA_VERSION_FILENAME) w /\
    ~ says (join (x_expanduser x rsr) RSR_DATA_VERSION_FILENAME) RSR_DATA_VERSION w /\
    ~ written_by dest rsr_tarball members (join (x_expanduser x rsr) RSR_DATA_VERSION_FILENAME) /\
    ~ written_by dest rsr_tarball members (config_path x w).

Lemma fetch_keeps x url members tb dir w w' o p : serves x url members -> fetch x url tb dir w = (w', o) ->
  ~ written_by dir tb members p -> dget p (w_files w') = dget p (w_files w).
Proof.
  intros Hs H Hp. unfold fetch in H. destruct (x_net x (w_requests w) url) as [r|] eqn:En; [|injection H as <- <-; reflexivity].
  destruct (transfer_events x r tb dir (log_request url w)) as [l o'] eqn:Et. injection H as <- <-.
  destruct (transfer_cut _ _ _ _ _ _ _ _ _ _ Hs En Et) as [Hc _].
  rewrite run_other; [reflexivity|]. eapply cut_avoids; [exact Hc|]. now apply full_trace_avoids.
Qed.

Lemma unsettled_check x members dest w : serves x HTTP_PYSPECTRAL_RSR members -> unsettled x members dest w ->
  let w' := fst (rsr_check_and_download x (Some dest) false w) in
  unsettled x members dest w' /\ w_requests w' = HTTP_PYSPECTRAL_RSR :: w_requests w.
Proof.
  intros Hs (c & rsr & ray & Hc & Hd & Hr & Hn & Hw1 & Hw2). cbv zeta. unfold rsr_check_and_download, iobind.
  pose proof (db_init_cases x w) as D.
  rewrite (conf_get_config _ _ _ _ _ Hc) in D. destruct D as (rsr' & ray' & Hc' & D).
  destruct (conf_fun _ _ _ _ _ _ _ _ _ Hc Hc' eq_refl eq_refl) as (_ & -> & ->). rewrite D.
  set (db := {| db_dir := x_expanduser x rsr; db_download := download_enabled c |}) in *.
  pose proof (updates_cases x db (Some dest) false w) as C. cbv zeta in C.
  assert (U : rsr_uptodate db w = Ok false) by (apply uptodate_false; auto). rewrite U in C.
  assert (Edd : db_download db = true) by exact Hd. rewrite Edd in C.
  rewrite (conf_get_config _ _ _ _ _ Hc) in C. destruct C as (d & _ & C). rewrite C. clear C.
  destruct (fetch x HTTP_PYSPECTRAL_RSR rsr_tarball dest w) as [w3 o] eqn:Ef.
  destruct (fetch_frame _ _ _ _ _ _ _ Ef) as (R & E & Dr).
  assert (K : forall p, ~ written_by dest rsr_tarball members p -> dget p (w_files w3) = dget p (w_files w)) by (intros p; eapply fetch_keeps; eauto).
  assert (Dsame : forall d, is_dir w3 d = is_dir w d) by (intros d'; unfold is_dir; now rewrite Dr).
  assert (F : fst (match (match o with Ok _ => Ok true | Err e => Err e end) with Ok _ => ret tt w3 | Err e => (w3, Err e) end) = w3) by (destruct o; reflexivity).
  rewrite F. split; [|exact R]. exists c, rsr, ray.
  assert (Ecp : config_path x w3 = config_path x w) by (unfold config_path; now rewrite E).
  split; [|split; [exact Hd|split; [|split; [|split; [exact Hw1|now rewrite Ecp]]]]].
  - eapply conf_stable; [exact Hc|exact E|now apply K|intros d'; rewrite Dsame; auto|]. rewrite Dsame. now destruct Hc as (? & _ & Hnd & _).
  - destruct Hr as [R1 R2]. split; [now rewrite Dsame|]. rewrite K by exact Hw1. exact R2.
  - intros S. apply Hn. eapply says_same; [symmetry; apply K; exact Hw1|symmetry; apply Dsame|exact S].
Qed.

Lemma other_directory : forall x members dest w n, serves x HTTP_PYSPECTRAL_RSR members -> unsettled x members dest w ->
  w_requests (checks x dest n w) = (repeat HTTP_PYSPECTRAL_RSR n ++ w_requests w)%list.
Proof.
  intros x members dest w n Hs. revert w. induction n as [|n IH]; intros w H; [reflexivity|]. cbn [checks].
  destruct (unsettled_check _ _ _ _ Hs H) as [H1 H2]. rewrite IH by exact H1. rewrite H2.
  change (repeat HTTP_PYSPECTRAL_RSR (S n)) with (HTTP_PYSPECTRAL_RSR :: repeat HTTP_PYSPECTRAL_RSR n).
  rewrite repeat_cons, <- app_assoc. reflexivity.
Qed.

(** the same without the vocabulary of this file *)
Lemma conf_from_get x w c rsr : get_config x None w = (w, Ok c) -> path_option "rsr_dir" c = Ok rsr ->
  exists ray, conf x w c rsr ray.
Proof.
  intros Hg Hp. destruct (get_config_conf _ _ _ _ Hg) as (r & y & Hc & _). destruct (conf_dirs _ _ _ _ _ Hc) as [E _].
  rewrite E in Hp. injection Hp as ->. eauto.
Qed.

Lemma quiet_after_download : forall x members text w w1 c rsr,
  serves x HTTP_PYSPECTRAL_RSR members -> dget RSR_DATA_VERSION_FILENAME (rev members) = Some text ->
  utf8_valid text = true -> version_line text RSR_DATA_VERSION ->
  snd (get_config x None w) = Ok c -> download_enabled c = true -> path_option "rsr_dir" c = Ok rsr ->
  x_expanduser x rsr = rsr -> ~ written_by rsr rsr_tarball members (config_path x w) ->
  rsr_check_and_download x None false w = (w1, Ok tt) ->
  (forall dest dry, rsr_check_and_download x dest dry w1 = (w1, Ok tt)) /\
  (forall A (load : string -> res (string * string * A)) p i f, fst (rsr_init x load p i f w1) = w1).
Proof.
  intros x members text w w1 c rsr Hs Hv Hu Hl Hg Hd Hp Hx Hw H.
  assert (S : settled x w1).
  { eapply check_settles; eauto. intros c' Hc'. rewrite Hg in Hc'. injection Hc' as <-. split; [exact Hd|]. exists rsr. auto. }
  split; [intros; now apply settled_check|intros; now apply settled_construct].
Qed.

Lemma other_directory' : forall x members dest w c rsr n,
  serves x HTTP_PYSPECTRAL_RSR members ->
  get_config x None w = (w, Ok c) -> path_option "rsr_dir" c = Ok rsr -> download_enabled c = true ->
  let vp := join (x_expanduser x rsr) RSR_DATA_VERSION_FILENAME in
  readable vp w -> ~ says vp RSR_DATA_VERSION w ->
  ~ written_by dest rsr_tarball members vp -> ~ written_by dest rsr_tarball members (config_path x w) ->
  w_requests (checks x dest n w) = (repeat HTTP_PYSPECTRAL_RSR n ++ w_requests w)%list.
Proof.
  intros x members dest w c rsr n Hs Hg Hp Hd vp Hr Hn H1 H2. destruct (conf_from_get _ _ _ _ Hg Hp) as [ray Hc].
  eapply other_directory; [exact Hs|]. exists c, rsr, ray. repeat split; auto; apply Hr.
Qed.
