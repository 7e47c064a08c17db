(** Lemmas on override_config (C68) and the ban on downloads (C72). *)
From Coq Require Import String Ascii List Bool.
From Verif Require Import Base M_Tables M_Utils M_World M_Config M_Download S_Config S_Download M_Testing S_Testing
  P_Events P_Config P_Download P_Names.
Import ListNotations.
Local Open Scope string_scope.

Lemma dhas_get {V} k (d : dict V) : dhas k d = match dget k d with Some _ => true | None => false end.
Proof. reflexivity. Qed.

(** ** the scope *)
Definition inside (p : string) (w : world) : world := set_env (dset CONFIG_VAR p (w_env w)) w.

Lemma scope_spec {A} old p (body : io A) w : let r := config_scope old p body w in let b := body (inside p w) in
  dget CONFIG_VAR (w_env (fst r)) = old /\
  (forall k, k <> CONFIG_VAR -> dget k (w_env (fst r)) = dget k (w_env (fst b))) /\
  w_files (fst r) = w_files (fst b) /\ w_dirs (fst r) = w_dirs (fst b) /\ w_requests (fst r) = w_requests (fst b) /\
  (old = None /\ dget CONFIG_VAR (w_env (fst b)) = None /\ snd r = Err KeyError \/
   (old <> None \/ dget CONFIG_VAR (w_env (fst b)) <> None) /\ snd r = snd b).
Proof.
  cbv zeta. unfold config_scope. fold (inside p w). destruct (body (inside p w)) as [w1 o]. cbn [fst snd]. destruct old as [v|].
  - cbn. rewrite dget_dset_same. repeat split; auto.
    + intros k Hk. apply dget_dset_other; congruence.
    + right. split; [left; discriminate|reflexivity].
  - rewrite dhas_get. destruct (dget CONFIG_VAR (w_env w1)) as [v|] eqn:E; cbn.
    + rewrite dget_ddel_all_same. repeat split; auto.
      * intros k Hk. apply dget_ddel_all_other; congruence.
      * right. split; [right; discriminate|reflexivity].
    + rewrite E. repeat split; auto.
Qed.

(** ** override_config *)
Definition prepared (T : tools) (o : option (dict cfg)) (d : string) (w : world) : world :=
  run_evs [ECreate (join d "pyspectral.yaml"); EAppend (join d "pyspectral.yaml") (t_dump T (match o with None => [] | Some o => o end))]
    (apply_ev (EMkdir d) w).

Lemma mkdir_frame d w : let v := apply_ev (EMkdir d) w in
  w_env v = w_env w /\ w_files v = w_files w /\ w_requests v = w_requests w /\ forall e, is_dir v e = is_dir w e || String.eqb d e.
Proof.
  cbn. destruct (is_dir w d) eqn:E; cbn; repeat split; auto; intros e.
  - destruct (String.eqb_spec d e) as [<-|]; [now rewrite E|now rewrite orb_false_r].
  - unfold is_dir. cbn. rewrite (String.eqb_sym d e). apply orb_comm.
Qed.

Lemma override_temp {A} T o (body : string -> io A) w d : t_mkdtemp T w = Ok d -> is_dir (apply_ev (EMkdir d) w) (join d "pyspectral.yaml") = false ->
  override_config T o None body w =
  (rmtree d (fst (config_scope (dget CONFIG_VAR (w_env w)) (join d "pyspectral.yaml") (body (join d "pyspectral.yaml")) (prepared T o d w))),
   snd (config_scope (dget CONFIG_VAR (w_env w)) (join d "pyspectral.yaml") (body (join d "pyspectral.yaml")) (prepared T o d w))).
Proof.
  intros Hd Hn. unfold override_config, with_temp_config, with_temp_dir. rewrite Hd. cbv zeta. unfold put, iobind. rewrite Hn.
  fold (prepared T o d w). destruct (config_scope _ _ _ _) as [w1 r]. reflexivity.
Qed.
Lemma override_failed {A} T o (body : string -> io A) w :
  (exists e, t_mkdtemp T w = Err e /\ override_config T o None body w = (w, Err e)) \/
  (exists d, t_mkdtemp T w = Ok d /\ is_dir (apply_ev (EMkdir d) w) (join d "pyspectral.yaml") = true /\
     override_config T o None body w = (rmtree d (apply_ev (EMkdir d) w), Err OSError)) \/
  exists d, t_mkdtemp T w = Ok d /\ is_dir (apply_ev (EMkdir d) w) (join d "pyspectral.yaml") = false.
Proof.
  unfold override_config, with_temp_config, with_temp_dir. destruct (t_mkdtemp T w) as [d|e]; [|left; eauto]. right.
  destruct (is_dir (apply_ev (EMkdir d) w) (join d "pyspectral.yaml")) eqn:E; [left|right; eauto].
  exists d. split; [reflexivity|]. split; [exact E|]. cbv zeta. unfold put, iobind. now rewrite E.
Qed.

Lemma restored : forall A T o path (body : string -> io A) w,
  dget "PSP_CONFIG_FILE" (w_env (fst (override_config T o path body w))) = dget "PSP_CONFIG_FILE" (w_env w).
Proof.
  intros A T o path body w. change "PSP_CONFIG_FILE" with CONFIG_VAR. destruct path as [p|].
  - unfold override_config. apply (scope_spec (dget CONFIG_VAR (w_env w)) p (body p) w).
  - destruct (override_failed T o body w) as [(e & _ & ->)|[(d & _ & _ & ->)|(d & H1 & H2)]]; [reflexivity| |].
    + cbn [fst rmtree w_env]. now rewrite (proj1 (mkdir_frame d w)).
    + rewrite (override_temp T o body w d H1 H2). cbn [fst rmtree w_env].
      apply (scope_spec (dget CONFIG_VAR (w_env w)) _ (body (join d "pyspectral.yaml")) (prepared T o d w)).
Qed.

Lemma inside_overridden p w : overridden p w (inside p w).
Proof.
  repeat split; cbn.
  - apply dget_dset_same.
  - intros k Hk. apply dget_dset_other. intros E. apply Hk. now rewrite <- E.
Qed.

Lemma given_path : forall A T o p (body : string -> io A) w,
  exists v, overridden p w v /\ w_files v = w_files w /\ w_dirs v = w_dirs w /\
    let r := override_config T o (Some p) body w in
    let b := body p v in
    (forall k, k <> "PSP_CONFIG_FILE" -> dget k (w_env (fst r)) = dget k (w_env (fst b))) /\
    w_files (fst r) = w_files (fst b) /\ w_dirs (fst r) = w_dirs (fst b) /\ w_requests (fst r) = w_requests (fst b) /\
    (dget "PSP_CONFIG_FILE" (w_env w) = None /\ dget "PSP_CONFIG_FILE" (w_env (fst b)) = None /\ snd r = Err KeyError \/
     (dget "PSP_CONFIG_FILE" (w_env w) <> None \/ dget "PSP_CONFIG_FILE" (w_env (fst b)) <> None) /\ snd r = snd b).
Proof.
  intros A T o p body w. exists (inside p w). split; [apply inside_overridden|]. split; [reflexivity|]. split; [reflexivity|].
  apply (scope_spec (dget CONFIG_VAR (w_env w)) p (body p) w).
Qed.

Lemma prepared_frame T o d w : let f := join d "pyspectral.yaml" in let v := prepared T o d w in
  w_env v = w_env w /\ w_requests v = w_requests w /\ (forall e, is_dir v e = is_dir w e || String.eqb d e) /\
  dget f (w_files v) = Some (t_dump T (match o with None => [] | Some o => o end)) /\
  forall p, p <> f -> dget p (w_files v) = dget p (w_files w).
Proof.
  cbv zeta. unfold prepared. set (f := join d "pyspectral.yaml"). set (s := t_dump T _).
  destruct (run_frame [ECreate f; EAppend f s] (apply_ev (EMkdir d) w)) as (A & B & C).
  destruct (mkdir_frame d w) as (A' & B' & C' & D'). split; [congruence|]. split; [congruence|]. split; [|split].
  - intros e. rewrite <- D'. unfold is_dir. rewrite C; [reflexivity|]. repeat constructor.
  - pose proof (appends_text f [s] (apply_ev (ECreate f) (apply_ev (EMkdir d) w)) "") as W. cbn [map] in W.
    rewrite run_cons, W; [reflexivity|]. cbn. apply dget_dset_same.
  - intros p Hp. rewrite run_other; [now rewrite B'|]. repeat constructor; cbn; congruence.
Qed.

Lemma dget_filter {V} (f : string -> bool) (d : dict V) k : dget k (filter (fun kv => f (fst kv)) d) = if f k then dget k d else None.
Proof.
  induction d as [|[a v] d IH]; cbn; [now destruct (f k)|]. destruct (f a) eqn:E; cbn.
  - rewrite IH. destruct (String.eqb_spec k a) as [->|]; [now rewrite E|reflexivity].
  - rewrite IH. destruct (String.eqb_spec k a) as [->|]; [now rewrite E|reflexivity].
Qed.
Lemma existsb_filter (f : string -> bool) l k : existsb_str k (filter f l) = existsb_str k l && f k.
Proof.
  unfold existsb_str in *. induction l as [|a l IH]; [reflexivity|]. cbn. destruct (f a) eqn:E; cbn; rewrite IH.
  - destruct (String.eqb_spec k a) as [->|]; cbn; [now rewrite E|reflexivity].
  - destruct (String.eqb_spec k a) as [->|]; cbn; [rewrite E; apply andb_false_r|reflexivity].
Qed.
Lemma slen_app a b : String.length (a ++ b) = (String.length a + String.length b)%nat.
Proof. induction a as [|c a IH]; [reflexivity|]. cbn. now rewrite IH. Qed.
Lemma join_neq d n : n <> "" -> String.eqb d (join d n) = false.
Proof.
  intros Hn. apply String.eqb_neq. intros E. assert (H : String.length d = String.length (join d n)) by (now rewrite <- E).
  unfold join in H. rewrite !slen_app in H. cbn in H. clear -H. induction (String.length d); [discriminate|]. cbn in H. auto.
Qed.

Lemma temp_path : forall A T o (body : string -> io A) w d, t_mkdtemp T w = Ok d ->
  let f := join d "pyspectral.yaml" in is_dir w f = false ->
  exists v, overridden f w v /\ dget f (w_files v) = Some (t_dump T (match o with None => [] | Some o => o end)) /\
    (forall p, p <> f -> dget p (w_files v) = dget p (w_files w)) /\ (forall e, is_dir v e = is_dir w e || String.eqb d e) /\
    let r := override_config T o None body w in
    let b := body f v in
    (forall k, k <> "PSP_CONFIG_FILE" -> dget k (w_env (fst r)) = dget k (w_env (fst b))) /\
    (forall p, dget p (w_files (fst r)) = if String.prefix (d ++ "/") p then None else dget p (w_files (fst b))) /\
    (forall e, is_dir (fst r) e = is_dir (fst b) e && negb (String.eqb d e || String.prefix (d ++ "/") e)) /\
    w_requests (fst r) = w_requests (fst b) /\
    (dget "PSP_CONFIG_FILE" (w_env w) = None /\ dget "PSP_CONFIG_FILE" (w_env (fst b)) = None /\ snd r = Err KeyError \/
     (dget "PSP_CONFIG_FILE" (w_env w) <> None \/ dget "PSP_CONFIG_FILE" (w_env (fst b)) <> None) /\ snd r = snd b).
Proof.
  intros A T o body w d Hd f Hf. destruct (prepared_frame T o d w) as (E1 & E2 & E3 & E4 & E5). fold f in E4, E5.
  assert (Hf' : is_dir (apply_ev (EMkdir d) w) f = false).
  { rewrite (proj2 (proj2 (proj2 (mkdir_frame d w)))), Hf. unfold f. now apply join_neq. }
  exists (inside f (prepared T o d w)). split.
  { destruct (inside_overridden f (prepared T o d w)) as (A1 & A2 & A3). split; [exact A1|]. split; [|now rewrite A3].
    intros k Hk. rewrite A2 by exact Hk. now rewrite E1. }
  split; [exact E4|]. split; [exact E5|]. split; [exact E3|].
  rewrite (override_temp T o body w d Hd Hf'). fold f. cbv zeta. cbn [fst snd].
  destruct (scope_spec (dget CONFIG_VAR (w_env w)) f (body f) (prepared T o d w)) as (S1 & S2 & S3 & S4 & S5 & S6).
  split; [exact S2|]. split; [|split; [|split; [exact S5|exact S6]]].
  - intros p. unfold rmtree. cbn [w_files]. rewrite (dget_filter (fun p => negb (below d p))). rewrite S3. unfold below.
    destruct (String.prefix (d ++ "/") p); reflexivity.
  - intros e. unfold is_dir, rmtree. cbn [w_dirs]. rewrite existsb_filter, S4. reflexivity.
Qed.

Lemma nested_restored {A} T ps (body : io A) w : ps <> [] ->
  dget "PSP_CONFIG_FILE" (w_env (fst (nested T ps body w))) = dget "PSP_CONFIG_FILE" (w_env w).
Proof. destruct ps as [|p ps]; [contradiction|]. intros _. cbn [nested]. apply restored. Qed.

Lemma nesting : forall A T p ps (body : io A) w, ps <> [] \/ dget "PSP_CONFIG_FILE" (w_env w) <> None ->
  exists v, overridden (last (p :: ps) "") w v /\ w_files v = w_files w /\ w_dirs v = w_dirs w /\
    let r := nested T (p :: ps) body w in let b := body v in
    snd r = snd b /\ (forall k, k <> "PSP_CONFIG_FILE" -> dget k (w_env (fst r)) = dget k (w_env (fst b))) /\
    w_files (fst r) = w_files (fst b) /\ w_dirs (fst r) = w_dirs (fst b) /\ w_requests (fst r) = w_requests (fst b).
Proof.
  intros A T p ps body. revert p. induction ps as [|q ps IH]; intros p w H.
  - destruct (given_path A T None p (fun _ => body) w) as (v & O & F & D & R1 & R2 & R3 & R4 & R5).
    exists v. repeat (split; [assumption|]). split; [|auto].
    destruct H as [H|H]; [contradiction|]. destruct R5 as [(E & _)|[_ E]]; [congruence|exact E].
  - destruct (given_path A T None p (fun _ => nested T (q :: ps) body) w) as (v1 & O1 & F1 & D1 & R1 & R2 & R3 & R4 & R5).
    destruct (IH q v1) as (v & O & F & D & Q1 & Q2 & Q3 & Q4 & Q5).
    { right. rewrite (proj1 O1). discriminate. }
    exists v. split.
    { destruct O as (A1 & A2 & A3), O1 as (B1 & B2 & B3). split; [exact A1|]. split; [|congruence].
      intros k Hk. rewrite A2 by exact Hk. auto. }
    split; [congruence|]. split; [congruence|].
    change (nested T (p :: q :: ps) body) with (override_config T None (Some p) (fun _ => nested T (q :: ps) body)).
    cbv zeta in *. split; [|split; [intros k Hk; rewrite R1 by exact Hk; auto|split; [congruence|split; congruence]]].
    destruct R5 as [(_ & E & _)|[_ E]]; [|congruence]. exfalso.
    rewrite nested_restored in E by discriminate. rewrite (proj1 O1) in E. discriminate.
Qed.

(** ** the ban *)
Definition grows {A} (m : io A) : Prop := forall w, exists l, w_requests (fst (m w)) = (l ++ w_requests w)%list.

Lemma grows_bind {A B} (m : io A) (k : A -> io B) : grows m -> (forall a, grows (k a)) -> grows (iobind m k).
Proof.
  intros Hm Hk w. unfold iobind. destruct (Hm w) as [l El]. destruct (m w) as [w1 [a|e]]; [|eauto].
  destruct (Hk a w1) as [l2 E2]. cbn [fst] in El. exists (l2 ++ l)%list. now rewrite E2, El, app_assoc.
Qed.
Lemma grows_same {A} (m : io A) : (forall w, w_requests (fst (m w)) = w_requests w) -> grows m.
Proof. intros H w. exists []. apply H. Qed.
Lemma banned_bind {A B} (m' m : io A) (k' k : A -> io B) : banned m' m -> (forall a, grows (k a)) -> (forall a, banned (k' a) (k a)) ->
  banned (iobind m' k') (iobind m k).
Proof.
  intros Hm Hg Hk w. unfold iobind. destruct (Hm w) as [(E & R & F)|(E & F & url & R & l & L)].
  - rewrite <- E. destruct (m' w) as [w1 [a|e]]; [|left; auto]. cbn [fst] in R, F.
    destruct (Hk a w1) as [(E2 & R2 & F2)|(E2 & F2 & url & R2 & l & L)].
    + left. repeat split; congruence.
    + right. rewrite <- R, <- F. eauto 8.
  - right. destruct (m' w) as [w1 o]. cbn [fst snd] in E, F, R. subst o. cbn [fst snd]. split; [reflexivity|]. split; [exact F|].
    exists url. split; [exact R|]. destruct (m w) as [w2 [a|e]]; [|eauto]. cbn [fst] in L.
    destruct (Hg a w2) as [l2 E2]. exists (l2 ++ l)%list. now rewrite E2, L, app_assoc.
Qed.
Lemma banned_same {A} (m : io A) : (forall w, w_requests (fst (m w)) = w_requests w /\ w_files (fst (m w)) = w_files w) -> banned m m.
Proof. intros H w. left. split; [reflexivity|]. apply H. Qed.

Lemma quiet_lift {A} (r : res A) : forall w, w_requests (fst (lift r w)) = w_requests w /\ w_files (fst (lift r w)) = w_files w.
Proof. auto. Qed.
Lemma quiet_config x f : forall w, w_requests (fst (get_config x f w)) = w_requests w /\ w_files (fst (get_config x f w)) = w_files w.
Proof. intros w. destruct (get_config_frame x f w) as (A & B & C). split; assumption. Qed.
Lemma quiet_makedirs x d : forall w, w_requests (fst (makedirs x d w)) = w_requests w /\ w_files (fst (makedirs x d w)) = w_files w.
Proof. intros w. destruct (makedirs_frame x d w) as (A & B & C). split; assumption. Qed.

Section Ban.
  Variable x : extern.
  Let y := forbid_pyspectral_downloads x.

  Lemma config_same f : get_config y f = get_config x f. Proof. reflexivity. Qed.
  Lemma makedirs_same d : makedirs y d = makedirs x d. Proof. reflexivity. Qed.

  Lemma fetch_grows z url tb dir : grows (fetch z url tb dir).
  Proof.
    intros w. exists [url]. unfold fetch. destruct (x_net z (w_requests w) url) as [r|]; [|reflexivity].
    destruct (transfer_events z r tb dir (log_request url w)) as [l o]. cbn [fst]. now rewrite (proj1 (proj2 (run_frame l _))).
  Qed.
  Lemma fetch_banned url tb dir : banned (fetch y url tb dir) (fetch x url tb dir).
  Proof.
    intros w. right. split; [reflexivity|]. split; [reflexivity|]. exists url. split; [reflexivity|]. exists [].
    unfold fetch. destruct (x_net x (w_requests w) url) as [r|]; [|reflexivity].
    destruct (transfer_events x r tb dir (log_request url w)) as [l o]. cbn [fst]. now rewrite (proj1 (proj2 (run_frame l _))).
  Qed.

  (** both facts together, closed under sequencing *)
  Definition tame {A} (m' m : io A) : Prop := grows m /\ banned m' m.
  Lemma tame_bind {A B} (m' m : io A) (k' k : A -> io B) : tame m' m -> (forall a, tame (k' a) (k a)) -> tame (iobind m' k') (iobind m k).
  Proof.
    intros [G N] H. split; [apply grows_bind; [exact G|intros a; apply H]|].
    apply banned_bind; [exact N|intros a; apply H|intros a; apply H].
  Qed.
  Lemma tame_same {A} (m : io A) : (forall w, w_requests (fst (m w)) = w_requests w /\ w_files (fst (m w)) = w_files w) -> tame m m.
  Proof. intros H. split; [apply grows_same; apply H|now apply banned_same]. Qed.
  Lemma tame_fetch url tb dir : tame (fetch y url tb dir) (fetch x url tb dir).
  Proof. split; [apply fetch_grows|apply fetch_banned]. Qed.
  Lemma tame_config f : tame (get_config y f) (get_config x f).
  Proof. rewrite config_same. apply tame_same, quiet_config. Qed.
  Lemma tame_makedirs d : tame (makedirs y d) (makedirs x d).
  Proof. rewrite makedirs_same. apply tame_same, quiet_makedirs. Qed.
  Lemma tame_lift {A} (r : res A) : tame (lift r) (lift r).
  Proof. apply tame_same, quiet_lift. Qed.
  Lemma tame_ret {A} (a : A) : tame (ret a) (ret a).
  Proof. apply tame_same. auto. Qed.
  Lemma tame_look {A} (f : world -> res A) : tame (look f) (look f).
  Proof. apply tame_same. auto. Qed.

  Ltac step := first [apply tame_config | apply tame_makedirs | apply tame_lift | apply tame_ret | apply tame_look | apply tame_fetch
    | apply tame_bind; [|intros ?]
    | match goal with |- tame (if ?b then _ else _) (if ?b then _ else _) => destruct b end
    | match goal with |- tame (match ?b with _ => _ end) (match ?b with _ => _ end) => destruct b end
    | progress cbv zeta ].

  Lemma tame_db : tame (rsr_db_init y) (rsr_db_init x).
  Proof. unfold rsr_db_init. repeat step. Qed.
  Lemma tame_download_rsr dest dry : tame (download_rsr y dest dry) (download_rsr x dest dry).
  Proof. unfold download_rsr. repeat step. Qed.
  Lemma tame_updates db dest dry : tame (download_rsr_updates y db dest dry) (download_rsr_updates x db dest dry).
  Proof. unfold download_rsr_updates. repeat step. Qed.
  Lemma tame_check dest dry : tame (rsr_check_and_download y dest dry) (rsr_check_and_download x dest dry).
  Proof. unfold rsr_check_and_download. apply tame_bind; [apply tame_db|]. intros db. apply tame_bind; [apply tame_updates|intros; apply tame_ret]. Qed.
  Lemma tame_rsr A (load : string -> res (string * string * A)) p i f : tame (rsr_init y load p i f) (rsr_init x load p i f).
  Proof.
    unfold rsr_init. apply tame_bind; [apply tame_db|]. intros db. apply tame_bind; [apply tame_lift|]. intros [[path p'] i'].
    apply tame_bind; [destruct f; [apply tame_ret|apply tame_updates]|]. intros _. apply tame_bind; [apply tame_look|].
    intros [[fp fi] data]. apply tame_ret.
  Qed.
  Lemma tame_lut_dir t : tame (get_rayleigh_lut_dir y t) (get_rayleigh_lut_dir x t).
  Proof. unfold get_rayleigh_lut_dir. repeat step. Qed.
  Lemma tame_download_lut dry t : tame (download_lut y dry t) (download_lut x dry t).
  Proof. unfold download_lut. apply tame_bind; [apply tame_lift|]. intros u. apply tame_bind; [apply tame_lut_dir|]. intros d. repeat step. Qed.
  Lemma tame_for_each {A} (f' f : A -> io unit) l : (forall a, tame (f' a) (f a)) -> tame (for_each f' l) (for_each f l).
  Proof. intros H. induction l as [|a l IH]; cbn [for_each]; [apply tame_ret|]. apply tame_bind; [apply H|intros; exact IH]. Qed.
  Lemma tame_luts a dry b : tame (download_luts y a dry b) (download_luts x a dry b).
  Proof. apply tame_for_each. intros t. apply tame_download_lut. Qed.
  Lemma tame_base t a : tame (ray_base_init y t a) (ray_base_init x t a).
  Proof.
    unfold ray_base_init. apply tame_bind; [apply tame_config|]. intros c. repeat step.
  Qed.
  Lemma tame_ray p s t a : tame (ray_init y p s t a) (ray_init x p s t a).
  Proof.
    unfold ray_init. apply tame_bind; [apply tame_base|]. intros b. apply tame_bind; [apply tame_lift|]. intros s'.
    apply tame_bind; [apply tame_lut_dir|]. intros d. cbv zeta. apply tame_bind; [|intros; apply tame_ret].
    destruct (negb (rb_uptodate b) && rb_download b); [apply tame_luts|apply tame_ret].
  Qed.
  Lemma tame_needed l : tame (needed_types y l) (needed_types x l).
  Proof.
    induction l as [|t l IH]; cbn [needed_types]; [apply tame_ret|]. apply tame_bind; [apply tame_base|]. intros b.
    apply tame_bind; [exact IH|intros; apply tame_ret].
  Qed.
  Lemma tame_check_luts dry l : tame (ray_check_and_download y dry l) (ray_check_and_download x dry l).
  Proof.
    unfold ray_check_and_download. cbv zeta. apply tame_bind; [apply tame_needed|]. intros n. destruct n; [apply tame_ret|apply tame_luts].
  Qed.

  Lemma ban_all :
    (forall dest dry, banned (rsr_check_and_download y dest dry) (rsr_check_and_download x dest dry)) /\
    (forall A (load : string -> res (string * string * A)) p i f, banned (rsr_init y load p i f) (rsr_init x load p i f)) /\
    (forall p s t a, banned (ray_init y p s t a) (ray_init x p s t a)) /\
    (forall dry l, banned (ray_check_and_download y dry l) (ray_check_and_download x dry l)) /\
    (forall dest dry, banned (download_rsr y dest dry) (download_rsr x dest dry)) /\
    (forall a dry b, banned (download_luts y a dry b) (download_luts x a dry b)).
  Proof.
    split; [intros; apply tame_check|]. split; [intros; apply tame_rsr|]. split; [intros; apply tame_ray|].
    split; [intros; apply tame_check_luts|]. split; [intros; apply tame_download_rsr|intros; apply tame_luts].
  Qed.
End Ban.
