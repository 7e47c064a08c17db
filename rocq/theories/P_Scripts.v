(** Lemmas on the download scripts (C91). *)
From Coq Require Import String Ascii List Bool ZArith.
From Verif Require Import Base NumSig XR M_Tables M_Utils M_World M_Config M_Logging M_Download M_Scripts S_Utils S_Scripts S_Config S_Download S_Logging
  P_Strings P_Events P_Config P_Download P_Crash P_Lut P_Lut2 P_Logging P_Testing P_Testing5.
Import ListNotations.
Local Open Scope string_scope.

Definition still {A} (m : io A) : Prop := forall w, harmless w (fst (m w)).
Lemma still_bind {A B} (m : io A) (k : A -> io B) : still m -> (forall a, still (k a)) -> still (iobind m k).
Proof.
  intros Hm Hk w. unfold iobind. specialize (Hm w). destruct (m w) as [w1 [a|e]]; cbn [fst] in Hm; [|exact Hm].
  destruct (Hk a w1) as [R F]. destruct Hm as [R1 F1]. split; congruence.
Qed.
Lemma still_ret {A} (a : A) : still (ret a). Proof. split; reflexivity. Qed.
Lemma still_lift {A} (r : res A) : still (lift r). Proof. split; reflexivity. Qed.
Lemma still_look {A} (f : world -> res A) : still (look f). Proof. split; reflexivity. Qed.
Lemma still_config x f : still (get_config x f). Proof. exact (quiet_config x f). Qed.
Ltac still := repeat first [apply still_bind; intros | apply still_ret | apply still_lift | apply still_look | apply still_config
  | match goal with |- still (if ?b then _ else _) => destruct b end | match goal with |- still (match ?m with _ => _ end) => destruct m end].
Lemma still_lut_dir x t : still (get_rayleigh_lut_dir x t). Proof. unfold get_rayleigh_lut_dir. still. Qed.
Lemma still_base x t atm : still (ray_base_init x t atm).
Proof. unfold ray_base_init, get_lutfiles_version. still. Qed.
Lemma still_needed x types : still (needed_types x types).
Proof.
  induction types as [|t rest IH]; [apply still_ret|]. cbn [needed_types]. apply still_bind; [apply still_base|]. intros b.
  apply still_bind; [exact IH|]. intros l. apply still_ret.
Qed.
Lemma still_luts_dry x many one : still (download_luts x many true one).
Proof.
  unfold download_luts. induction (get_aerosol_types many one) as [|t rest IH]; cbn [for_each]; [apply still_ret|].
  apply still_bind; [unfold download_lut; still|]. intros _. exact IH.
Qed.
Lemma still_ray_dry x a : still (ray_check_and_download x true a).
Proof. unfold ray_check_and_download. cbv zeta. apply still_bind; [apply still_needed|]. intros l. destruct l; [apply still_ret|apply still_luts_dry]. Qed.
Lemma still_rsr_dry x dest : still (rsr_check_and_download x dest true).
Proof. unfold rsr_check_and_download, rsr_db_init, download_rsr_updates, download_rsr. still. Qed.

Lemma dry_runs : forall x s w,
  (forall a, da_dry_run a = true -> harmless w (fst (snd (download_rsr_main x a s w)))) /\
  (forall a, la_dry_run a = true -> harmless w (fst (snd (download_luts_main x a s w)))).
Proof.
  intros x s w. split; intros a H.
  - unfold download_rsr_main. cbn [snd]. rewrite H. destruct (da_destination a) as [[|c d]|]; apply still_rsr_dry.
  - unfold download_luts_main. cbn [snd]. rewrite H. apply still_ray_dry.
Qed.

(** downloading switched off *)
Lemma still_fetchless x dest dry v : (forall w1 c, get_config x None v = (w1, Ok c) -> download_enabled c = false) ->
  harmless v (fst (rsr_check_and_download x dest dry v)).
Proof.
  intros H. pose proof (quiet_config x None v) as Q. pose proof (db_init_cases x v) as Db.
  unfold rsr_check_and_download, iobind at 1. destruct (get_config x None v) as [w1 [c|e]]; [|rewrite Db; exact Q].
  specialize (H w1 c eq_refl). destruct Db as (rsr & ray & _ & ->). unfold iobind, download_rsr_updates, look.
  cbn [db_download]. rewrite H. unfold iobind. destruct (rsr_uptodate _ w1) as [[]|e]; cbn; exact Q.
Qed.
Lemma rsr_script_off : forall x a s w w1 c rsr, get_config x None w = (w1, Ok c) -> ~ wants_downloads c -> path_option "rsr_dir" c = Ok rsr ->
  readable (join (x_expanduser x rsr) RSR_DATA_VERSION_FILENAME) w1 ->
  snd (download_rsr_main x a s w) = (w1, Ok tt) /\ harmless w w1.
Proof.
  intros x a s w w1 c rsr Hc Hd Hr Hv. assert (Hd' : download_enabled c = false).
  { destruct (download_enabled c) eqn:E; [|reflexivity]. apply download_enabled_iff in E. contradiction. }
  pose proof (quiet_config x None w) as Q. rewrite Hc in Q. split; [|exact Q].
  assert (E : forall dest, rsr_check_and_download x dest (da_dry_run a) w = (w1, Ok tt)).
  { intros dest. unfold rsr_check_and_download, rsr_db_init, iobind. rewrite Hc. unfold lift. rewrite Hr. unfold ret.
    unfold download_rsr_updates, iobind, look. cbn [db_download].
    set (db := {| db_dir := x_expanduser x rsr; db_download := download_enabled c |}). rewrite Hd'.
    assert (U : exists b, rsr_uptodate db w1 = Ok b). { apply uptodate_ok. exact Hv. }
    destruct U as [[] ->]; reflexivity. }
  unfold download_rsr_main. cbn [snd]. destruct (da_destination a) as [[|ch d]|]; apply E.
Qed.

Lemma lut_script_types : forall x s w dry v l, l = [] \/ l = AEROSOL_TYPES ->
  download_luts_main x {| la_aerosol_types := Some l; la_dry_run := dry; la_verbose := v |} s w =
  download_luts_main x {| la_aerosol_types := None; la_dry_run := dry; la_verbose := v |} s w.
Proof. intros x s w dry v l [->| ->]; reflexivity. Qed.
Lemma empty_destination : forall x s w dry v,
  download_rsr_main x {| da_destination := Some ""; da_dry_run := dry; da_verbose := v |} s w =
  download_rsr_main x {| da_destination := None; da_dry_run := dry; da_verbose := v |} s w.
Proof. reflexivity. Qed.
Lemma script_output : forall x a b s w name lv, fresh s ->
  printed (fst (download_rsr_main x a s w)) name lv = (if da_verbose a && (10 <=? lv)%Z then 1 else 0)%nat /\
  printed (fst (download_luts_main x b s w)) name lv = (if la_verbose b && (10 <=? lv)%Z then 1 else 0)%nat.
Proof.
  assert (H : forall v s name lv, fresh s -> printed (script_logging v s) name lv = (if v && (10 <=? lv)%Z then 1 else 0)%nat).
  { intros v s name lv Hf. destruct v.
    - apply (debug_prints s [] name lv Hf). intros [].
    - assert (E : forall k, In k (emit (script_logging false s) name lv) -> k <> Console).
      { intros k Hk. destruct (off_emit s [] name lv k Hf Hk) as [->|(_ & n & l & h & _ & _ & _ & Hc)]; [discriminate|exact Hc]. }
      cbn [andb]. unfold printed. induction (emit _ name lv) as [|k l IH]; [reflexivity|]. cbn [filter].
      pose proof (E k (or_introl eq_refl)). destruct k; try congruence; apply IH; intros; apply E; now right. }
  intros x a b s w name lv Hf. split; apply H; exact Hf.
Qed.

(** what is installed, and where *)
Lemma rsr_script_installs : forall x a s w w1 c rsr w' members, get_config x None w = (w1, Ok c) -> wants_downloads c ->
  path_option "rsr_dir" c = Ok rsr -> readable (join (x_expanduser x rsr) RSR_DATA_VERSION_FILENAME) w1 ->
  ~ says (join (x_expanduser x rsr) RSR_DATA_VERSION_FILENAME) RSR_DATA_VERSION w1 -> da_dry_run a = false ->
  serves x HTTP_PYSPECTRAL_RSR members -> snd (download_rsr_main x a s w) = (w', Ok tt) ->
  let dir := match da_destination a with None | Some "" => rsr | Some d => d end in
  w_requests w' = HTTP_PYSPECTRAL_RSR :: w_requests w /\
  (forall n t, dget n (rev members) = Some t -> n <> rsr_tarball -> dget (join dir n) (w_files w') = Some t) /\
  (forall p, ~ written_by dir rsr_tarball members p -> dget p (w_files w') = dget p (w_files w)).
Proof.
  intros x a s w w1 c rsr w' members Hc Hd Hr Hv Hn Hdry Hs H dir. apply download_enabled_iff in Hd.
  pose proof (quiet_config x None w) as Q. rewrite Hc in Q. cbn [fst] in Q. destruct Q as [Q1 Q2].
  destruct (get_config_conf _ _ _ _ Hc) as (rd & ray & Hcf & _). pose proof (conf_get_config _ _ _ _ _ Hcf) as Hg.
  assert (E : forall dest, rsr_check_and_download x dest false w =
     let (w2, o) := fetch x HTTP_PYSPECTRAL_RSR rsr_tarball (match dest with Some d => d | None => rsr end) w1 in
     (w2, match o with Ok _ => Ok tt | Err e => Err e end)).
  { intros dest. unfold rsr_check_and_download, rsr_db_init, iobind. rewrite Hc. unfold lift. rewrite Hr. unfold ret.
    unfold download_rsr_updates, download_rsr, iobind, look. cbn [db_download].
    set (db := {| db_dir := x_expanduser x rsr; db_download := download_enabled c |}). rewrite Hd.
    assert (U : rsr_uptodate db w1 = Ok false) by (apply uptodate_false; auto). rewrite U. cbn [negb]. rewrite Hg. unfold lift. rewrite Hr.
    destruct (fetch _ _ _ _ _) as [w2 [[]|e]]; reflexivity. }
  assert (F : fetch x HTTP_PYSPECTRAL_RSR rsr_tarball dir w1 = (w', Ok tt)).
  { unfold download_rsr_main in H. cbn [snd] in H. rewrite Hdry in H. unfold dir.
    destruct (da_destination a) as [[|ch d]|]; rewrite E in H;
    destruct (fetch x HTTP_PYSPECTRAL_RSR rsr_tarball _ w1) as [w2 [[]|e]]; now injection H as ->. }
  destruct (fetch_success _ _ _ _ _ _ F) as (r & ms & N1 & N2 & N3 & N4 & _ & A & B & C & _ & _).
  specialize (Hs _ _ N1 N2 N3). rewrite N4 in Hs. subst ms. rewrite Q1 in C. rewrite Q2 in B. auto.
Qed.
Lemma lut_script_requests : forall x s w w1 c ray a members,
  get_config x None w = (w1, Ok c) -> path_option "rayleigh_dir" c = Ok ray -> la_dry_run a = false ->
  (forall t, In t (asked (la_aerosol_types a)) -> In t AEROSOL_TYPES) -> (forall t, In t (asked (la_aerosol_types a)) -> lut_readable ray t w1) ->
  (forall t, In t AEROSOL_TYPES -> serves x (lut_url t) (members t)) ->
  (forall t, In t (asked (la_aerosol_types a)) -> ~ written_by (join ray t) lut_tarball (members t) (config_path x w)) ->
  forall w' o, snd (download_luts_main x a s w) = (w', o) ->
  exists l k, outdated ray w1 (asked (la_aerosol_types a)) l /\
    w_requests w' = (rev (map lut_url (firstn k l)) ++ w_requests w)%list /\ (o = Ok tt -> firstn k l = l).
Proof.
  intros x s w w1 c ray a members Hc Hr Hdry H1 H2 H3 H4 w' o H. unfold download_luts_main in H. cbn [snd] in H. rewrite Hdry in H.
  set (t := Some _) in H. assert (E : asked t = asked (la_aerosol_types a)) by (unfold t; destruct (la_aerosol_types a) as [[|? ?]|]; reflexivity).
  rewrite <- E in *. destruct (lut_check x w w1 c ray t members Hc Hr H1 H2 H3 H4 w' o H) as (l & k & A & B & C & _).
  exists l, k. auto.
Qed.
