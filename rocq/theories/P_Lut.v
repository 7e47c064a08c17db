(** Lemmas on constructing response and Rayleigh objects and on LUT downloads
    (C41, C42, C44, C62). *)
From Coq Require Import String Ascii List Bool.
From Verif Require Import Base M_Tables M_Utils M_World M_Config M_Download S_Names S_Download P_Strings P_Events P_Config P_Download P_Crash.
Import ListNotations.
Local Open Scope string_scope.

(** ** C44 *)
Lemma init_rejected : forall x A (load : string -> res (string * string * A)) p i f w w1 c,
  get_config x None w = (w1, Ok c) ->
  ~ (f <> None /\ p = None /\ i = None) -> ~ (f = None /\ p <> None /\ i <> None) ->
  rsr_init x load p i f w = (w1, Err ValueError).
Proof.
  intros x A load p i f w w1 c Hg H1 H2. unfold rsr_init, iobind. pose proof (db_init_cases x w) as D. rewrite Hg in D.
  destruct D as (rsr & ray & Hc & ->). unfold lift, sanitize_inputs.
  destruct f as [f|], i as [i|], p as [p|]; try reflexivity.
  - exfalso. apply H1. repeat split; discriminate.
  - exfalso. apply H2. repeat split; discriminate.
Qed.

Lemma init_file : forall x A (load : string -> res (string * string * A)) f w w1 c,
  get_config x None w = (w1, Ok c) ->
  rsr_init x load None None (Some f) w =
    (w1, match read_file w1 f with
         | Err e => Err e
         | Ok text => match load text with
                      | Err e => Err e
                      | Ok (fp, fi, data) => Ok {| ro_file := f; ro_platform := fp; ro_instrument := fi; ro_data := data |}
                      end
         end) /\ w_requests w1 = w_requests w /\ w_files w1 = w_files w.
Proof.
  intros x A load f w w1 c Hg. split.
  - unfold rsr_init, iobind. pose proof (db_init_cases x w) as D. rewrite Hg in D.
    destruct D as (rsr & ray & Hc & ->). unfold lift, look, ret, load_rsr_info. cbn [sanitize_inputs].
    destruct (read_file w1 f) as [t|]; [|reflexivity]. cbn [bind]. destruct (load t) as [[[fp fi] data]|]; reflexivity.
  - pose proof (get_config_frame x None w) as F. rewrite Hg in F. cbn in F. tauto.
Qed.

Lemma adjust_total p i : exists i', check_and_adjust_instrument_name p i = Ok i'.
Proof. destruct (P_Names.adjust_spec p i) as (r & E & _). eauto. Qed.

Lemma init_names : forall x A (load : string -> res (string * string * A)) p i w w1 c rsr w' ob,
  get_config x None w = (w1, Ok c) -> path_option "rsr_dir" c = Ok rsr ->
  rsr_init x load (Some p) (Some i) None w = (w', Ok ob) ->
  check_and_adjust_instrument_name p i = Ok (ro_instrument ob) /\ ro_platform ob = p /\
  ro_file ob = join (x_expanduser x rsr) ("rsr_" ++ ro_instrument ob ++ "_" ++ p ++ ".h5") /\
  exists text fp fi, dget (ro_file ob) (w_files w') = Some text /\ load text = Ok (fp, fi, ro_data ob).
Proof.
  intros x A load p i w w1 c rsr w' ob Hg Hp. unfold rsr_init, iobind. pose proof (db_init_cases x w) as D. rewrite Hg in D.
  destruct D as (rsr' & ray & Hc & ->). destruct (conf_dirs _ _ _ _ _ Hc) as [Ep _]. rewrite Ep in Hp. injection Hp as ->.
  unfold lift. cbn [sanitize_inputs]. destruct (adjust_total p i) as [i' Ei]. rewrite Ei. cbn [bind].
  destruct (download_rsr_updates _ _ _ _ _) as [w2 [b|]]; [|discriminate]. unfold look, ret, load_rsr_info, read_file.
  cbn [db_dir]. set (path := join (x_expanduser x rsr) (get_rsr_filename p i')).
  destruct (is_dir w2 path); [discriminate|]. destruct (dget path (w_files w2)) as [text|] eqn:Et; [|discriminate]. cbn [of_option bind].
  destruct (load text) as [[[fp fi] data]|] eqn:El; [|discriminate]. intros [= <- <-]. cbn.
  repeat split. exists text, fp, fi. auto.
Qed.

(** an accepted call can only fail for another reason than its arguments: the
    outcome is that of the check followed by reading the file *)
Lemma init_names_outcome : forall x A (load : string -> res (string * string * A)) p i w w1 c rsr,
  get_config x None w = (w1, Ok c) -> path_option "rsr_dir" c = Ok rsr ->
  exists i', check_and_adjust_instrument_name p i = Ok i' /\
  let db := {| db_dir := x_expanduser x rsr; db_download := download_enabled c |} in
  let path := join (x_expanduser x rsr) ("rsr_" ++ i' ++ "_" ++ p ++ ".h5") in
  let (w2, o) := download_rsr_updates x db None false w1 in
  rsr_init x load (Some p) (Some i) None w =
    (w2, match o with
         | Err e => Err e
         | Ok _ => match read_file w2 path with
                   | Err e => Err e
                   | Ok text => match load text with
                                | Err e => Err e
                                | Ok (_, _, data) => Ok {| ro_file := path; ro_platform := p; ro_instrument := i'; ro_data := data |}
                                end
                   end
         end).
Proof.
  intros x A load p i w w1 c rsr Hg Hp. destruct (adjust_total p i) as [i' Ei]. exists i'. split; [exact Ei|].
  unfold rsr_init, iobind. pose proof (db_init_cases x w) as D. rewrite Hg in D.
  destruct D as (rsr' & ray & Hc & ->). destruct (conf_dirs _ _ _ _ _ Hc) as [Ep _]. rewrite Ep in Hp. injection Hp as ->.
  cbv zeta. unfold lift. cbn [sanitize_inputs]. rewrite Ei. cbn [bind].
  destruct (download_rsr_updates _ _ _ _ _) as [w2 [b|]]; [|reflexivity]. unfold look, ret, load_rsr_info, get_rsr_filename. cbn [db_dir].
  destruct (read_file w2 _) as [text|]; [|reflexivity]. cbn [bind]. destruct (load text) as [[[fp fi] data]|]; reflexivity.
Qed.

(** ** tables *)
Definition type_ok (t : string) : bool :=
  match dget t ATM_CORRECTION_LUT_VERSION, dget t HTTPS_RAYLEIGH_LUTS with
  | Some (v, f), Some u => negb (String.eqb v "v0.0.0") && String.eqb u (lut_url t) && negb (has_char "/" t) && negb (has_char "/" f)
        && negb (String.eqb f lut_tarball) && negb (String.eqb t "")
  | _, _ => false
  end.
Lemma types_ok : forallb type_ok AEROSOL_TYPES = true.
Proof. vm_compute. reflexivity. Qed.
Lemma type_facts t : In t AEROSOL_TYPES -> exists v f, dget t ATM_CORRECTION_LUT_VERSION = Some (v, f) /\ v <> "v0.0.0" /\
  dget t HTTPS_RAYLEIGH_LUTS = Some (lut_url t) /\ has_char "/" t = false /\ has_char "/" f = false /\ f <> lut_tarball.
Proof.
  intros H. pose proof types_ok as E. rewrite forallb_forall in E. specialize (E t H). unfold type_ok in E.
  destruct (dget t ATM_CORRECTION_LUT_VERSION) as [[v f]|]; [|discriminate]. destruct (dget t HTTPS_RAYLEIGH_LUTS) as [u|]; [|discriminate].
  rewrite !andb_true_iff, !negb_true_iff in E. destruct E as (((((E1 & E2) & E3) & E4) & E5) & _).
  exists v, f. apply String.eqb_eq in E2. subst u. repeat split; auto.
  - intros ->. now rewrite String.eqb_refl in E1.
  - intros ->. now rewrite String.eqb_refl in E5.
Qed.

Lemma nodup_b (l : list string) : (fix nd l := match l with [] => true | a :: t => negb (existsb_str a t) && nd t end) l = true -> NoDup l.
Proof.
  induction l as [|a l IH]; [constructor|]. rewrite andb_true_iff, negb_true_iff. intros [H1 H2]. constructor; [|auto].
  intros Hin. apply existsb_In in Hin. congruence.
Qed.
Lemma tables_distinct :
  NoDup AEROSOL_TYPES /\ NoDup (map lut_url AEROSOL_TYPES) /\
  NoDup (map (fun t => match dget t ATM_CORRECTION_LUT_VERSION with Some (_, f) => f | None => "" end) AEROSOL_TYPES) /\
  forall t, In t AEROSOL_TYPES -> exists v f, dget t ATM_CORRECTION_LUT_VERSION = Some (v, f) /\
    dget t HTTPS_RAYLEIGH_LUTS = Some (lut_url t).
Proof.
  split; [|split; [|split]]; try (apply nodup_b; vm_compute; reflexivity).
  intros t H. destruct (type_facts t H) as (v & f & A & _ & B & _). eauto.
Qed.

(** ** the base class *)
Lemma lut_dir_eq x w c rsr ray t : conf x w c rsr ray -> get_rayleigh_lut_dir x t w = (w, Ok (join ray t)).
Proof.
  intros Hc. unfold get_rayleigh_lut_dir, iobind, lift, ret. rewrite (conf_get_config _ _ _ _ _ Hc).
  destruct (conf_dirs _ _ _ _ _ Hc) as [_ ->]. reflexivity.
Qed.

Lemma base_init x w w1 c rsr ray t atm : get_config x None w = (w1, Ok c) -> conf x w1 c rsr ray ->
  if negb (dhas atm ATMOSPHERES) then ray_base_init x t atm w = (w1, Err AttributeError)
  else if negb (existsb_str t AEROSOL_TYPES) then ray_base_init x t atm w = (w1, Err AttributeError)
  else exists v f, dget t ATM_CORRECTION_LUT_VERSION = Some (v, f) /\ v <> "v0.0.0" /\
    ray_base_init x t atm w =
      (w1, ver <- read_version (join (join ray t) f) w1 ;;
           Ok {| rb_download := download_enabled c; rb_uptodate := String.eqb ver v; rb_aerosol := t |}).
Proof.
  intros Hg Hc. assert (Hk : forall B (k : dict cfg -> io B), iobind (get_config x None) k w = k c w1) by (intros; unfold iobind; now rewrite Hg).
  unfold ray_base_init. rewrite !Hk. clear Hk.
  destruct (negb (dhas atm ATMOSPHERES)); [reflexivity|]. destruct (negb (existsb_str t AEROSOL_TYPES)) eqn:Et; [reflexivity|].
  rewrite negb_false_iff in Et. apply existsb_In in Et. destruct (type_facts t Et) as (v & f & A & B & _).
  exists v, f. split; [exact A|]. split; [exact B|]. rewrite A.
  unfold get_lutfiles_version, iobind, look, ret. rewrite (lut_dir_eq _ _ _ _ _ _ Hc).
  destruct (read_version (join (join ray t) f) w1); reflexivity.
Qed.

Lemma unsupported : forall x t atm w w1 c, get_config x None w = (w1, Ok c) ->
  dget atm ATMOSPHERES = None \/ ~ In t AEROSOL_TYPES -> ray_base_init x t atm w = (w1, Err AttributeError).
Proof.
  intros x t atm w w1 c Hg H. destruct (get_config_conf _ _ _ _ Hg) as (rsr & ray & Hc & _).
  pose proof (base_init x w w1 c rsr ray t atm Hg Hc) as B. unfold dhas in B.
  destruct (dget atm ATMOSPHERES) as [n|]; cbn [negb] in B; [|exact B].
  destruct (existsb_str t AEROSOL_TYPES) eqn:E; cbn [negb] in B; [|exact B].
  apply existsb_In in E. destruct H; [discriminate|contradiction].
Qed.

Lemma base_supported x w w1 c rsr ray t atm n : get_config x None w = (w1, Ok c) -> conf x w1 c rsr ray ->
  dget atm ATMOSPHERES = Some n -> In t AEROSOL_TYPES ->
  (forall b, ray_base_init x t atm w = (w1, Ok b) ->
     rb_download b = download_enabled c /\ (rb_uptodate b = true <-> lut_current ray t w1) /\ rb_aerosol b = t) /\
  (lut_readable ray t w1 <-> exists b, ray_base_init x t atm w = (w1, Ok b)) /\
  fst (ray_base_init x t atm w) = w1.
Proof.
  intros Hg Hc Ha Ht. pose proof (base_init x w w1 c rsr ray t atm Hg Hc) as B. unfold dhas in B. rewrite Ha in B. cbn [negb] in B.
  assert (E : existsb_str t AEROSOL_TYPES = true) by (now apply existsb_In). rewrite E in B. cbn [negb] in B.
  destruct B as (v & f & A & Hv & B). rewrite B. split; [|split; [|reflexivity]].
  - intros b Hb. destruct (read_version (join (join ray t) f) w1) as [ver|] eqn:R; [|discriminate]. cbn in Hb. injection Hb as <-.
    cbn. repeat split; auto.
    + intros H. apply String.eqb_eq in H. subst ver. exists v, f. split; [exact A|]. now apply read_version_says.
    + intros (v' & f' & A' & S). rewrite A in A'. injection A' as <- <-. apply read_version_says in S; [|exact Hv].
      rewrite R in S. injection S as ->. apply String.eqb_refl.
  - unfold lut_readable. split.
    + intros H. specialize (H v f A). apply read_version_ok in H. destruct H as [ver ->]. cbn. eauto.
    + intros [b Hb] v' f' A'. rewrite A in A'. injection A' as <- <-. apply read_version_ok.
      destruct (read_version (join (join ray t) f) w1); [eauto|discriminate].
Qed.

(** ** one LUT *)
Lemma download_lut_step x w c rsr ray t w' o : conf x w c rsr ray -> In t AEROSOL_TYPES ->
  download_lut x false t w = (w', o) ->
  (w_requests w' = w_requests w /\ w' = w /\ exists e, o = Err e) \/
  exists w1, makedirs x (join ray t) w = (w1, Ok tt) /\ fetch x (lut_url t) lut_tarball (join ray t) w1 = (w', o).
Proof.
  intros Hc Ht. unfold download_lut, iobind, lift. destruct (type_facts t Ht) as (v & f & _ & _ & U & _). rewrite U. cbn [of_option].
  rewrite (lut_dir_eq _ _ _ _ _ _ Hc). destruct (makedirs x (join ray t) w) as [w1 [[]|e]] eqn:M.
  - intros H. right. eauto.
  - apply makedirs_err in M. intros [= <- <-]. left. subst. repeat split; eauto.
Qed.

Lemma download_lut_dry x w c rsr ray t : conf x w c rsr ray -> In t AEROSOL_TYPES -> download_lut x true t w = (w, Ok tt).
Proof.
  intros Hc Ht. unfold download_lut, iobind, lift, ret. destruct (type_facts t Ht) as (v & f & _ & _ & U & _). rewrite U. cbn [of_option].
  now rewrite (lut_dir_eq _ _ _ _ _ _ Hc).
Qed.

Lemma download_lut_unknown x t dry w : dget t HTTPS_RAYLEIGH_LUTS = None -> download_lut x dry t w = (w, Err KeyError).
Proof. intros H. unfold download_lut, iobind, lift. now rewrite H. Qed.

(** requests of a constructor *)
Lemma sensor_rule p s : normalize_sensor p s =
  match dget p INSTRUMENTS with
  | Some (IList l) => if existsb_str s l then Ok (remove_char "/" s) else Err ValueError
  | Some (IOne i) => Ok (remove_char "/" i)
  | None => Ok (remove_char "/" s)
  end.
Proof. unfold normalize_sensor. destruct (dget p INSTRUMENTS) as [[i|l]|]; try reflexivity. destruct (existsb_str s l); reflexivity. Qed.

Lemma ray_init_requests : forall x p s t atm n w w1 c ray,
  get_config x None w = (w1, Ok c) -> path_option "rayleigh_dir" c = Ok ray ->
  dget atm ATMOSPHERES = Some n -> In t AEROSOL_TYPES -> lut_readable ray t w1 ->
  forall w' o, ray_init x p s t atm w = (w', o) ->
  ((exists l, dget p INSTRUMENTS = Some (IList l) /\ ~ In s l) -> o = Err ValueError /\ w' = w1) /\
  ((forall l, dget p INSTRUMENTS = Some (IList l) -> In s l) ->
     (lut_current ray t w1 \/ download_enabled c = false -> w' = w1 /\ exists ob, o = Ok ob) /\
     (~ lut_current ray t w1 -> download_enabled c = true -> forall w2, makedirs x (join ray t) w1 = (w2, Ok tt) ->
        fst (fetch x (lut_url t) lut_tarball (join ray t) w2) = w' /\
        w_requests w' = lut_url t :: w_requests w /\
        match snd (fetch x (lut_url t) lut_tarball (join ray t) w2) with Ok _ => exists ob, o = Ok ob | Err e => o = Err e end) /\
     forall ob, o = Ok ob -> ry_platform ob = p /\
       ry_lut ob = join (join ray t) ("rayleigh_lut_" ++ replace_char " " "_" atm ++ ".h5") /\
       ry_sensor ob = remove_char "/" (match dget p INSTRUMENTS with Some (IOne i) => i | _ => s end)).
Proof.
  intros x p s t atm n w w1 c ray Hg Hp Ha Ht Hr w' o H.
  destruct (get_config_conf _ _ _ _ Hg) as (rsr & ray' & Hc & _ & _ & Hrq & _). destruct (conf_dirs _ _ _ _ _ Hc) as [_ Ep].
  rewrite Ep in Hp. injection Hp as ->.
  destruct (base_supported x w w1 c rsr ray t atm n Hg Hc Ha Ht) as (Hb & He & _). apply He in Hr. destruct Hr as [b Eb].
  destruct (Hb b Eb) as (Hd & Hup & _). unfold ray_init, iobind in H. rewrite Eb in H. unfold lift in H. rewrite sensor_rule in H.
  split.
  - intros (l & El & Hn). rewrite El in H. destruct (existsb_str s l) eqn:E; [apply existsb_In in E; contradiction|].
    injection H as <- <-. auto.
  - intros Hin.
    assert (S : exists s', (match dget p INSTRUMENTS with
        | Some (IList l) => if existsb_str s l then Ok (remove_char "/" s) else Err ValueError
        | Some (IOne i) => Ok (remove_char "/" i) | None => Ok (remove_char "/" s) end) = Ok s' /\
        s' = remove_char "/" (match dget p INSTRUMENTS with Some (IOne i) => i | _ => s end)).
    { destruct (dget p INSTRUMENTS) as [[i|l]|]; eauto. specialize (Hin l eq_refl). apply existsb_In in Hin. rewrite Hin. eauto. }
    destruct S as (s' & S & Es). rewrite S in H. rewrite (lut_dir_eq _ _ _ _ _ _ Hc) in H.
    split; [|split].
    + intros Hq. assert (Q : negb (rb_uptodate b) && rb_download b = false).
      { destruct Hq as [Hq|Hq]; [apply Hup in Hq; rewrite Hq; reflexivity|rewrite Hd, Hq; apply andb_false_r]. }
      rewrite Q in H. unfold ret in H. injection H as <- <-. eauto.
    + intros Hn Hen w2 M. assert (Q : negb (rb_uptodate b) && rb_download b = true).
      { rewrite Hd, Hen, andb_true_r. apply negb_true_iff. destruct (rb_uptodate b); [|reflexivity]. exfalso. apply Hn. now apply Hup. }
      rewrite Q in H. unfold download_luts in H. cbn [get_aerosol_types for_each] in H. unfold iobind in H.
      destruct (download_lut x false t w1) as [w3 o3] eqn:Dl.
      destruct (download_lut_step _ _ _ _ _ _ _ _ Hc Ht Dl) as [(R & -> & e & ->)|(w1' & M' & F)].
      * exfalso. unfold download_lut, iobind, lift in Dl. destruct (type_facts t Ht) as (v & f & _ & _ & U & _). rewrite U in Dl. cbn [of_option] in Dl.
        rewrite (lut_dir_eq _ _ _ _ _ _ Hc), M in Dl.
        destruct (fetch_frame _ _ _ _ _ _ _ Dl) as (R' & _). destruct (makedirs_ok _ _ _ _ M) as (_ & _ & _ & R2 & _).
        rewrite R2 in R'. symmetry in R'. exact (cons_neq _ _ R').
      * rewrite M in M'. injection M' as <-. rewrite F. cbn [fst snd].
        destruct (fetch_frame _ _ _ _ _ _ _ F) as (R & _). destruct (makedirs_ok _ _ _ _ M) as (_ & _ & _ & R2 & _).
        destruct o3 as [[]|e]; unfold ret in H; injection H as <- <-; (split; [reflexivity|split; [congruence|eauto]]).
    + intros ob ->. destruct (if _ : bool then _ else _) as [w3 [u|e]] in H; [|discriminate].
      unfold ret in H. injection H as _ <-. cbn. auto.
Qed.
