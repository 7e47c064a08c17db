(** Lemmas on the mocked data directories (C69). *)
From Coq Require Import String Ascii List Bool.
From Verif Require Import Base M_Tables M_Utils M_World M_Config M_Download S_Names S_Config S_Download M_Testing S_Testing
  P_Strings P_Events P_Config P_Download P_Crash P_Lut P_Lut2 P_Testing.
Import ListNotations.
Local Open Scope string_scope.

(** ** what a set-up step may change: it writes existing files in [S] only *)
Definition calm {A} (S : string -> Prop) (m : io A) : Prop := forall w w' o, m w = (w', o) ->
  w_env w' = w_env w /\ w_requests w' = w_requests w /\ (forall d, is_dir w d = true -> is_dir w' d = true) /\
  (forall d, is_file w d = true -> is_dir w' d = is_dir w d) /\
  (forall p, is_file w p = true -> is_file w' p = true) /\
  (forall p, is_file w p = true -> ~ S p -> dget p (w_files w') = dget p (w_files w)).

Lemma is_file_get w p : is_file w p = true <-> exists s, dget p (w_files w) = Some s.
Proof. unfold is_file, dhas. destruct (dget p (w_files w)); split; intros; eauto; try discriminate. now destruct H. Qed.

Lemma calm_id {A} S (r : res A) : calm S (fun w => (w, r)).
Proof. intros w w' o [= <- <-]. repeat split; auto. Qed.
Lemma calm_bind {A B} S (m : io A) (k : A -> io B) : calm S m -> (forall a, calm S (k a)) -> calm S (iobind m k).
Proof.
  intros Hm Hk w w' o. unfold iobind. destruct (m w) as [w1 [a|e]] eqn:E; intros H.
  - destruct (Hm _ _ _ E) as (A1 & A2 & A3 & A4 & A5 & A6). destruct (Hk a _ _ _ H) as (B1 & B2 & B3 & B4 & B5 & B6).
    repeat split; auto; try congruence.
    + intros d Hd. rewrite B4 by auto. auto.
    + intros p Hp HS. rewrite B6 by auto. auto.
  - injection H as <- <-. exact (Hm _ _ _ E).
Qed.
Lemma calm_weaken {A} (S S' : string -> Prop) (m : io A) : (forall p, S p -> S' p) -> calm S m -> calm S' m.
Proof.
  intros H Hm w w' o E. destruct (Hm _ _ _ E) as (A1 & A2 & A3 & A4 & A5 & A6). repeat split; auto.
Qed.
Lemma calm_for_each {A} S (f : A -> io unit) l : (forall a, In a l -> calm S (f a)) -> calm S (for_each f l).
Proof.
  induction l as [|a l IH]; intros H; cbn [for_each]; [apply calm_id|].
  apply calm_bind; [apply H; now left|]. intros _. apply IH. intros b Hb. apply H. now right.
Qed.
Lemma calm_makedirs S x d : calm S (makedirs x d).
Proof.
  intros w w' o H. destruct o as [[]|e].
  - destruct (makedirs_ok _ _ _ _ H) as (A1 & A2 & A3 & A4 & _). destruct (makedirs_dir _ _ _ _ H) as [_ C].
    split; [exact A2|]. split; [exact A4|]. split; [|split; [|split]].
    + intros e He. destruct C as [[-> _]|[-> _]]; [exact He|]. rewrite is_dir_cons, He. apply orb_true_r.
    + intros e He. destruct C as [[-> _]|[-> Hn]]; [reflexivity|]. rewrite is_dir_cons. destruct (String.eqb_spec e d) as [->|]; [congruence|reflexivity].
    + intros p. unfold is_file. now rewrite A3.
    + intros p _ _. now rewrite A3.
  - apply makedirs_err in H. subst. repeat split; auto.
Qed.

Lemma write_facts p s w : let v := run_evs [ECreate p; EAppend p s] w in
  w_env v = w_env w /\ w_requests v = w_requests w /\ (forall d, is_dir v d = is_dir w d) /\
  dget p (w_files v) = Some s /\ (forall q, q <> p -> dget q (w_files v) = dget q (w_files w)).
Proof.
  cbv zeta. destruct (run_frame [ECreate p; EAppend p s] w) as (A & B & C). split; [exact A|]. split; [exact B|]. split; [|split].
  - intros e. unfold is_dir. rewrite C; [reflexivity|]. repeat constructor.
  - pose proof (appends_text p [s] (apply_ev (ECreate p) w) "") as W. cbn [map] in W. rewrite run_cons, W; [reflexivity|]. cbn. apply dget_dset_same.
  - intros q Hq. apply run_other. repeat constructor; cbn; congruence.
Qed.
Lemma calm_put (S : string -> Prop) p s : S p -> calm S (put p s).
Proof.
  intros HS w w' o. unfold put. destruct (is_dir w p) eqn:Ed; intros [= <- <-]; [repeat split; auto|].
  destruct (write_facts p s w) as (A & B & C & D & E). split; [exact A|]. split; [exact B|]. split; [|split; [|split]].
  - intros d. now rewrite C.
  - intros d _. apply C.
  - intros q Hq. apply is_file_get. destruct (string_dec q p) as [->|Hn]; [eauto|]. rewrite E by exact Hn. now apply is_file_get.
  - intros q _ Hn. apply E. congruence.
Qed.
Lemma calm_link S dir p : calm S (link_lut dir p).
Proof.
  intros w w' o. unfold link_lut. destruct (is_file w p || is_dir w p) eqn:Ed; intros [= <- <-]; [repeat split; auto|].
  apply orb_false_iff in Ed. destruct Ed as [Ef Ed].
  set (s := file_text w _). destruct (write_facts p s w) as (A & B & C & D & E). split; [exact A|]. split; [exact B|]. split; [|split; [|split]].
  - intros d. now rewrite C.
  - intros d _. apply C.
  - intros q Hq. apply is_file_get. destruct (string_dec q p) as [->|Hn]; [eauto|]. rewrite E by exact Hn. now apply is_file_get.
  - intros q Hq _. apply E. congruence.
Qed.

(** ** version files *)
Definition lut_content (e : existing) (v : string) : string := match e with Version s => s | _ => v end.
Definition at_versions (dir : string) (types : list string) (p : string) : Prop :=
  exists t v f, In t types /\ dget t ATM_CORRECTION_LUT_VERSION = Some (v, f) /\ p = join (join dir t) f.

Lemma calm_version x dir e t : calm (at_versions dir [t]) (init_version_file x dir e t).
Proof.
  intros w w' o. unfold init_version_file, iobind at 1, lift. destruct (dget t ATM_CORRECTION_LUT_VERSION) as [[v f]|] eqn:E; cbn [of_option].
  - revert w w' o. change (calm (at_versions dir [t]) (_ <~ makedirs x (join dir t) ;; put (join (join dir t) (snd (v, f))) (lut_content e (fst (v, f))))).
    apply calm_bind; [apply calm_makedirs|]. intros _. apply calm_put. exists t, v, f. split; [now left|auto].
  - intros [= <- <-]. repeat split; auto.
Qed.

Lemma version_step x dir e t w w' : init_version_file x dir e t w = (w', Ok tt) ->
  exists v f, dget t ATM_CORRECTION_LUT_VERSION = Some (v, f) /\ is_dir w' (join (join dir t) f) = false /\
    dget (join (join dir t) f) (w_files w') = Some (lut_content e v).
Proof.
  unfold init_version_file, iobind, lift. destruct (dget t ATM_CORRECTION_LUT_VERSION) as [[v f]|] eqn:E; cbn [of_option]; [|discriminate].
  destruct (makedirs x (join dir t) w) as [w1 [[]|]]; [|discriminate]. unfold put. cbn [fst snd].
  destruct (is_dir w1 (join (join dir t) f)) eqn:Ed; [discriminate|]. intros [= <-]. exists v, f. split; [reflexivity|].
  destruct (write_facts (join (join dir t) f) (lut_content e v) w1) as (_ & _ & C & D & _). split; [rewrite C; exact Ed|exact D].
Qed.

Lemma keys_noslash t vf : dget t ATM_CORRECTION_LUT_VERSION = Some vf -> has_char "/" t = false.
Proof.
  assert (H : forallb (fun kv => negb (has_char "/" (fst kv))) ATM_CORRECTION_LUT_VERSION = true) by (vm_compute; reflexivity).
  rewrite forallb_forall in H. intros E. apply dget_Some_in in E. specialize (H _ E). now apply negb_true_iff in H.
Qed.

Lemma version_loop x dir e : forall types w w', for_each (init_version_file x dir e) types w = (w', Ok tt) ->
  forall t, In t types -> exists v f, dget t ATM_CORRECTION_LUT_VERSION = Some (v, f) /\ is_dir w' (join (join dir t) f) = false /\
    dget (join (join dir t) f) (w_files w') = Some (lut_content e v).
Proof.
  induction types as [|t0 types IH]; intros w w' H t Hi; [destruct Hi|]. cbn [for_each] in H. unfold iobind in H.
  destruct (init_version_file x dir e t0 w) as [w1 [[]|]] eqn:E1; [|discriminate].
  destruct (in_dec string_dec t types) as [Ht|Ht]; [exact (IH _ _ H t Ht)|]. destruct Hi as [<-|Hi]; [|contradiction].
  destruct (version_step _ _ _ _ _ _ E1) as (v & f & A & B & C). exists v, f. split; [exact A|].
  assert (Cm : calm (at_versions dir types) (for_each (init_version_file x dir e) types)).
  { apply calm_for_each. intros a Ha. apply (calm_weaken (at_versions dir [a])); [|apply calm_version].
    intros p (t' & v' & f' & [<-|[]] & X). exists a, v', f'. split; [exact Ha|exact X]. }
  destruct (Cm _ _ _ H) as (_ & _ & _ & K4 & _ & K6). assert (Fi : is_file w1 (join (join dir t0) f) = true) by (apply is_file_get; eauto).
  split; [now rewrite K4|]. rewrite K6; [exact C|exact Fi|]. intros (t' & v' & f' & Hin & A' & Ep).
  apply lut_path_inj in Ep; [|exact (keys_noslash _ _ A)|exact (keys_noslash _ _ A')]. subst t'. contradiction.
Qed.

(** ** the whole of make_luts *)
Definition types_of (o : option (list string)) : list string := match o with None => AEROSOL_TYPES | Some l => l end.
Definition lut_files (dir : string) (types : list string) (p : string) : Prop :=
  p = join dir BASE_RAYLEIGH_LUT_FILENAME \/ at_versions dir types p.

Lemma calm_link_type S x dir atms t : calm S (link_type x dir atms t).
Proof. unfold link_type. apply calm_bind; [apply calm_makedirs|]. intros _. apply calm_for_each. intros a _. apply calm_link. Qed.

Lemma calm_luts x T dir e types atms : calm (fun p => p = join dir BASE_RAYLEIGH_LUT_FILENAME \/ wanted e = true /\ at_versions dir (types_of types) p) (make_luts x T dir e types atms).
Proof.
  unfold make_luts. cbv zeta. apply calm_bind; [apply calm_makedirs|]. intros _. apply calm_bind; [apply calm_put; now left|]. intros _.
  destruct (wanted e); [|apply calm_id]. apply calm_bind.
  - apply calm_for_each. intros a Ha. apply (calm_weaken (at_versions dir [a])); [|apply calm_version].
    intros p (t' & v' & f' & [<-|[]] & X). right. split; [reflexivity|]. exists a, v', f'. split; [exact Ha|exact X].
  - intros _. apply calm_for_each. intros a _. apply calm_link_type.
Qed.

Lemma luts_made x T dir e types atms w w' : make_luts x T dir e types atms w = (w', Ok tt) ->
  is_dir w' dir = true /\ dir <> "" /\
  (wanted e = true -> forall t, In t (types_of types) -> exists v f, dget t ATM_CORRECTION_LUT_VERSION = Some (v, f) /\
     is_dir w' (join (join dir t) f) = false /\ dget (join (join dir t) f) (w_files w') = Some (lut_content e v)).
Proof.
  unfold make_luts. cbv zeta. fold (types_of types). unfold iobind at 1. destruct (makedirs x dir w) as [w1 [[]|]] eqn:M; [|discriminate].
  pose proof (makedirs_nonempty _ _ _ _ M) as Hne. destruct (makedirs_ok _ _ _ _ M) as (Hd & _).
  unfold iobind at 1. destruct (put (join dir BASE_RAYLEIGH_LUT_FILENAME) (t_fake_lut T) w1) as [w2 [[]|]] eqn:P; [|discriminate].
  assert (Hd2 : is_dir w2 dir = true) by (apply (calm_put (fun _ => True) _ _ I _ _ _ P); exact Hd).
  destruct (wanted e); [|intros [= <-]; repeat split; auto; discriminate].
  unfold iobind. destruct (for_each (init_version_file x dir e) (types_of types) w2) as [w3 [[]|]] eqn:L; [|discriminate]. intros K.
  match type of K with for_each (link_type x dir ?a) ?l w3 = _ => assert (Ck : calm (fun _ => False) (for_each (link_type x dir a) l)) by
     (apply calm_for_each; intros ? _; apply calm_link_type) end.
  assert (Cv : calm (fun _ => True) (for_each (init_version_file x dir e) (types_of types))).
  { apply calm_for_each. intros a Ha. apply (calm_weaken (at_versions dir [a])); [auto|apply calm_version]. }
  destruct (Ck _ _ _ K) as (_ & _ & K3 & K4 & _ & K6). destruct (Cv _ _ _ L) as (_ & _ & V3 & _).
  split; [auto|]. split; [exact Hne|]. intros _ t Ht. destruct (version_loop x dir e _ _ _ L t Ht) as (v & f & A & B & C).
  exists v, f. split; [exact A|]. assert (Fi : is_file w3 (join (join dir t) f) = true) by (apply is_file_get; eauto).
  split; [now rewrite K4|]. rewrite K6; auto.
Qed.

(** ** mock_rsr_files *)
Definition rsr_files (x : extern) (dir : string) (version : option string) : io unit :=
  match version with
  | None => ret tt
  | Some v => _ <~ makedirs x dir ;; put (join dir RSR_DATA_VERSION_FILENAME) v
  end.
Lemma mock_rsr_files_eq A x dir version (body : io A) : mock_rsr_files x dir version body = (_ <~ rsr_files x dir version ;; body).
Proof. reflexivity. Qed.
Lemma calm_rsr_files x dir version : calm (fun p => p = join dir RSR_DATA_VERSION_FILENAME) (rsr_files x dir version).
Proof. destruct version; [|apply calm_id]. apply calm_bind; [apply calm_makedirs|]. intros _. now apply calm_put. Qed.
Lemma rsr_made x dir v w w' : rsr_files x dir (Some v) w = (w', Ok tt) ->
  is_dir w' dir = true /\ dir <> "" /\ is_dir w' (join dir RSR_DATA_VERSION_FILENAME) = false /\
  dget (join dir RSR_DATA_VERSION_FILENAME) (w_files w') = Some v.
Proof.
  unfold rsr_files, iobind. destruct (makedirs x dir w) as [w1 [[]|]] eqn:M; [|discriminate].
  pose proof (makedirs_nonempty _ _ _ _ M) as Hne. destruct (makedirs_ok _ _ _ _ M) as (Hd & _). unfold put.
  destruct (is_dir w1 (join dir RSR_DATA_VERSION_FILENAME)) eqn:Ed; [discriminate|]. intros [= <-].
  destruct (write_facts (join dir RSR_DATA_VERSION_FILENAME) v w1) as (_ & _ & C & D & _). rewrite !C. auto.
Qed.

(** ** the configuration read back *)
Definition dir_option (x : extern) (k : string) (o : dict cfg) : cfg :=
  match dget k o with Some v => v | None => Leaf (LStr (x_user_data_dir x)) end.
Lemma tree_back x T o rsr ray : reads_back x T o -> dir_option x "rsr_dir" o = Leaf (LStr rsr) -> dir_option x "rayleigh_dir" o = Leaf (LStr ray) ->
  exists c, tree_of x (t_dump T o) = Ok (c, x_expanduser x rsr, x_expanduser x ray) /\
    forall k, k <> "rsr_dir" -> k <> "rayleigh_dir" -> dget k c = dget k o.
Proof.
  intros (m & Ey & Wf & Eq) Hr Hy. unfold tree_of. rewrite Ey. cbn [bind]. change (recursive_dict_update (CMap m) (CMap [])) with (upd (CMap m) (CMap [])).
  rewrite upd_empty by exact Wf. cbn [bind]. cbv zeta. unfold dir_option in *. rewrite (Eq "rsr_dir"), Hr. cbn [expanduser bind].
  rewrite dget_dset_other by discriminate. rewrite (Eq "rayleigh_dir"), Hy. cbn [expanduser bind]. eexists. split; [reflexivity|].
  intros k H1 H2. rewrite !dget_dset_other by congruence. apply Eq.
Qed.

(** ** nothing happens in a world that is up to date *)
Lemma up_to_date_undisturbed x v c rsr ray : conf x v c rsr ray ->
  says (join (x_expanduser x rsr) RSR_DATA_VERSION_FILENAME) RSR_DATA_VERSION v ->
  (forall t, In t AEROSOL_TYPES -> lut_current ray t v) -> undisturbed x v.
Proof.
  intros Hc Hs Hl. assert (St : settled x v) by (exists c, rsr, ray; auto).
  pose proof (conf_get_config _ _ _ _ _ Hc) as Hg. destruct (conf_dirs _ _ _ _ _ Hc) as [_ Ep].
  assert (Rd : forall t, In t AEROSOL_TYPES -> lut_readable ray t v).
  { intros t Ht vv f A. destruct (Hl t Ht) as (v' & f' & A' & tx & B1 & B2 & B3 & _). rewrite A in A'. injection A' as <- <-.
    split; [exact B1|]. intros t' E. rewrite B2 in E. now injection E as <-. }
  intros A us. induction us as [|u us IH]; [reflexivity|]. cbn [perform_all fold_left].
  assert (E : perform x u v = v); [|rewrite E; exact IH]. destruct u as [dest dry|load p i f|p s t atm|dry l]; cbn [perform].
  - now rewrite settled_check.
  - now apply settled_construct.
  - destruct (dget atm ATMOSPHERES) as [n|] eqn:Ea.
    + destruct (in_dec string_dec t AEROSOL_TYPES) as [Ht|Ht].
      * destruct (ray_init x p s t atm v) as [w' o] eqn:Er.
        destruct (ray_init_requests x p s t atm n v v c ray Hg Ep Ea Ht (Rd t Ht) _ _ Er) as [R1 R2]. cbn [fst].
        destruct (dget p INSTRUMENTS) as [[i|l]|] eqn:Ei.
        -- destruct R2 as (R2 & _); [intros l' El; discriminate|]. now destruct R2 as [-> _]; [left; apply Hl|].
        -- destruct (in_dec string_dec s l) as [Hi|Hi].
           ++ destruct R2 as (R2 & _); [intros l' El; injection El as <-; exact Hi|]. now destruct R2 as [-> _]; [left; apply Hl|].
           ++ destruct R1 as [_ ->]; [eauto|reflexivity].
        -- destruct R2 as (R2 & _); [intros l' El; discriminate|]. now destruct R2 as [-> _]; [left; apply Hl|].
      * unfold ray_init, iobind. now rewrite (unsupported x t atm v v c Hg (or_intror Ht)).
    + unfold ray_init, iobind. now rewrite (unsupported x t atm v v c Hg (or_introl Ea)).
  - unfold ray_check_and_download, iobind. fold (asked l).
    destruct (Forall_Exists_dec (fun t => In t AEROSOL_TYPES) (fun t => in_dec string_dec t AEROSOL_TYPES) (asked l)) as [F|F].
    + destruct (needed_list x v c rsr ray Hc (asked l)) as (n & En & On).
      { eapply Forall_impl; [|exact F]. cbn. auto. }
      rewrite En. destruct n as [|t n]; [reflexivity|]. exfalso.
      destruct (outdated_types _ _ _ _ On t (or_introl eq_refl)) as [Hi Hn]. apply Hn, Hl. rewrite Forall_forall in F. auto.
    + destruct (needed_fails x v c rsr ray (asked l) Hc) as [e En].
      { eapply Exists_impl; [|exact F]. cbn. tauto. }
      now rewrite En.
Qed.

(** ** the tables *)
Definition there (w : world) (p : string) : Prop := is_file w p = true \/ is_dir w p = true.
Definition atms_of (o : option (list string)) : list string := match o with None => map fst ATMOSPHERES | Some l => l end.
Definition lut_name (a : string) : string := "rayleigh_lut_" ++ replace_char " " "_" a ++ ".h5".

Lemma calm_there {A} S (m : io A) w w' o p : calm S m -> m w = (w', o) -> there w p -> there w' p.
Proof. intros C E [H|H]; destruct (C _ _ _ E) as (_ & _ & D & _ & F & _); [left|right]; auto. Qed.

Lemma for_each_makes {A} S (f : A -> io unit) (g : A -> string -> Prop) :
  (forall a, calm S (f a)) -> (forall a w w' p, f a w = (w', Ok tt) -> g a p -> there w' p) ->
  forall l w w', for_each f l w = (w', Ok tt) -> forall a p, In a l -> g a p -> there w' p.
Proof.
  intros C H. induction l as [|b l IH]; intros w w' E a p Hi G; [destruct Hi|]. cbn [for_each] in E. unfold iobind in E.
  destruct (f b w) as [w1 [[]|]] eqn:E1; [|discriminate E]. destruct Hi as [<-|Hi]; [|exact (IH _ _ E a p Hi G)].
  apply (calm_there S (for_each f l) w1 w' (Ok tt)); [apply calm_for_each; auto|exact E|]. exact (H _ _ _ _ E1 G).
Qed.

Lemma link_there dir p w w' : link_lut dir p w = (w', Ok tt) -> there w' p.
Proof.
  unfold link_lut. destruct (is_file w p || is_dir w p) eqn:Ed; intros [= <-].
  - apply orb_prop in Ed. exact Ed.
  - left. apply is_file_get. destruct (write_facts p (file_text w (join dir BASE_RAYLEIGH_LUT_FILENAME)) w) as (_ & _ & _ & D & _). eauto.
Qed.

Lemma tables_made x T dir e types atms w w' : make_luts x T dir e types atms w = (w', Ok tt) -> wanted e = true ->
  forall t a, In t (types_of types) -> In a (atms_of atms) -> there w' (join (join dir t) (lut_name a)).
Proof.
  unfold make_luts. cbv zeta. fold (types_of types). fold (atms_of atms). unfold iobind at 1. destruct (makedirs x dir w) as [w1 [[]|]]; [|discriminate].
  unfold iobind at 1. destruct (put (join dir BASE_RAYLEIGH_LUT_FILENAME) (t_fake_lut T) w1) as [w2 [[]|]]; [|discriminate].
  intros H We. rewrite We in H. unfold iobind in H. destruct (for_each (init_version_file x dir e) (types_of types) w2) as [w3 [[]|]]; [|discriminate H].
  intros t a Ht Ha.
  refine (for_each_makes (fun _ => True) (link_type x dir (atms_of atms))
    (fun t p => exists a, In a (atms_of atms) /\ p = join (join dir t) (lut_name a)) (fun t => calm_link_type _ _ _ _ t) _ _ _ _ H t _ Ht _).
  - clear. intros t w w' p E (a & Ha & ->). unfold link_type, iobind in E. destruct (makedirs x (join dir t) w) as [w1 [[]|]]; [|discriminate E].
    refine (for_each_makes (fun _ => True) _ (fun a p => p = join (join dir t) (lut_name a)) (fun a => calm_link _ _ _) _ _ _ _ E a _ Ha eq_refl).
    intros b u u' p Hu ->. exact (link_there _ _ _ _ Hu).
  - eauto.
Qed.

Lemma lut_path x v c rsr ray p s t a o : conf x v c rsr ray -> snd (ray_init x p s t a v) = Ok o ->
  In t AEROSOL_TYPES /\ ry_lut o = join (join ray t) (lut_name a).
Proof.
  intros Hc. pose proof (conf_get_config _ _ _ _ _ Hc) as Hg. destruct (conf_dirs _ _ _ _ _ Hc) as [_ Ep].
  destruct (in_dec string_dec t AEROSOL_TYPES) as [Ht|Ht]; [|unfold ray_init, iobind; now rewrite (unsupported x t a v v c Hg (or_intror Ht))].
  intros H. split; [exact Ht|]. unfold ray_init, iobind at 1 in H.
  pose proof (base_init x v v c rsr ray t a Hg Hc) as B. destruct (ray_base_init x t a v) as [v1 [b|e]] eqn:E; [|discriminate H].
  assert (v1 = v) as ->.
  { destruct (negb (dhas a ATMOSPHERES)); [discriminate B|]. destruct (negb (existsb_str t AEROSOL_TYPES)); [discriminate B|].
    destruct B as (ver & f & _ & _ & B). now injection B. }
  unfold iobind at 1, M_Download.lift in H. destruct (normalize_sensor p s) as [s'|]; [|discriminate H].
  unfold iobind at 1, get_rayleigh_lut_dir, iobind at 1 in H. rewrite Hg in H. unfold iobind at 1, M_Download.lift in H. rewrite Ep in H. cbn [ret] in H.
  unfold iobind in H. match type of H with snd (let (_, _) := ?m v in _) = _ => destruct (m v) as [v2 [[]|]] end; [|discriminate H].
  injection H as <-. reflexivity.
Qed.

Lemma furnished_by_tables x v c rsr ray atms : conf x v c rsr ray ->
  (forall t a, In t AEROSOL_TYPES -> In a atms -> there v (join (join ray t) (lut_name a))) -> furnished x atms v.
Proof. intros Hc H p s t a o Ha E. destruct (lut_path _ _ _ _ _ _ _ _ _ _ Hc E) as [Ht ->]. now apply H. Qed.
