(** Lemmas for C64 and C65. *)
From Coq Require Import String List Bool Lia.
From Verif Require Import Base M_World M_Config S_Config.
Import ListNotations.
Local Open Scope string_scope.

Section Ind.
  Variable P : cfg -> Prop.
  Hypothesis HL : forall v, P (Leaf v).
  Hypothesis HM : forall m, Forall (fun kv => P (snd kv)) m -> P (CMap m).
  Fixpoint cfg_rec' (c : cfg) : P c :=
    match c with
    | Leaf v => HL v
    | CMap m => HM m ((fix all (m : list (string * cfg)) : Forall (fun kv => P (snd kv)) m :=
                         match m with
                         | [] => Forall_nil _
                         | kv :: t => Forall_cons _ (cfg_rec' (snd kv)) (all t)
                         end) m)
    end.
End Ind.

Lemma wf_map m : well_formed (CMap m) <-> NoDup (dkeys m) /\ Forall (fun kv => well_formed (snd kv)) m.
Proof.
  cbn [well_formed]. split; intros [H1 H2]; split; auto.
  - clear H1. induction m as [|[k v] t IH]; constructor; cbn; [apply H2|apply IH, H2].
  - clear H1. induction m as [|[k v] t IH]; [exact I|]. inversion H2; subst. cbn [snd] in *. split; [assumption|apply IH; assumption].
Qed.

Notation upd := recursive_dict_update.

Lemma upd_nil d : upd (CMap []) d = (d, Ok tt). Proof. reflexivity. Qed.
Lemma upd_leaf k v rest dm : upd (CMap ((k, Leaf v) :: rest)) (CMap dm) = upd (CMap rest) (CMap (dset k (Leaf v) dm)).
Proof. reflexivity. Qed.
Definition sub_of (k : string) (dm : dict cfg) : cfg := match dget k dm with Some c => c | None => CMap [] end.
Lemma upd_map k mm rest dm : upd (CMap ((k, CMap mm) :: rest)) (CMap dm) =
  (let (r, o) := upd (CMap mm) (sub_of k dm) in
   match o with Ok _ => upd (CMap rest) (CMap (dset k r dm))
              | Err e => (CMap (if dhas k dm then dset k r dm else dm), Err e) end).
Proof. reflexivity. Qed.
Lemma upd_on_leaf k v rest l : upd (CMap ((k, v) :: rest)) (Leaf l) =
  (Leaf l, Err (match v with CMap _ => AttributeError | Leaf _ => TypeError end)).
Proof. reflexivity. Qed.
Global Opaque recursive_dict_update.

Lemma unit_ok (o : res unit) a : o = Ok a -> o = Ok tt. Proof. now destruct a. Qed.

(** what one level of a successful update does *)
Lemma upd_level : forall m dm d', NoDup (dkeys m) -> upd (CMap m) (CMap dm) = (d', Ok tt) ->
  exists dm', d' = CMap dm' /\ forall k,
    match dget k m with
    | None => dget k dm' = dget k dm
    | Some (Leaf v) => dget k dm' = Some (Leaf v)
    | Some (CMap mm) => exists r, upd (CMap mm) (sub_of k dm) = (r, Ok tt) /\ dget k dm' = Some r
    end.
Proof.
  induction m as [|[k0 v0] m IH]; intros dm d' Hn H.
  - rewrite upd_nil in H. injection H as <-. exists dm. split; [reflexivity|]. intros k. reflexivity.
  - inversion Hn as [|? ? Hni Hn']; subst.
    assert (N0 : dget k0 m = None) by (now apply dget_None_notin).
    destruct v0 as [v|mm].
    + rewrite upd_leaf in H. destruct (IH _ _ Hn' H) as (dm' & -> & Hk). exists dm'. split; [reflexivity|].
      intros k. cbn [dget]. destruct (String.eqb k k0) eqn:E.
      * apply String.eqb_eq in E. subst k. specialize (Hk k0). rewrite N0 in Hk. rewrite Hk. apply dget_dset_same.
      * assert (k0 <> k) by (intros ->; rewrite String.eqb_refl in E; discriminate).
        specialize (Hk k). rewrite !dget_dset_other in Hk by auto. unfold sub_of in *. now rewrite !dget_dset_other in Hk by auto.
    + rewrite upd_map in H. destruct (upd (CMap mm) (sub_of k0 dm)) as [r o] eqn:E0.
      destruct o as [u|e]; [|discriminate]. destruct u.
      destruct (IH _ _ Hn' H) as (dm' & -> & Hk). exists dm'. split; [reflexivity|].
      intros k. cbn [dget]. destruct (String.eqb k k0) eqn:E.
      * apply String.eqb_eq in E. subst k. exists r. split; [exact E0|].
        specialize (Hk k0). rewrite N0 in Hk. rewrite Hk. apply dget_dset_same.
      * assert (k0 <> k) by (intros ->; rewrite String.eqb_refl in E; discriminate).
        specialize (Hk k). rewrite !dget_dset_other in Hk by auto. unfold sub_of in *. now rewrite !dget_dset_other in Hk by auto.
Qed.

Lemma wf_get m k v : well_formed (CMap m) -> dget k m = Some v -> well_formed v.
Proof.
  intros H Hg. apply wf_map in H. destruct H as [_ H]. rewrite Forall_forall in H.
  apply dget_Some_in in Hg. now apply (H _ Hg).
Qed.

(** every leaf of the new tree is set *)
Lemma upd_sets : forall p m d d' v, well_formed (CMap m) -> upd (CMap m) d = (d', Ok tt) ->
  at_path p (CMap m) = Some (Leaf v) -> at_path p d' = Some (Leaf v).
Proof.
  induction p as [|k p IH]; intros m d d' v Hw H Hp; [discriminate|].
  cbn [at_path] in Hp. destruct (dget k m) as [c|] eqn:E; [|discriminate].
  destruct m as [|[k0 v0] rest]; [discriminate|].
  destruct d as [l|dm]; [rewrite upd_on_leaf in H; discriminate|].
  destruct (upd_level _ _ _ (proj1 (proj1 (wf_map _) Hw)) H) as (dm' & -> & Hk). specialize (Hk k). rewrite E in Hk.
  cbn [at_path]. destruct c as [v'|mm].
  - rewrite Hk. destruct p; [now injection Hp as ->|discriminate].
  - destruct Hk as (r & Hr & ->). exact (IH mm _ _ _ (wf_get _ _ _ Hw E) Hr Hp).
Qed.

(** paths the new tree does not mention keep their contents *)
Lemma upd_keeps : forall p m d d', well_formed (CMap m) -> upd (CMap m) d = (d', Ok tt) ->
  untouched p (CMap m) -> at_path p d' = at_path p d.
Proof.
  induction p as [|k p IH]; intros m d d' Hw H (q & k1 & r & mq & Hp & Hq & Hn); [destruct q; discriminate|].
  destruct m as [|[k0 v0] rest].
  - rewrite upd_nil in H. now injection H as <-.
  - destruct d as [l|dm]; [rewrite upd_on_leaf in H; discriminate|].
    destruct (upd_level _ _ _ (proj1 (proj1 (wf_map _) Hw)) H) as (dm' & -> & Hk). specialize (Hk k).
    cbn [at_path]. destruct q as [|k2 q].
    + injection Hp as -> ->. cbn [at_path] in Hq. injection Hq as <-. rewrite Hn in Hk. now rewrite Hk.
    + injection Hp as -> ->. cbn [at_path] in Hq.
      destruct (dget k2 ((k0, v0) :: rest)) as [c|] eqn:E; [|discriminate].
      destruct c as [v|mm]; [destruct q; discriminate|].
      destruct Hk as (s & Hs & ->).
      assert (Hu : untouched (q ++ k1 :: r) (CMap mm)) by (exists q, k1, r, mq; auto).
      rewrite (IH _ _ _ (wf_get _ _ _ Hw E) Hs Hu). unfold sub_of. destruct (dget k2 dm); [reflexivity|].
      destruct (q ++ k1 :: r)%list eqn:EE; [destruct q; discriminate|]. reflexivity.
Qed.

(** merging twice is merging once *)
Lemma dset_same {V} k (v : V) d : dget k d = Some v -> dset k v d = d.
Proof.
  induction d as [|[k' v'] t IH]; [discriminate|]. cbn. destruct (String.eqb k k') eqn:E.
  - intros [= ->]. reflexivity.
  - intros H. now rewrite IH.
Qed.

Lemma upd_fixed : forall m dm, (forall k v, In (k, v) m -> match v with
     | Leaf _ => dget k dm = Some v
     | CMap _ => exists r, dget k dm = Some r /\ upd v r = (r, Ok tt) end) ->
  upd (CMap m) (CMap dm) = (CMap dm, Ok tt).
Proof.
  induction m as [|[k v] m IH]; intros dm H; [reflexivity|].
  pose proof (H k v (or_introl eq_refl)) as Hk. destruct v as [v|mm].
  - rewrite upd_leaf, dset_same by exact Hk. apply IH. intros. apply H. now right.
  - destruct Hk as (r & Hr & Hu). rewrite upd_map. unfold sub_of. rewrite Hr, Hu. rewrite dset_same by exact Hr.
    apply IH. intros. apply H. now right.
Qed.

Lemma upd_idempotent : forall u d d', well_formed u -> upd u d = (d', Ok tt) -> upd u d' = (d', Ok tt).
Proof.
  intros u. induction u as [v|m IHm] using cfg_rec'; intros d d' Hw H; [discriminate H|].
  destruct m as [|[k0 v0] rest]; [reflexivity|].
  destruct d as [l|dm]; [rewrite upd_on_leaf in H; discriminate|].
  pose proof (proj1 (wf_map _) Hw) as [Hn Hf].
  destruct (upd_level _ _ _ Hn H) as (dm' & -> & Hk). apply upd_fixed. intros k v Hin.
  specialize (Hk k). rewrite (dget_in_nodup _ _ _ Hn Hin) in Hk. destruct v as [v|mm]; [exact Hk|].
  destruct Hk as (r & Hr & Hd). exists r. split; [exact Hd|].
  rewrite Forall_forall in IHm. apply (IHm _ Hin _ _ (wf_get _ _ _ Hw (dget_in_nodup _ _ _ Hn Hin)) Hr).
Qed.

(** merging into the empty dictionary reproduces the tree *)
Lemma dset_app_new {V} k (v : V) d : dget k d = None -> dset k v d = (d ++ [(k, v)])%list.
Proof.
  induction d as [|[k' v'] t IH]; [reflexivity|]. cbn. destruct (String.eqb k k') eqn:E; [discriminate|].
  intros H. now rewrite IH.
Qed.
Lemma dget_app {V} k (a b : dict V) : dget k (a ++ b) = match dget k a with Some v => Some v | None => dget k b end.
Proof. induction a as [|[k' v'] t IH]; [reflexivity|]. cbn. destruct (String.eqb k k'); auto. Qed.

Lemma upd_empty : forall m, well_formed (CMap m) -> upd (CMap m) (CMap []) = (CMap m, Ok tt).
Proof.
  intros m. change (match CMap m with CMap m => well_formed (CMap m) -> upd (CMap m) (CMap []) = (CMap m, Ok tt) | _ => True end).
  generalize (CMap m). intros c. induction c as [v|m' IH] using cfg_rec'; [exact I|]. intros Hw.
  apply wf_map in Hw. destruct Hw as [Hn Hf].
  assert (G : forall acc, (forall k, In k (dkeys m') -> dget k acc = None) ->
            upd (CMap m') (CMap acc) = (CMap (acc ++ m')%list, Ok tt)).
  { clear m. induction m' as [|[k v] m' IHm]; intros acc Ha; [now rewrite app_nil_r|].
    inversion Hn as [|? ? Hni Hn']; subst. inversion Hf as [|? ? Hv Hf']; subst. inversion IH as [|? ? IHv IH']; subst.
    assert (Hk : dget k acc = None) by (apply Ha; now left).
    assert (Ha' : forall k0, In k0 (dkeys m') -> dget k0 (acc ++ [(k, v)])%list = None).
    { intros k0 Hi. rewrite dget_app, Ha by (now right). cbn. destruct (String.eqb k0 k) eqn:E; [|reflexivity].
      apply String.eqb_eq in E. subst. contradiction. }
    destruct v as [v|mm].
    - rewrite upd_leaf, dset_app_new, IHm by auto. now rewrite <- app_assoc.
    - rewrite upd_map. unfold sub_of. rewrite Hk. cbn [snd] in *. rewrite IHv by exact Hv.
      rewrite dset_app_new, IHm by auto. now rewrite <- app_assoc. }
  apply (G []). auto.
Qed.

(** failures *)
Lemma upd_error : forall u d d' e, well_formed u -> (exists m, u = CMap m) -> upd u d = (d', Err e) ->
  exists p l k v t, at_path p d = Some (Leaf l) /\ at_path p u = Some (CMap ((k, v) :: t)) /\
    e = (match v with CMap _ => AttributeError | Leaf _ => TypeError end).
Proof.
  intros u. induction u as [v|m IH] using cfg_rec'; intros d d' e Hw [m0 Hm] H; [discriminate|]. clear m0 Hm.
  destruct m as [|[k0 v0] rest]; [discriminate H|].
  destruct d as [l|dm].
  { rewrite upd_on_leaf in H. injection H as _ <-. exists [], l, k0, v0, rest. auto. }
  pose proof (proj1 (wf_map _) Hw) as [Hn Hf].
  (* generalise over the items still to do *)
  assert (G : forall todo acc, (forall k c, In (k, c) todo -> dget k ((k0, v0) :: rest) = Some c) -> NoDup (dkeys todo) ->
     (forall k, In k (dkeys todo) -> dget k acc = dget k dm) ->
     upd (CMap todo) (CMap acc) = (d', Err e) ->
     exists k mm p l k1 v1 t, dget k ((k0, v0) :: rest) = Some (CMap mm) /\ at_path p (sub_of k dm) = Some (Leaf l) /\
       at_path p (CMap mm) = Some (CMap ((k1, v1) :: t)) /\ e = (match v1 with CMap _ => AttributeError | Leaf _ => TypeError end)).
  { clear H. induction todo as [|[k c] todo IHt]; intros acc Hin Hnd Hacc H; [discriminate H|].
    inversion Hnd as [|? ? Hni Hnd']; subst.
    assert (Hother : forall r k1, In k1 (dkeys todo) -> dget k1 (dset k r acc) = dget k1 dm).
    { intros r k1 Hi. rewrite dget_dset_other by (intros ->; contradiction). apply Hacc. now right. }
    destruct c as [c|mm].
    - rewrite upd_leaf in H. eapply IHt; [| | |exact H]; auto. intros; apply Hin; now right.
    - rewrite upd_map in H. assert (Hs : sub_of k acc = sub_of k dm) by (unfold sub_of; rewrite Hacc by (now left); reflexivity).
      rewrite Hs in H. destruct (upd (CMap mm) (sub_of k dm)) as [r o] eqn:E0. destruct o as [[]|e'].
      + eapply IHt; [| | |exact H]; auto. intros; apply Hin; now right.
      + injection H as _ ->. pose proof (Hin k (CMap mm) (or_introl eq_refl)) as Hg.
        pose proof (dget_Some_in _ _ _ Hg) as Hg'. rewrite Forall_forall in IH. 
        destruct (IH _ Hg' _ _ _ (wf_get _ _ _ Hw Hg) (ex_intro _ mm eq_refl) E0) as (p & l & k1 & v1 & t & A & B & C).
        exists k, mm, p, l, k1, v1, t. auto. }
  destruct (G ((k0, v0) :: rest) dm) as (k & mm & p & l & k1 & v1 & t & A & B & C & D); auto.
  { intros k c Hin. now apply dget_in_nodup. }
  exists (k :: p), l, k1, v1, t. split; [|split; [|exact D]].
  - cbn [at_path]. unfold sub_of in B. destruct (dget k dm); [exact B|]. destruct p; discriminate.
  - cbn [at_path]. rewrite A. exact C.
Qed.

Lemma upd_conflict : forall p m d d' o, well_formed (CMap m) -> conflict_at p d (CMap m) ->
  upd (CMap m) d = (d', o) -> exists e, o = Err e.
Proof.
  intros p m d d' o Hw (l & k & v & t & Hd & Hu) H. destruct o as [[]|e]; [exfalso|eauto].
  revert m d d' Hw Hd Hu H. induction p as [|k1 p IH]; intros m d d' Hw Hd Hu H.
  - cbn in Hd, Hu. injection Hd as ->. injection Hu as ->. rewrite upd_on_leaf in H. discriminate.
  - cbn [at_path] in Hd, Hu. destruct d as [|dm]; [discriminate|].
    destruct (dget k1 dm) as [c|] eqn:E1; [|discriminate]. destruct (dget k1 m) as [c'|] eqn:E2; [|discriminate].
    destruct (upd_level _ _ _ (proj1 (proj1 (wf_map _) Hw)) H) as (dm' & -> & Hk). specialize (Hk k1). rewrite E2 in Hk.
    destruct c' as [|mm]; [destruct p; discriminate|]. destruct Hk as (r & Hr & _). unfold sub_of in Hr. rewrite E1 in Hr.
    eapply IH; [eapply wf_get; eauto|exact Hd|exact Hu|exact Hr].
Qed.

(** ** C65 *)
Lemma makedirs_ok x d w w' : makedirs x d w = (w', Ok tt) -> is_dir w' d = true /\
  w_env w' = w_env w /\ w_files w' = w_files w /\ w_requests w' = w_requests w /\ (w_dirs w' = w_dirs w \/ w_dirs w' = d :: w_dirs w).
Proof.
  unfold makedirs. destruct (String.eqb d ""); [discriminate|]. destruct (is_dir w d) eqn:E.
  - intros [= <-]. repeat split; auto.
  - destruct (is_file w d); [discriminate|]. destruct (x_mkdir_ok x d); [|discriminate].
    intros [= <-]. cbn [apply_ev]. rewrite E. unfold is_dir. cbn. rewrite String.eqb_refl. repeat split; auto.
Qed.

Lemma makedirs_err x d w w' e : makedirs x d w = (w', Err e) -> w' = w.
Proof.
  unfold makedirs. destruct (String.eqb d ""); [congruence|]. destruct (is_dir w d) eqn:E; [discriminate|].
  destruct (is_file w d); [congruence|]. destruct (x_mkdir_ok x d); congruence.
Qed.

Lemma is_dir_mono w w' d : (exists l, w_dirs w' = (l ++ w_dirs w)%list) -> is_dir w d = true -> is_dir w' d = true.
Proof. intros [l E]. unfold is_dir, existsb_str. rewrite E, existsb_app. intros ->. apply orb_true_r. Qed.

(** the outcome of get_config for a given file *)
Lemma get_config_shape : forall x f w w' c, get_config x (Some f) w = (w', Ok c) ->
  exists text m rsr ray, dget f (w_files w) = Some text /\ x_yaml x text = Ok (CMap m) /\
    (well_formed (CMap m) ->
      expanduser x (match dget "rsr_dir" m with Some v => v | None => Leaf (LStr (x_user_data_dir x)) end) = Ok rsr /\
      expanduser x (match dget "rayleigh_dir" m with Some v => v | None => Leaf (LStr (x_user_data_dir x)) end) = Ok ray /\
      (forall k, k <> "rsr_dir" -> k <> "rayleigh_dir" -> dget k c = dget k m)) /\
    dget "rsr_dir" c = Some (Leaf (LStr rsr)) /\ dget "rayleigh_dir" c = Some (Leaf (LStr ray)) /\
    is_dir w' rsr = true /\ is_dir w' ray = true /\
    w_env w' = w_env w /\ w_files w' = w_files w /\ w_requests w' = w_requests w /\
    exists l, w_dirs w' = (l ++ w_dirs w)%list /\ (forall d, In d l -> d = rsr \/ d = ray).
Proof.
  intros x f w w' c H. unfold get_config in H. cbn [bind] in H. unfold config_tree in H.
  unfold read_file in H. destruct (is_dir w f); [discriminate|].
  destruct (dget f (w_files w)) as [text|] eqn:Ef; [|discriminate]. cbn [of_option bind] in H.
  destruct (x_yaml x text) as [content|] eqn:Ey; [|discriminate]. cbn [bind] in H.
  destruct (upd content (CMap [])) as [d o] eqn:Eu. destruct o as [[]|]; [|discriminate]. cbn [bind] in H.
  destruct d as [|config]; [discriminate|].
  match type of H with context [bind (expanduser x ?a) _] => destruct (expanduser x a) as [rsr|] eqn:E1; [|discriminate] end.
  cbn [bind] in H.
  match type of H with context [bind (expanduser x ?a) _] => destruct (expanduser x a) as [ray|] eqn:E2; [|discriminate] end.
  cbn [bind] in H.
  destruct (makedirs x rsr w) as [w1 o1] eqn:M1. destruct o1 as [[]|]; [|discriminate].
  destruct (makedirs x ray w1) as [w2 o2] eqn:M2. destruct o2 as [[]|]; [|discriminate]. cbn [bind] in H.
  injection H as <- <-.
  destruct (makedirs_ok _ _ _ _ M1) as (D1 & V1 & F1 & R1 & L1). destruct (makedirs_ok _ _ _ _ M2) as (D2 & V2 & F2 & R2 & L2).
  destruct content as [|m]; [discriminate Eu|].
  exists text, m, rsr, ray. split; [reflexivity|]. split; [exact Ey|].
  rewrite dget_dset_other in E2 by discriminate.
  split; [|split; [|split; [|split; [|split; [|split; [|split; [|split]]]]]]].
  - intros Hw. rewrite upd_empty in Eu by exact Hw. injection Eu as <-. split; [exact E1|]. split; [exact E2|].
    intros k K1 K2. rewrite !dget_dset_other by congruence. reflexivity.
  - rewrite dget_dset_other by discriminate. apply dget_dset_same.
  - apply dget_dset_same.
  - eapply is_dir_mono; [|exact D1]. destruct L2 as [->| ->]; [now exists []|now exists [ray]].
  - exact D2.
  - congruence.
  - congruence.
  - congruence.
  - destruct L1 as [L1|L1], L2 as [L2|L2]; rewrite L2, L1.
    + exists []. split; [reflexivity|contradiction].
    + exists [ray]. split; [reflexivity|]. intros d [<-|[]]; auto.
    + exists [rsr]. split; [reflexivity|]. intros d [<-|[]]; auto.
    + exists [ray; rsr]. split; [reflexivity|]. intros d [<-|[<-|[]]]; auto.
Qed.

(** which file *)
Lemma config_selection : forall x w,
  (dget "PSP_CONFIG_FILE" (w_env w) = None -> get_config x None w = get_config x (Some (x_builtin_config x)) w) /\
  (forall f, dget "PSP_CONFIG_FILE" (w_env w) = Some f -> is_file w f = true -> get_config x None w = get_config x (Some f) w) /\
  (forall f, dget "PSP_CONFIG_FILE" (w_env w) = Some f -> is_file w f = false -> get_config x None w = (w, Err OSError)).
Proof.
  intros x w. unfold get_config, get_env_or_builtin_config_path. split; [|split].
  - intros ->. reflexivity.
  - intros f -> ->. reflexivity.
  - intros f -> ->. reflexivity.
Qed.

(** an explicit file is used whatever the environment says *)
Lemma explicit_wins : forall x f w env, snd (get_config x (Some f) (set_env env w)) = snd (get_config x (Some f) w).
Proof.
  intros x f w env. unfold get_config. cbn [bind].
  assert (E : config_tree x (set_env env w) f = config_tree x w f) by reflexivity. rewrite E.
  destruct (config_tree x w f) as [[[c rsr] ray]|]; [|reflexivity].
  assert (M : forall d w1 w2, w_files w1 = w_files w2 -> w_dirs w1 = w_dirs w2 ->
     snd (makedirs x d w1) = snd (makedirs x d w2) /\
     w_files (fst (makedirs x d w1)) = w_files (fst (makedirs x d w2)) /\
     w_dirs (fst (makedirs x d w1)) = w_dirs (fst (makedirs x d w2))).
  { intros d w1 w2 Hf Hd. unfold makedirs, is_dir, is_file. cbn [apply_ev]. unfold is_dir. rewrite Hf, Hd.
    destruct (String.eqb d ""); [auto|]. destruct (existsb_str d (w_dirs w2)) eqn:E1; [auto|].
    destruct (dhas d (w_files w2)); [auto|]. destruct (x_mkdir_ok x d); [|auto]. cbn. rewrite ?E1, ?Hf, ?Hd. cbn. rewrite ?Hf, ?Hd. auto. }
  destruct (M rsr (set_env env w) w eq_refl eq_refl) as (A & B & C).
  destruct (makedirs x rsr (set_env env w)) as [w1 o1], (makedirs x rsr w) as [w2 o2]. cbn [fst snd] in *. subst o2.
  destruct o1; [|reflexivity]. destruct (M ray w1 w2 B C) as (A' & _ & _).
  destruct (makedirs x ray w1), (makedirs x ray w2). cbn [fst snd] in *. now subst.
Qed.

Lemma empty_config : forall x f w text v, is_dir w f = false -> dget f (w_files w) = Some text -> x_yaml x text = Ok (Leaf v) ->
  get_config x (Some f) w = (w, Err AttributeError).
Proof.
  intros x f w text v Hd Hf Hy. unfold get_config. cbn [bind]. unfold config_tree, read_file. rewrite Hd, Hf.
  cbn [of_option bind]. rewrite Hy. reflexivity.
Qed.

Lemma missing_config : forall x f w, is_dir w f = false -> is_file w f = false -> get_config x (Some f) w = (w, Err FileNotFoundError).
Proof.
  intros x f w Hd Hf. unfold get_config. cbn [bind]. unfold config_tree, read_file. rewrite Hd.
  unfold is_file, dhas in Hf. destruct (dget f (w_files w)); [discriminate|reflexivity].
Qed.

(** whatever happens, only directories can appear *)
Lemma makedirs_frame x d w : let w' := fst (makedirs x d w) in
  w_env w' = w_env w /\ w_files w' = w_files w /\ w_requests w' = w_requests w.
Proof.
  unfold makedirs. destruct (String.eqb d ""); [auto|]. destruct (is_dir w d) eqn:E; [auto|].
  destruct (is_file w d); [auto|]. destruct (x_mkdir_ok x d); [|auto]. cbn [fst apply_ev]. rewrite E. auto.
Qed.

Lemma get_config_frame x f w : let w' := fst (get_config x f w) in
  w_env w' = w_env w /\ w_files w' = w_files w /\ w_requests w' = w_requests w.
Proof.
  unfold get_config. destruct (bind _ _) as [[[c rsr] ray]|]; [|auto].
  pose proof (makedirs_frame x rsr w) as H1. destruct (makedirs x rsr w) as [w1 [|]]; [|exact H1].
  pose proof (makedirs_frame x ray w1) as H2. destruct (makedirs x ray w1) as [w2 o]. cbn [fst] in *.
  intuition congruence.
Qed.

(** ** a concrete machine *)
Definition sample_yaml (s : string) : res cfg :=
  if String.eqb s "A" then Ok (CMap [("rsr_dir", Leaf (LStr "~/rsr")); ("download_from_internet", Leaf (LBool true))])
  else if String.eqb s "B" then Ok (CMap [("rayleigh_dir", Leaf (LStr "/lut"))])
  else Ok (Leaf LNull).
Definition sample_home (s : string) : string := if String.eqb s "~/rsr" then "/home/u/rsr" else s.
Definition sample_ext : extern :=
  {| x_yaml := sample_yaml; x_expanduser := sample_home; x_user_data_dir := "/data"; x_builtin_config := "/etc/psp.yaml";
     x_mkdir_ok := fun _ => true; x_net := fun _ _ => Err OSError; x_untar := fun _ => ([], Ok tt) |}.
Definition sample_world (env : dict string) : world :=
  {| w_env := env; w_files := [("/a.yaml", "A"); ("/b.yaml", "B"); ("/empty.yaml", ""); ("/etc/psp.yaml", "B")];
     w_dirs := ["/lut"]; w_requests := [] |}.
