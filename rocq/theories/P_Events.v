(** Lemmas on file system events, transfers and interruptions (C46, C47). *)
From Coq Require Import String Ascii List Bool.
From Verif Require Import Base M_Tables M_Utils M_World M_Config M_Download S_Download P_Strings.
Import ListNotations.
Local Open Scope string_scope.

Definition path_of (e : ev) : option string :=
  match e with EMkdir _ => None | ECreate p | EAppend p _ | ERemove p => Some p end.
Definition file_ev (e : ev) : Prop := match e with EMkdir _ => False | _ => True end.
Definition avoids (p : string) (l : list ev) : Prop := Forall (fun e => path_of e <> Some p) l.

Lemma dget_ddel_all_same {V} k (d : dict V) : dget k (ddel_all k d) = None.
Proof.
  induction d as [|[k' v] t IH]; [reflexivity|]. cbn. destruct (String.eqb k k') eqn:E; [exact IH|]. cbn. now rewrite E.
Qed.
Lemma dget_ddel_all_other {V} k k' (d : dict V) : k <> k' -> dget k (ddel_all k' d) = dget k d.
Proof.
  intros H. induction d as [|[k1 v] t IH]; [reflexivity|]. cbn. destruct (String.eqb_spec k' k1) as [->|].
  - destruct (String.eqb_spec k k1); [contradiction|exact IH].
  - cbn. now rewrite IH.
Qed.

Lemma apply_frame e w : w_env (apply_ev e w) = w_env w /\ w_requests (apply_ev e w) = w_requests w /\
  (file_ev e -> w_dirs (apply_ev e w) = w_dirs w).
Proof. destruct e; cbn; try tauto. destruct (is_dir w d); cbn; tauto. Qed.

Lemma run_cons e l w : run_evs (e :: l) w = run_evs l (apply_ev e w).
Proof. reflexivity. Qed.

Lemma run_frame l : forall w, w_env (run_evs l w) = w_env w /\ w_requests (run_evs l w) = w_requests w /\
  (Forall file_ev l -> w_dirs (run_evs l w) = w_dirs w).
Proof.
  induction l as [|e l IH]; intros w; [cbn; auto|]. rewrite run_cons. destruct (IH (apply_ev e w)) as (A & B & C).
  destruct (apply_frame e w) as (A' & B' & C'). repeat split; [congruence|congruence|].
  intros H. inversion H; subst. rewrite C by assumption. auto.
Qed.

Lemma run_app a b w : run_evs (a ++ b) w = run_evs b (run_evs a w).
Proof. apply fold_left_app. Qed.

Lemma apply_other e w p : path_of e <> Some p -> dget p (w_files (apply_ev e w)) = dget p (w_files w).
Proof.
  destruct e as [d|q|q s|q]; cbn; intros H.
  - destruct (is_dir w d); reflexivity.
  - apply dget_dset_other. congruence.
  - apply dget_dset_other. congruence.
  - apply dget_ddel_all_other. congruence.
Qed.

Lemma run_other l : forall w p, avoids p l -> dget p (w_files (run_evs l w)) = dget p (w_files w).
Proof.
  induction l as [|e l IH]; intros w p H; [reflexivity|]. inversion H; subst. rewrite run_cons, IH by assumption. now apply apply_other.
Qed.

(** writing *)
Lemma appends_text local chunks : forall w s, dget local (w_files w) = Some s ->
  dget local (w_files (run_evs (map (EAppend local) chunks) w)) = Some (s ++ String.concat "" chunks).
Proof.
  induction chunks as [|c chunks IH]; intros w s H; [cbn; now rewrite sapp_nil|].
  cbn [map]. rewrite run_cons, (IH _ (s ++ c)).
  - now rewrite concat_cons, sapp_assoc.
  - cbn. unfold file_text. rewrite H. apply dget_dset_same.
Qed.

Lemma write_text local chunks w :
  dget local (w_files (run_evs (write_events local chunks) w)) = Some (String.concat "" chunks).
Proof.
  unfold write_events. rewrite run_cons, (appends_text _ _ _ "") by (cbn; apply dget_dset_same). cbn [append]. unfold nonempty. now rewrite concat_filter.
Qed.

Lemma write_avoids p local chunks : p <> local -> avoids p (write_events local chunks).
Proof.
  intros H. constructor; [cbn; congruence|]. apply Forall_map, Forall_forall. cbn. congruence.
Qed.
Lemma write_file_ev local chunks : Forall file_ev (write_events local chunks).
Proof. constructor; [exact I|]. apply Forall_map, Forall_forall. cbn. auto. Qed.

(** extracting without obstacles *)
Fixpoint member_events (dir : string) (members : list (string * string)) : list ev :=
  match members with
  | [] => []
  | (n, c) :: rest => ECreate (join dir n) :: EAppend (join dir n) c :: member_events dir rest
  end.
Lemma member_events_app dir a b : member_events dir (a ++ b) = (member_events dir a ++ member_events dir b)%list.
Proof. induction a as [|[n c] a IH]; [reflexivity|]. cbn. now rewrite IH. Qed.
Lemma member_avoids p dir ms : (forall n, In n (map fst ms) -> p <> join dir n) -> avoids p (member_events dir ms).
Proof.
  induction ms as [|[n c] ms IH]; intros H; [constructor|]. constructor; [|constructor].
  - cbn. pose proof (H n (or_introl eq_refl)). congruence.
  - cbn. pose proof (H n (or_introl eq_refl)). congruence.
  - apply IH. intros. apply H. now right.
Qed.
Lemma member_file_ev dir ms : Forall file_ev (member_events dir ms).
Proof. induction ms as [|[n c] ms IH]; repeat constructor; auto. Qed.

Lemma member_text dir : forall ms w n c, dget n (rev ms) = Some c ->
  dget (join dir n) (w_files (run_evs (member_events dir ms) w)) = Some c.
Proof.
  induction ms as [|[n0 c0] ms IH] using rev_ind; intros w n c H; [discriminate|].
  rewrite rev_app_distr in H. cbn in H. rewrite member_events_app, run_app. cbn.
  unfold file_text. cbn. rewrite dget_dset_same. cbn [append].
  destruct (String.eqb_spec n n0) as [->|Hn].
  - injection H as ->. apply dget_dset_same.
  - assert (join dir n0 <> join dir n) by (intros E; apply Hn; symmetry; exact (join_inj _ _ _ E)).
    rewrite !dget_dset_other by auto. now apply IH.
Qed.

Lemma extract_cases w dir : forall ms o l o', extract_events w dir ms o = (l, o') ->
  (l = member_events dir ms /\ o' = o) \/
  (exists a b, ms = (a ++ b)%list /\ l = member_events dir a /\ o' = Err OSError).
Proof.
  induction ms as [|[n c] ms IH]; intros o l o' H; [injection H as <- <-; now left|]. cbn in H.
  destruct (is_dir w (join dir n)).
  - injection H as <- <-. right. exists [], ((n, c) :: ms). auto.
  - destruct (extract_events w dir ms o) as [l1 o1] eqn:E. injection H as <- <-.
    destruct (IH _ _ _ E) as [[-> ->]|(a & b & -> & -> & ->)]; [now left|].
    right. exists ((n, c) :: a), b. auto.
Qed.

(** ** interruptions *)
Lemma cut_refl l : cut l l. Proof. induction l; constructor; auto. Qed.
Lemma cut_app_l a b l : cut a l -> cut (a ++ b) l.
Proof. induction 1; cbn; constructor; auto. Qed.
Lemma cut_prefix a b : cut (a ++ b) a.
Proof. apply cut_app_l, cut_refl. Qed.
Lemma cut_app_r a b b' : cut b b' -> cut (a ++ b) (a ++ b').
Proof. intros H. induction a; [exact H|]. cbn. now constructor. Qed.
Lemma cut_app a : forall b l, cut (a ++ b) l -> cut a l \/ exists b', l = (a ++ b')%list /\ cut b b'.
Proof.
  induction a as [|e a IH]; intros b l H; [right; exists l; auto|]. cbn in H. inversion H; subst.
  - left. apply cut_stop.
  - left. now constructor.
  - destruct (IH _ _ H3) as [A|(b' & -> & B)]; [left; now constructor|right; exists b'; auto].
Qed.
Lemma prefix_trans a b c : String.prefix a b = true -> String.prefix b c = true -> String.prefix a c = true.
Proof.
  revert b c. induction a as [|x a IH]; intros b c H1 H2; [now destruct c|].
  destruct b as [|y b]; [discriminate|]. destruct c as [|z c]; [discriminate|]. cbn in *.
  destruct (ascii_dec x y); [|discriminate]. destruct (ascii_dec y z); [|discriminate]. subst.
  destruct (ascii_dec z z); [eauto|contradiction].
Qed.
Lemma cut_trans a b c : cut a b -> cut b c -> cut a c.
Proof.
  intros H. revert c. induction H; intros c Hc.
  - inversion Hc; subst. constructor.
  - inversion Hc; subst; [constructor| |].
    + constructor. eapply prefix_trans; eauto.
    + match goal with H : cut [] _ |- _ => inversion H; subst end. now constructor.
  - inversion Hc; subst; [constructor|now constructor|constructor; auto].
Qed.
Lemma cut_avoids p a b : cut a b -> avoids p a -> avoids p b.
Proof.
  induction 1; intros Ha; [constructor| |].
  - inversion Ha; subst. constructor; [assumption|constructor].
  - inversion Ha; subst. constructor; auto. now apply IHcut.
Qed.
Lemma cut_file_ev a b : cut a b -> Forall file_ev a -> Forall file_ev b.
Proof.
  induction 1; intros Ha; [constructor| |].
  - constructor; [exact I|constructor].
  - inversion Ha; subst. constructor; auto.
Qed.

Lemma truncated_cut dir a b : truncated a b -> cut (member_events dir a) (member_events dir b).
Proof.
  induction 1 as [l|n s s' l Hp|[n c] l l' H IH]; cbn.
  - constructor.
  - constructor. now constructor.
  - constructor. now constructor.
Qed.

(** the events of an undisturbed transfer *)
Definition full_trace (dir tarball : string) (chunks : list string) (members : list (string * string)) : list ev :=
  (write_events (join dir tarball) chunks ++ member_events dir members ++ [ERemove (join dir tarball)])%list.

Lemma full_trace_file_ev dir tb ch ms : Forall file_ev (full_trace dir tb ch ms).
Proof.
  unfold full_trace. rewrite !Forall_app. repeat split; [apply write_file_ev|apply member_file_ev|].
  repeat constructor.
Qed.

Lemma full_trace_avoids dir tb ch ms p : ~ written_by dir tb ms p -> avoids p (full_trace dir tb ch ms).
Proof.
  intros H. assert (p <> join dir tb) by (intros ->; apply H; now left).
  unfold full_trace, avoids. rewrite !Forall_app. repeat split.
  - now apply write_avoids.
  - apply member_avoids. intros n Hn ->. apply H. right. eauto.
  - repeat constructor. cbn. congruence.
Qed.

(** every transfer is a cut of an undisturbed one *)
Lemma transfer_shape x r tb dir w l o : transfer_events x r tb dir w = (l, o) ->
  (o = Ok tt /\ rs_ok r = true /\ rs_end r = Ok tt /\ is_dir w dir = true /\
     exists ms, x_untar x (String.concat "" (rs_chunks r)) = (ms, Ok tt) /\ l = full_trace dir tb (rs_chunks r) ms) \/
  (exists e, o = Err e /\
    ((l = [] /\ (rs_ok r = false -> e = HTTPError)) \/
     (rs_ok r = true /\ is_dir w dir = true /\ l = write_events (join dir tb) (rs_chunks r)) \/
     (rs_ok r = true /\ rs_end r = Ok tt /\ is_dir w dir = true /\
      exists ms o2 a b, x_untar x (String.concat "" (rs_chunks r)) = (ms, o2) /\ ms = (a ++ b)%list /\
        l = (write_events (join dir tb) (rs_chunks r) ++ member_events dir a)%list))).
Proof.
  unfold transfer_events. destruct (rs_ok r) eqn:Er; cbn [negb].
  2:{ intros [= <- <-]. right. eauto 6. }
  destruct (is_dir w (join dir tb)).
  { intros [= <- <-]. right. eexists. split; [reflexivity|]. left. split; [reflexivity|discriminate]. }
  destruct (is_dir w dir) eqn:Ed; cbn [negb].
  2:{ intros [= <- <-]. right. eexists. split; [reflexivity|]. left. split; [reflexivity|discriminate]. }
  destruct (rs_end r) as [[]|e] eqn:Ee.
  2:{ intros [= <- <-]. right. eexists. split; [reflexivity|]. right. left. auto. }
  unfold file_text. rewrite write_text.
  destruct (x_untar x (String.concat "" (rs_chunks r))) as [ms o2] eqn:Eu.
  destruct (extract_events w dir ms o2) as [l1 o1] eqn:Ex.
  destruct o1 as [[]|e]; intros [= <- <-].
  - destruct (extract_cases _ _ _ _ _ _ Ex) as [[-> ->]|(a & b & -> & -> & Hx)]; [|discriminate].
    left. repeat split; auto. exists ms. auto.
  - right. exists e. split; [reflexivity|]. right. right. repeat split; auto.
    destruct (extract_cases _ _ _ _ _ _ Ex) as [[-> _]|(a & b & -> & -> & _)].
    + exists ms, o2, ms, []. rewrite app_nil_r. auto.
    + exists (a ++ b)%list, o2, a, b. auto.
Qed.

Lemma transfer_cut x r tb dir w l o url members reqs : serves x url members -> x_net x reqs url = Ok r ->
  transfer_events x r tb dir w = (l, o) ->
  cut (full_trace dir tb (rs_chunks r) members) l /\ (o = Ok tt -> l = full_trace dir tb (rs_chunks r) members).
Proof.
  intros Hs Hr H. unfold full_trace.
  destruct (transfer_shape _ _ _ _ _ _ _ H) as [(-> & Ho & He & _ & ms & Eu & ->)|(e & -> & [(-> & _)|[(_ & _ & ->)|(Ho & He & _ & ms & o2 & a & b & Eu & -> & ->)]])].
  - pose proof (Hs _ _ Hr Ho He) as Hm. rewrite Eu in Hm. subst ms. split; [apply cut_refl|reflexivity].
  - split; [constructor|discriminate].
  - split; [apply cut_prefix|discriminate].
  - split; [|discriminate]. pose proof (Hs _ _ Hr Ho He) as Hm. rewrite Eu in Hm. apply cut_app_r, cut_app_l.
    assert (Hab : cut (member_events dir (a ++ b)) (member_events dir a)) by (rewrite member_events_app; apply cut_prefix).
    destruct o2 as [[]|e2]; [now subst|]. eapply cut_trans; [|exact Hab]. now apply truncated_cut.
Qed.

(** the state after an undisturbed transfer *)
Lemma full_trace_result dir tb ch ms w : let w' := run_evs (full_trace dir tb ch ms) w in
  dget (join dir tb) (w_files w') = None /\
  (forall n c, dget n (rev ms) = Some c -> n <> tb -> dget (join dir n) (w_files w') = Some c) /\
  (forall p, ~ written_by dir tb ms p -> dget p (w_files w') = dget p (w_files w)).
Proof.
  cbv zeta. unfold full_trace. rewrite !run_app. set (w0 := run_evs (write_events _ _) w). set (w1 := run_evs (member_events _ _) w0). cbn.
  split; [apply dget_ddel_all_same|]. split.
  - intros n c Hn Ht. rewrite dget_ddel_all_other by (intros E; apply Ht; exact (join_inj _ _ _ E)). now apply member_text.
  - intros p Hp. rewrite dget_ddel_all_other by (intros ->; apply Hp; now left).
    unfold w1, w0. rewrite run_other by (apply member_avoids; intros n Hn ->; apply Hp; right; eauto).
    apply run_other, write_avoids. intros ->. apply Hp. now left.
Qed.

(** ** C47 *)
Lemma fetch_success x url tb dir w w' : fetch x url tb dir w = (w', Ok tt) ->
  exists r members, x_net x (w_requests w) url = Ok r /\ rs_ok r = true /\ rs_end r = Ok tt /\
    x_untar x (String.concat "" (rs_chunks r)) = (members, Ok tt) /\
    dget (join dir tb) (w_files w') = None /\
    (forall n c, dget n (rev members) = Some c -> n <> tb -> dget (join dir n) (w_files w') = Some c) /\
    (forall p, ~ written_by dir tb members p -> dget p (w_files w') = dget p (w_files w)) /\
    w_requests w' = url :: w_requests w /\ w_dirs w' = w_dirs w /\ w_env w' = w_env w.
Proof.
  unfold fetch. destruct (x_net x (w_requests w) url) as [r|] eqn:En; [|discriminate].
  destruct (transfer_events x r tb dir (log_request url w)) as [l o] eqn:Et. intros [= <- ->].
  destruct (transfer_shape _ _ _ _ _ _ _ Et) as [(_ & Ho & He & _ & ms & Eu & ->)|(e & Hx & _)]; [|discriminate].
  exists r, ms. destruct (full_trace_result dir tb (rs_chunks r) ms (log_request url w)) as (A & B & C).
  destruct (run_frame (full_trace dir tb (rs_chunks r) ms) (log_request url w)) as (F1 & F2 & F3).
  repeat split; auto. apply F3, full_trace_file_ev.
Qed.

Lemma fetch_http_error x url tb dir w r : x_net x (w_requests w) url = Ok r -> rs_ok r = false ->
  fetch x url tb dir w = (log_request url w, Err HTTPError).
Proof. intros En Hr. unfold fetch. rewrite En. unfold transfer_events. rewrite Hr. reflexivity. Qed.

Lemma fetch_lost_connection x url tb dir w r e : x_net x (w_requests w) url = Ok r -> rs_ok r = true -> rs_end r = Err e ->
  is_dir w dir = true -> is_dir w (join dir tb) = false ->
  exists w', fetch x url tb dir w = (w', Err e) /\ dget (join dir tb) (w_files w') = Some (String.concat "" (rs_chunks r)) /\
    (forall p, p <> join dir tb -> dget p (w_files w') = dget p (w_files w)) /\ w_dirs w' = w_dirs w.
Proof.
  intros En Hr He Hd Hl. unfold fetch. rewrite En. unfold transfer_events. rewrite Hr, He.
  change (is_dir (log_request url w) (join dir tb)) with (is_dir w (join dir tb)). rewrite Hl.
  change (is_dir (log_request url w) dir) with (is_dir w dir). rewrite Hd. cbn [negb].
  eexists. split; [reflexivity|]. split; [apply write_text|]. split.
  - intros p Hp. rewrite run_other; [reflexivity|]. now apply write_avoids.
  - apply (run_frame (write_events (join dir tb) (rs_chunks r)) (log_request url w)), write_file_ev.
Qed.

(** cutting the same bytes differently changes nothing observable *)
Lemma chunking_irrelevant x r1 r2 tb dir w : rs_ok r1 = rs_ok r2 -> rs_end r1 = rs_end r2 ->
  String.concat "" (rs_chunks r1) = String.concat "" (rs_chunks r2) ->
  let a := transfer_events x r1 tb dir w in let b := transfer_events x r2 tb dir w in
  snd a = snd b /\ w_dirs (run_evs (fst a) w) = w_dirs (run_evs (fst b) w) /\
  forall p, dget p (w_files (run_evs (fst a) w)) = dget p (w_files (run_evs (fst b) w)).
Proof.
  intros H1 H2 H3. cbv zeta. unfold transfer_events. rewrite <- H1, <- H2.
  destruct (rs_ok r1); cbn [negb]; [|auto]. destruct (is_dir w (join dir tb)); [auto|].
  destruct (is_dir w dir); cbn [negb]; [|auto].
  set (wa := write_events (join dir tb) (rs_chunks r1)). set (wb := write_events (join dir tb) (rs_chunks r2)).
  assert (W : forall p, dget p (w_files (run_evs wa w)) = dget p (w_files (run_evs wb w))).
  { intros p. destruct (String.eqb_spec p (join dir tb)) as [->|Hp].
    - unfold wa, wb. now rewrite !write_text, H3.
    - unfold wa, wb. now rewrite !run_other by (now apply write_avoids). }
  assert (D : w_dirs (run_evs wa w) = w_dirs (run_evs wb w)).
  { destruct (run_frame wa w) as (_ & _ & D1). destruct (run_frame wb w) as (_ & _ & D2).
    rewrite D1, D2 by apply write_file_ev. reflexivity. }
  assert (Cong : forall l u v, (forall p, dget p (w_files u) = dget p (w_files v)) -> w_dirs u = w_dirs v ->
            (forall p, dget p (w_files (run_evs l u)) = dget p (w_files (run_evs l v))) /\ w_dirs (run_evs l u) = w_dirs (run_evs l v)).
  { clear. induction l as [|e l IH]; intros u v Hf Hd; [auto|]. rewrite !run_cons. apply IH.
    - intros p. destruct e as [d|q|q s|q]; cbn.
      + unfold is_dir. rewrite Hd. destruct (existsb_str d (w_dirs v)); cbn; auto.
      + rewrite !dget_dset. destruct (String.eqb p q); auto.
      + unfold file_text. rewrite Hf. rewrite !dget_dset. destruct (String.eqb p q); auto.
      + destruct (String.eqb_spec p q) as [->|Hp]; [now rewrite !dget_ddel_all_same|now rewrite !dget_ddel_all_other].
    - destruct e; cbn; auto. unfold is_dir. rewrite Hd. destruct (existsb_str d (w_dirs v)); cbn; congruence. }
  destruct (rs_end r1) as [[]|e]; [|cbn; auto].
  assert (Ta : file_text (run_evs wa w) (join dir tb) = String.concat "" (rs_chunks r2)) by (unfold file_text, wa; now rewrite write_text).
  assert (Tb : file_text (run_evs wb w) (join dir tb) = String.concat "" (rs_chunks r2)) by (unfold file_text, wb; now rewrite write_text).
  rewrite Ta, Tb.
  destruct (x_untar x (String.concat "" (rs_chunks r2))) as [ms o]. destruct (extract_events w dir ms o) as [l o'].
  destruct o'; cbn [fst snd]; (split; [reflexivity|]); rewrite !run_app.
   - destruct (Cong l _ _ W D) as [W1 D1]. destruct (Cong [ERemove (join dir tb)] _ _ W1 D1). auto.
  - destruct (Cong l _ _ W D). auto.
Qed.
