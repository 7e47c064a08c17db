From Coq Require Import ZArith String Ascii List Bool Lia.
From Verif Require Import Base M_Logging.
Import ListNotations.
Local Open Scope Z_scope.

Definition isc (k : hkind) : bool := match k with Console => true | _ => false end.
Definition consoles (l : list handler) : nat := List.length (filter (fun h => isc (h_kind h)) l).
Arguments consoles : simpl never.
Lemma consoles_app a b : consoles (a ++ b) = (consoles a + consoles b)%nat.
Proof. unfold consoles. now rewrite filter_app, app_length. Qed.
Lemma consoles_level z l : consoles (map (fun h => {| h_kind := h_kind h; h_level := z |}) l) = consoles l.
Proof. unfold consoles. induction l as [|h l IH]; [reflexivity|]. cbn. destruct (isc (h_kind h)); cbn; now rewrite IH. Qed.
Lemma consoles_none l : consoles l = 0%nat <-> Forall (fun h => h_kind h <> Console) l.
Proof.
  unfold consoles. induction l as [|h l IH]; [cbn; split; auto|]. cbn. destruct (h_kind h) eqn:K; cbn; rewrite ?Forall_cons_iff, ?K, <- ?IH; (split; [intros; try discriminate; (split; [discriminate|assumption])|intros [A B]; try assumption; congruence]).
Qed.

Definition no_named (s : lstate) : Prop := forall n l, In (n, l) (named s) -> consoles l = 0%nat.
Definition inv (s : lstate) : Prop := (consoles (root_handlers s) <= 1)%nat /\ (is_on s = false -> consoles (root_handlers s) = 0%nat) /\ no_named s.
Lemma in_dset {V} k (v : V) d n w : In (n, w) (dset k v d) -> (n, w) = (k, v) \/ In (n, w) d.
Proof.
  induction d as [|[k' v'] d IH]; cbn.
  - intros [E|[]]; [left; congruence].
  - destruct (String.eqb k k') eqn:K; cbn; intros [E|I]; auto.
    + apply String.eqb_eq in K. subst. left. congruence.
    + destruct (IH I); auto.
Qed.
Lemma in_dget {V} k (v : V) d : dget k d = Some v -> In (k, v) d.
Proof. induction d as [|[k' v'] d IH]; cbn; [discriminate|]. destruct (String.eqb k k') eqn:K; [apply String.eqb_eq in K; subst; intros [= ->]; auto|auto]. Qed.
Lemma handlers_named s name : is_root name = false -> no_named s -> consoles (handlers_of s name) = 0%nat.
Proof. intros R N. unfold handlers_of. rewrite R. destruct (dget name (named s)) as [l|] eqn:D; [apply in_dget in D; eauto|reflexivity]. Qed.
Lemma inv_with s name l : inv s -> consoles l = consoles (handlers_of s name) -> inv (with_handlers s name l).
Proof.
  intros (A & B & C) E. unfold with_handlers. destruct (is_root name) eqn:R.
  - unfold handlers_of in E. rewrite R in E. (split; [|split]); cbn -[consoles]; try exact C; try rewrite E; auto.
  - split; [|split]; cbn; try exact C; auto. intros n l' I. cbn in I. apply in_dset in I as [[= -> ->]|I]; [|eauto]. rewrite E. now apply handlers_named.
Qed.
Lemma inv_run o s : inv s -> inv (fst (run o s)).
Proof.
  intros I. pose proof I as (A & B & C).
  assert (O : forall lv, inv (fst (logging_on lv s))).
  { intros [z|]; [|exact I]. cbn. split; [|split]; cbn; [|discriminate|exact C]. rewrite consoles_level. destruct (is_on s); [exact A|].
    rewrite consoles_app, (B eq_refl). apply le_n. }
  destruct o as [lv| | |name|name n lv|lv]; cbn [run].
  - apply O. - apply O.
  - cbn. split; [|split]; cbn; try exact C; auto.
  - unfold get_logger. destruct (handlers_of s name) eqn:H; [|exact I]. cbn. apply inv_with; [exact I|]. now rewrite H.
  - cbn. apply inv_with; [exact I|]. rewrite consoles_app. apply Nat.add_0_r.
  - exact I.
Qed.
Lemma inv_history ops : forall s, inv s -> inv (history ops s).
Proof. induction ops as [|o ops IH]; intros s I; [exact I|]. cbn. apply IH, inv_run, I. Qed.
Lemma fresh_inv s : fresh s -> inv s.
Proof.
  intros (A & B & C). apply consoles_none in B. split; [|split].
  - rewrite B. lia. - auto. - intros n l I. apply consoles_none. eauto.
Qed.

(** ** emission *)
Lemma emit_consoles s name lv : no_named s -> (List.length (filter isc (emit s name lv)) <= consoles (root_handlers s))%nat.
Proof.
  intros N. unfold emit. destruct (lv <? root_level s); [cbn; lia|].
  assert (F : forall hs, (List.length (filter isc (map h_kind (filter (fun h => (h_level h <=? lv)%Z) hs))) <= consoles hs)%nat).
  { intros hs. unfold consoles. induction hs as [|h hs IH]; [cbn; lia|]. cbn. destruct (h_level h <=? lv); cbn; destruct (isc (h_kind h)); cbn; lia. }
  assert (G : consoles (chain s name) = consoles (root_handlers s)).
  { unfold chain. destruct (is_root name); [reflexivity|]. rewrite consoles_app.
    enough (forall l, consoles (flat_map (fun n => match dget n (named s) with Some l => l | None => [] end) l) = 0%nat) as -> by reflexivity.
    induction l as [|n l IH]; [reflexivity|]. cbn [flat_map]. rewrite consoles_app, IH. destruct (dget n (named s)) as [hs|] eqn:D; [|reflexivity]. apply in_dget in D. rewrite (N _ _ D). reflexivity. }
  rewrite <- G. specialize (F (chain s name)). destruct (chain s name); [destruct (WARNING <=? lv); cbn; lia|exact F].
Qed.

Lemma history_app a b s : history (a ++ b) s = history b (history a s).
Proof. apply fold_left_app. Qed.
Lemma history_last ops o s : history (ops ++ [o]) s = fst (run o (history ops s)).
Proof. rewrite history_app. reflexivity. Qed.

(** "switched off": on was called, the console is gone *)
Definition spent (s : lstate) : Prop := is_on s = true /\ consoles (root_handlers s) = 0%nat /\ no_named s.
Lemma spent_with s name l : spent s -> consoles l = consoles (handlers_of s name) -> spent (with_handlers s name l).
Proof.
  intros (A & B & C) E. unfold with_handlers. destruct (is_root name) eqn:R.
  - unfold handlers_of in E. rewrite R in E. (split; [|split]); cbn -[consoles]; try exact C; try rewrite E; auto.
  - split; [|split]; cbn; try exact C; auto. intros n l' I. cbn in I. apply in_dset in I as [[= -> ->]|I]; [|eauto]. rewrite E. now apply handlers_named.
Qed.
Lemma spent_run o s : spent s -> spent (fst (run o s)).
Proof.
  intros I. pose proof I as (A & B & C).
  assert (O : forall lv, spent (fst (logging_on lv s))).
  { intros [z|]; [|exact I]. cbn. rewrite A. split; [|split]; cbn; try exact C; auto. now rewrite consoles_level. }
  destruct o as [lv| | |name|name n lv|lv]; cbn [run].
  - apply O. - apply O.
  - cbn. split; [|split]; cbn; try exact C; auto.
  - unfold get_logger. destruct (handlers_of s name) eqn:H; [|exact I]. cbn. apply spent_with; [exact I|]. now rewrite H.
  - cbn. apply spent_with; [exact I|]. rewrite consoles_app. apply Nat.add_0_r.
  - exact I.
Qed.
Lemma spent_history ops : forall s, spent s -> spent (history ops s).
Proof. induction ops as [|o ops IH]; intros s I; [exact I|]. cbn. apply IH, spent_run, I. Qed.

Lemma on_stays o s : is_on s = true -> is_on (fst (run o s)) = true.
Proof.
  intros H. destruct o as [[z|] | | |name|name n lv|lv]; cbn; auto.
  - unfold get_logger. destruct (handlers_of s name); [|exact H]. cbn. unfold with_handlers. destruct (is_root name); exact H.
  - unfold with_handlers. destruct (is_root name); exact H.
Qed.
Lemma on_stays_history ops : forall s, is_on s = true -> is_on (history ops s) = true.
Proof. induction ops as [|o ops IH]; intros s H; [exact H|]. cbn. apply IH, on_stays, H. Qed.

(** ** a console that is there prints *)
Lemma count_console_once s name lv z : inv s -> consoles (root_handlers s) = 1%nat -> root_level s = z -> Forall (fun h => h_level h = z) (root_handlers s) ->
  List.length (filter isc (emit s name lv)) = (if (z <=? lv)%Z then 1 else 0)%nat.
Proof.
  intros (A & B & C) H1 Hl Hh. unfold emit. rewrite Hl. destruct (lv <? z) eqn:L; [destruct (z <=? lv) eqn:G; [apply Z.ltb_lt in L; apply Z.leb_le in G; lia|reflexivity]|].
  apply Z.ltb_ge in L. destruct (Z.leb_spec z lv); [|lia].
  assert (G : exists hs, chain s name = (hs ++ root_handlers s)%list /\ consoles hs = 0%nat).
  { unfold chain. destruct (is_root name); [exists []; auto|]. eexists. split; [reflexivity|].
    generalize (ancestors_aux "" name). induction l as [|n l IH]; [reflexivity|]. cbn [flat_map]. rewrite consoles_app, IH.
    destruct (dget n (named s)) as [h|] eqn:D; [|reflexivity]. apply in_dget in D. rewrite (C _ _ D). reflexivity. }
  destruct G as (hs & E & H0). 
  assert (K : forall l, consoles l = 0%nat -> List.length (filter isc (map h_kind (filter (fun h => (h_level h <=? lv)%Z) l))) = 0%nat).
  { intros l. unfold consoles. induction l as [|h l IH]; [reflexivity|]. cbn. destruct (isc (h_kind h)) eqn:Q; cbn; [discriminate|]. intros. destruct (h_level h <=? lv); cbn; rewrite ?Q; auto. }
  assert (J : forall l, Forall (fun h => h_level h = z) l -> List.length (filter isc (map h_kind (filter (fun h => (h_level h <=? lv)%Z) l))) = consoles l).
  { intros l. unfold consoles. induction 1 as [|h l Hz Hl' IH]; [reflexivity|]. cbn. rewrite Hz. destruct (Z.leb_spec z lv); [|lia]. cbn. destruct (isc (h_kind h)); cbn; congruence. }
  assert (N : (hs ++ root_handlers s)%list <> []) by (intros Q; apply app_eq_nil in Q as [_ Q]; rewrite Q in H1; discriminate).
  rewrite E. destruct (hs ++ root_handlers s)%list eqn:Q; [congruence|]. rewrite <- Q.
  rewrite filter_app, map_app, filter_app, app_length, K, J, H1 by assumption. reflexivity.
Qed.

Lemma on_first z s : inv s -> is_on s = false -> let s' := fst (logging_on (Level z) s) in
  consoles (root_handlers s') = 1%nat /\ root_level s' = z /\ Forall (fun h => h_level h = z) (root_handlers s').
Proof.
  intros (A & B & C) H. cbn. rewrite H. split; [|split; [reflexivity|]].
  - rewrite consoles_level, consoles_app, (B H). reflexivity.
  - apply Forall_forall. intros h I. apply in_map_iff in I as (x & <- & _). reflexivity.
Qed.
Lemma on_again z s : inv s -> is_on s = true -> let s' := fst (logging_on (Level z) s) in
  consoles (root_handlers s') = consoles (root_handlers s) /\ root_level s' = z /\ Forall (fun h => h_level h = z) (root_handlers s').
Proof.
  intros (A & B & C) H. cbn. rewrite H. split; [|split; [reflexivity|]].
  - apply consoles_level.
  - apply Forall_forall. intros h I. apply in_map_iff in I as (x & <- & _). reflexivity.
Qed.

Lemma live_run o s : inv s -> o <> Off -> (is_on s = true -> consoles (root_handlers s) = 1%nat) ->
  is_on (fst (run o s)) = true -> consoles (root_handlers (fst (run o s))) = 1%nat.
Proof.
  intros I Hoff H.
  assert (O : forall lv, is_on (fst (logging_on lv s)) = true -> consoles (root_handlers (fst (logging_on lv s))) = 1%nat).
  { intros [z|]; [|exact H]. intros _. destruct (is_on s) eqn:E.
    - destruct (on_again z s I E) as (-> & _). auto.
    - now destruct (on_first z s I E) as (-> & _). }
  assert (W : forall name l, consoles l = consoles (handlers_of s name) -> is_on (with_handlers s name l) = true -> consoles (root_handlers (with_handlers s name l)) = 1%nat).
  { intros name l. unfold with_handlers, handlers_of. destruct (is_root name); cbn; intros; [|auto]. rewrite H0. auto. }
  destruct o as [lv| | |name|name n lv|lv]; cbn [run].
  - apply O. - apply O. - congruence.
  - unfold get_logger. destruct (handlers_of s name) eqn:Q; [|exact H]. cbn [fst]. apply W. now rewrite Q.
  - cbn [fst]. apply W. rewrite consoles_app. apply Nat.add_0_r.
  - exact H.
Qed.
Lemma live_history ops : forall s, ~ In Off ops -> inv s -> (is_on s = true -> consoles (root_handlers s) = 1%nat) ->
  is_on (history ops s) = true -> consoles (root_handlers (history ops s)) = 1%nat.
Proof.
  induction ops as [|o ops IH]; intros s N I H; [exact H|]. cbn. apply IH.
  - intros A. apply N. now right.
  - now apply inv_run.
  - apply live_run; auto. intros ->. apply N. now left.
Qed.

From Verif Require Import S_Logging.
Lemma at_most_once s ops name lv : fresh s -> (printed (history ops s) name lv <= 1)%nat.
Proof.
  intros F. pose proof (inv_history ops s (fresh_inv s F)) as (A & B & C). pose proof (emit_consoles (history ops s) name lv C).
  unfold printed. change (fun k => match k with Console => true | _ => false end) with isc. lia.
Qed.

Lemma on_prints s ops z name lv : fresh s -> ~ In Off ops -> printed (history (ops ++ [On (Level z)]) s) name lv = (if (z <=? lv)%Z then 1 else 0)%nat.
Proof.
  intros F N. rewrite history_last. pose proof (inv_history ops s (fresh_inv s F)) as I. cbn [run].
  unfold printed. change (fun k => match k with Console => true | _ => false end) with isc.
  assert (I' : inv (fst (logging_on (Level z) (history ops s)))) by exact (inv_run (On (Level z)) _ I).
  destruct (is_on (history ops s)) eqn:E.
  - destruct (on_again z _ I E) as (C1 & Lz & Fz). apply count_console_once; auto. rewrite C1.
    apply live_history; auto. + now apply fresh_inv. + destruct F as (F & _). congruence.
  - destruct (on_first z _ I E) as (C1 & Lz & Fz). now apply count_console_once.
Qed.

Lemma on_off_silent s a o b c name lv : fresh s -> (o = DebugOn \/ exists z, o = On (Level z)) -> printed (history (a ++ o :: b ++ Off :: c) s) name lv = 0%nat.
Proof.
  intros F Ho. rewrite history_app. cbn [history fold_left]. 
  change (fold_left (fun s0 o => fst (run o s0)) (b ++ Off :: c)%list) with (history (b ++ Off :: c)). rewrite history_app. cbn [history fold_left].
  match goal with |- printed (fold_left _ _ (fst (run Off ?t))) _ _ = _ => set (u := t) end.
  assert (S : spent (fst (run Off u))).
  { assert (inv u) as (_ & _ & Nu). { apply inv_history. apply inv_run, inv_history, fresh_inv, F. }
    split; [|split; [reflexivity|exact Nu]]. change (is_on u = true). apply (on_stays_history b). destruct Ho as [-> | [z ->]]; reflexivity. }
  pose proof (spent_history c _ S) as (_ & B & C). pose proof (emit_consoles _ name lv C) as E. unfold printed.
  change (fun k => match k with Console => true | _ => false end) with isc. unfold history in *. lia.
Qed.

Lemma off_emit s ops name lv k : fresh s -> In k (emit (history (ops ++ [Off]) s) name lv) ->
  k = Null \/ (is_root name = false /\ exists n l h, In (n, l) (named (history ops s)) /\ In h l /\ h_kind h = k /\ k <> Console).
Proof.
  intros F. rewrite history_last. cbn [run]. pose proof (inv_history ops s (fresh_inv s F)) as (_ & _ & C).
  set (u := history ops s) in *. clearbody u. unfold emit. cbn [logging_off fst root_level].
  destruct (lv <? root_level u); [intros []|]. unfold chain. cbn [root_handlers named].
  destruct (is_root name) eqn:R.
  - cbn. destruct (0 <=? lv); cbn; [intros [<-|[]]; auto|intros []].
  - match goal with |- context [flat_map ?f ?l] => set (hs := flat_map f l) end.
    assert (N : (hs ++ [{| h_kind := Null; h_level := 0 |}])%list <> []) by (intros Q; apply app_eq_nil in Q as [_ Q]; discriminate).
    destruct (hs ++ [{| h_kind := Null; h_level := 0 |}])%list as [|h0 t] eqn:Q; [congruence|]. rewrite <- Q.
    intros I. apply in_map_iff in I as (h & <- & I). apply filter_In in I as [I _]. apply in_app_iff in I as [I|[<-|[]]]; [|now left].
    right. split; [reflexivity|]. apply in_flat_map in I as (n & _ & I). destruct (dget n (named u)) as [l|] eqn:D; [|destruct I].
    apply in_dget in D. exists n, l, h. repeat split; auto. specialize (C n l D). apply consoles_none in C. rewrite Forall_forall in C. auto.
Qed.

Lemma handlers_with s name l : handlers_of (with_handlers s name l) name = l.
Proof. unfold handlers_of, with_handlers. destruct (is_root name) eqn:R; cbn; rewrite ?R; [reflexivity|]. now rewrite dget_dset_same. Qed.
Lemma anc_self r : forall acc, In (acc ++ r)%string (ancestors_aux acc r).
Proof.
  induction r as [|c r IH]; intros acc; cbn.
  - left. induction acc as [|d acc IHa]; [reflexivity|]. cbn. now rewrite <- IHa.
  - assert (E : (acc ++ String c r = (acc ++ String c "") ++ r)%string) by (induction acc as [|d acc IHa]; [reflexivity|cbn; now rewrite IHa]).
    rewrite E. destruct (Ascii.eqb c "."); [apply in_app_iff; left|]; apply IH.
Qed.
Lemma chain_ne s name : handlers_of s name <> [] -> chain s name <> [].
Proof.
  unfold handlers_of, chain. destruct (is_root name); [auto|]. intros H Q. apply app_eq_nil in Q as [Q _].
  destruct (dget name (named s)) as [l|] eqn:D; [|congruence]. destruct l as [|h l]; [congruence|].
  assert (I : In h []); [|destruct I]. rewrite <- Q. apply in_flat_map. exists name. split; [exact (anc_self name "")|]. rewrite D. now left.
Qed.
Lemma no_last_resort s name lv : let s' := fst (get_logger name s) in
  fst (get_logger name s') = s' /\ (forall k, In k (emit s' name lv) -> k = LastResort -> exists h, In h (chain s' name) /\ h_kind h = LastResort) /\ chain s' name <> [].
Proof.
  intros s'. assert (H : handlers_of s' name <> []).
  { subst s'. unfold get_logger. destruct (handlers_of s name) eqn:Q; cbn [fst]; [rewrite handlers_with; discriminate|congruence]. }
  pose proof (chain_ne s' name H) as N. split; [|split; [|exact N]].
  - unfold get_logger. destruct (handlers_of s' name); [congruence|reflexivity].
  - intros k I ->. unfold emit in I. destruct (lv <? root_level s'); [destruct I|]. destruct (chain s' name) as [|h0 t]; [congruence|].
    apply in_map_iff in I as (h & E & I). apply filter_In in I as [I _]. eauto.
Qed.
Lemma with_other s name l n : n <> name -> is_root n = false -> handlers_of (with_handlers s name l) n = handlers_of s n.
Proof.
  intros H R. unfold handlers_of, with_handlers. rewrite R. destruct (is_root name); [reflexivity|]. cbn [named].
  rewrite dget_dset_other by congruence. reflexivity.
Qed.
Lemma keeps_handlers o s n : handlers_of s n <> [] -> handlers_of (fst (run o s)) n <> [].
Proof.
  intros H.
  assert (O : forall lv, handlers_of (fst (logging_on lv s)) n <> []).
  { intros [z|]; [|exact H]. unfold handlers_of in *. cbn. destruct (is_root n); [|exact H]. destruct (is_on s); destruct (root_handlers s); cbn; congruence. }
  assert (W : forall name l, l <> [] -> handlers_of (with_handlers s name l) n <> []).
  { intros name l Hl. destruct (is_root n) eqn:R.
    - unfold handlers_of, with_handlers in *. rewrite R in *. destruct (is_root name); cbn; assumption.
    - destruct (String.eqb n name) eqn:E; [apply String.eqb_eq in E; subst; now rewrite handlers_with|].
      rewrite with_other; auto. intros ->. rewrite String.eqb_refl in E. discriminate. }
  destruct o as [lv| | |name|name m lv|lv]; cbn [run].
  - apply O. - apply O.
  - unfold handlers_of in *. cbn. destruct (is_root n); [discriminate|exact H].
  - unfold get_logger. destruct (handlers_of s name) eqn:Q; [|exact H]. cbn [fst]. apply W. discriminate.
  - cbn [fst]. apply W. intros Q. apply app_eq_nil in Q as [_ Q]. discriminate.
  - exact H.
Qed.
Lemma keeps_history ops : forall s n, handlers_of s n <> [] -> handlers_of (history ops s) n <> [].
Proof. induction ops as [|o ops IH]; intros s n H; [exact H|]. cbn. apply IH, keeps_handlers, H. Qed.
Lemma library_logger s a name b : fst (get_logger name (history (a ++ GetLogger name :: b) s)) = history (a ++ GetLogger name :: b) s /\
  chain (history (a ++ GetLogger name :: b) s) name <> [].
Proof.
  assert (H : handlers_of (history (a ++ GetLogger name :: b) s) name <> []).
  { rewrite history_app. cbn. apply (keeps_history b). destruct (get_logger name (history a s)) as [u r] eqn:E. cbn.
    unfold get_logger in E. destruct (handlers_of (history a s) name) eqn:Q; injection E as <- <-; [rewrite handlers_with; discriminate|congruence]. }
  split; [|now apply chain_ne]. unfold get_logger. destruct (handlers_of (history _ s) name); [congruence|reflexivity].
Qed.

Lemma debug_prints s ops name lv : fresh s -> ~ In Off ops -> printed (history (ops ++ [DebugOn]) s) name lv = (if (10 <=? lv)%Z then 1 else 0)%nat.
Proof. intros F N. rewrite <- (on_prints s ops 10 name lv F N). now rewrite !history_last. Qed.
