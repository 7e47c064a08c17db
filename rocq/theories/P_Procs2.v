(** Lemmas for C97: interleavings. *)
From Coq Require Import String Ascii List Bool Arith Lia.
From Verif Require Import Base M_World M_Download M_Procs S_Procs P_Strings P_Utils P_Events P_Procs.
Import ListNotations.
Local Open Scope string_scope.

(** ** Two downloads that both end normally *)
Section Two.
  Context (local : string).
  (** will end normally only by removing [local] successfully *)
  Inductive pending : proc -> Prop :=
  | pd_err e : pending (Ret (Err e))
  | pd_unlink k : k RDone = Ret (Ok tt) -> (forall e, pending (k (RFail e))) -> pending (Do (CUnlink local) k)
  | pd_openr k : (forall r, pending (k r)) -> pending (Do (COpenR local) k)
  | pd_do c k : spares local c -> (forall r, pending (k r)) -> pending (Do c k).
  Definition absent (fs : fsys) : Prop := dget local (fs_names fs) = None.
  Lemma spares_names c fs fs' r : spares local c -> exec c fs = (fs', r) -> dget local (fs_names fs') = dget local (fs_names fs).
  Proof.
    destruct c as [p|i pos s|p|i pos len|p]; cbn [spares exec]; intros N.
    - destruct (dget p (fs_names fs)); intros [= <- <-]; cbn [fs_names dget]; [reflexivity|]. destruct (String.eqb_spec local p); congruence.
    - now intros [= <- <-].
    - now intros [= <- <-].
    - now intros [= <- <-].
    - destruct (dget p (fs_names fs)); intros [= <- <-]; cbn [fs_names]; [|reflexivity]. now apply dget_ddel_all_other, not_eq_sym.
  Qed.
  Lemma pending_step c k fs fs' r : pending (Do c k) -> exec c fs = (fs', r) ->
    (pending (k r) /\ (absent fs -> absent fs')) \/ (fine (k r) /\ ~ absent fs /\ absent fs').
  Proof.
    intros H E. inversion H as [|k' K1 K2|k' K|c' k' S K]; subst.
    - unfold exec, absent in *. destruct (dget local (fs_names fs)) eqn:D; injection E as <- <-.
      + right. split; [exact K1|]. split; [discriminate|]. cbn [fs_names]. apply dget_ddel_all_same.
      + left. split; [apply K2|auto].
    - left. split; [apply K|]. cbn [exec] in E. injection E as <- <-. auto.
    - left. split; [apply K|]. unfold absent. now rewrite (spares_names _ _ _ _ S E).
  Qed.
  Definition starts (p : proc) : Prop := (exists e, p = Ret (Err e)) \/ exists k, p = Do (COpenW local) k /\ forall r, pending (k r).

  Definition step1 (st : fsys * proc) : fsys * proc := match snd st with Ret _ => st | Do c k => let (fs, r) := exec c (fst st) in (fs, k r) end.
  Fixpoint solo (n : nat) (st : fsys * proc) : fsys * proc := match n with O => st | S m => step1 (solo m st) end.
  Lemma pending_solo p fs : starts p -> forall n, let st := solo (S n) (fs, p) in pending (snd st) \/ fine (snd st).
  Proof.
    intros H. induction n as [|n IH].
    - cbn [solo]. destruct H as [(e & ->)|(k & -> & K)]; cbn [step1 snd fst].
      + left. constructor.
      + destruct (exec (COpenW local) fs) as [fs' r]. left. apply K.
    - cbn zeta in *. change (solo (S (S n)) (fs, p)) with (step1 (solo (S n) (fs, p))). destruct (solo (S n) (fs, p)) as [fs1 [r|c k]]; cbn [step1 snd fst] in *; [auto|].
      destruct IH as [IH|IH]; [|discriminate IH]. destruct (exec c fs1) as [fs2 r] eqn:E. destruct (pending_step _ _ _ _ _ IH E) as [[K _]|[K _]]; cbn [snd]; auto.
  Qed.
  Lemma starts_not_fine p : starts p -> ~ fine p.
  Proof. intros [(e & ->)|(k & -> & _)]; discriminate. Qed.
  Lemma pending_not_fine p : pending p -> ~ fine p.
  Proof. intros H. destruct H; discriminate. Qed.

  Context (fs0 : fsys) (A B : proc) (HA : starts A) (HB : starts B).
  Definition failed (p : proc) : Prop := exists e, p = Ret (Err e).
  Inductive inv : system -> Prop :=
  | inv_a n fs a : solo n (fs0, A) = (fs, a) -> inv (fs, [a; B])
  | inv_b m fs b : solo m (fs0, B) = (fs, b) -> inv (fs, [A; b])
  | inv_ab n m fs1 r fs b : solo n (fs0, A) = (fs1, Ret r) -> solo m (fs1, B) = (fs, b) -> inv (fs, [Ret r; b])
  | inv_ba n m fs1 r fs a : solo m (fs0, B) = (fs1, Ret r) -> solo n (fs1, A) = (fs, a) -> inv (fs, [a; Ret r])
  | inv_both fs a b : pending a -> pending b -> inv (fs, [a; b])
  | inv_afine fs a b : fine a -> pending b -> absent fs -> inv (fs, [a; b])
  | inv_bfine fs a b : pending a -> fine b -> absent fs -> inv (fs, [a; b]).
  Lemma turn_0 fs a b : turn (fs, [a; b]) 0 = let (fs', a') := step1 (fs, a) in (fs', [a'; b]).
  Proof. unfold turn, step1. cbn [fst snd nth_error]. destruct a as [r|c k]; [reflexivity|]. destruct (exec c fs). reflexivity. Qed.
  Lemma turn_1 fs a b : turn (fs, [a; b]) 1 = let (fs', b') := step1 (fs, b) in (fs', [a; b']).
  Proof. unfold turn, step1. cbn [fst snd nth_error]. destruct b as [r|c k]; [reflexivity|]. destruct (exec c fs). reflexivity. Qed.
  Lemma turn_2 fs a b i : turn (fs, [a; b]) (S (S i)) = (fs, [a; b]).
  Proof. unfold turn. cbn [fst snd nth_error]. destruct i; reflexivity. Qed.
  Lemma inv_turn st i : inv st -> inv (turn st i).
  Proof.
    intros H. destruct i as [|[|i]].
    - (* the first process moves *)
      destruct H as [n fs a E|m fs b E|n m fs1 r fs b E1 E2|n m fs1 r fs a E1 E2|fs a b Pa Pb|fs a b Fa Pb N|fs a b Pa Fb N]; rewrite turn_0.
      + destruct (step1 (fs, a)) as [fs' a'] eqn:ES. apply (inv_a (S n)). cbn [solo]. now rewrite E.
      + destruct m as [|m].
        * cbn [solo] in E. injection E as <- <-. destruct (step1 (fs0, A)) as [fs' a'] eqn:ES. apply (inv_a 1). exact ES.
        * pose proof (pending_solo B fs0 HB m) as K. rewrite E in K. cbn [snd] in K. destruct (step1 (fs, A)) as [fs' a'] eqn:ES. destruct b as [r|c k].
          -- eapply (inv_ba 1 (S m) fs r); [exact E|exact ES].
          -- destruct K as [K|K]; [|discriminate K]. destruct HA as [(e & ->)|(kA & -> & KA)]; cbn [step1 snd fst] in ES.
             ++ injection ES as <- <-. constructor; [constructor|auto].
             ++ destruct (exec (COpenW local) fs). injection ES as <- <-. constructor; auto.
      + cbn [step1 snd]. eapply inv_ab; eauto.
      + destruct (step1 (fs, a)) as [fs' a'] eqn:ES. eapply (inv_ba (S n) m); [exact E1|]. cbn [solo]. now rewrite E2.
      + destruct a as [r|c k]; cbn [step1 snd fst]; [constructor; auto|]. destruct (exec c fs) as [fs' r] eqn:E. destruct (pending_step _ _ _ _ _ Pa E) as [(K & _)|(K & _ & K')]; [now constructor|now apply inv_afine].
      + rewrite Fa. cbn [step1 snd]. apply inv_afine; [reflexivity|auto|auto].
      + destruct a as [r|c k]; cbn [step1 snd fst]; [now apply inv_bfine|]. destruct (exec c fs) as [fs' r] eqn:E. destruct (pending_step _ _ _ _ _ Pa E) as [(K & K')|(_ & K & _)]; [apply inv_bfine; auto|contradiction].
    - destruct H as [n fs a E|m fs b E|n m fs1 r fs b E1 E2|n m fs1 r fs a E1 E2|fs a b Pa Pb|fs a b Fa Pb N|fs a b Pa Fb N]; rewrite turn_1.
      + destruct n as [|n].
        * cbn [solo] in E. injection E as <- <-. destruct (step1 (fs0, B)) as [fs' b'] eqn:ES. apply (inv_b 1). exact ES.
        * pose proof (pending_solo A fs0 HA n) as K. rewrite E in K. cbn [snd] in K. destruct (step1 (fs, B)) as [fs' b'] eqn:ES. destruct a as [r|c k].
          -- eapply (inv_ab (S n) 1 fs r); [exact E|exact ES].
          -- destruct K as [K|K]; [|discriminate K]. destruct HB as [(e & ->)|(kB & -> & KB)]; cbn [step1 snd fst] in ES.
             ++ injection ES as <- <-. constructor; [auto|constructor].
             ++ destruct (exec (COpenW local) fs). injection ES as <- <-. constructor; auto.
      + destruct (step1 (fs, b)) as [fs' b'] eqn:ES. apply (inv_b (S m)). cbn [solo]. now rewrite E.
      + destruct (step1 (fs, b)) as [fs' b'] eqn:ES. eapply (inv_ab n (S m)); [exact E1|]. cbn [solo]. now rewrite E2.
      + cbn [step1 snd]. eapply inv_ba; eauto.
      + destruct b as [r|c k]; cbn [step1 snd fst]; [constructor; auto|]. destruct (exec c fs) as [fs' r] eqn:E. destruct (pending_step _ _ _ _ _ Pb E) as [(K & _)|(K & _ & K')]; [now constructor|now apply inv_bfine].
      + destruct b as [r|c k]; cbn [step1 snd fst]; [now apply inv_afine|]. destruct (exec c fs) as [fs' r] eqn:E. destruct (pending_step _ _ _ _ _ Pb E) as [(K & K')|(_ & K & _)]; [apply inv_afine; auto|contradiction].
      + rewrite Fb. cbn [step1 snd]. apply inv_bfine; [auto|reflexivity|auto].
    - assert (E : turn st (S (S i)) = st) by (destruct H; apply turn_2). now rewrite E.
  Qed.
  Lemma inv_run s : inv (run s (fs0, [A; B])).
  Proof.
    induction s as [|i s IH] using rev_ind; [apply (inv_a 0); reflexivity|]. unfold run in *. rewrite fold_left_app. cbn [fold_left]. now apply inv_turn.
  Qed.
  Lemma repeat_snoc {T} (x : T) n : repeat x (S n) = (repeat x n ++ [x])%list.
  Proof. induction n; [reflexivity|]. cbn [repeat app] in *. now rewrite <- IHn. Qed.
  Lemma run_solo_0 n fs a b : run (repeat 0 n) (fs, [a; b]) = let (fs', a') := solo n (fs, a) in (fs', [a'; b]).
  Proof.
    induction n as [|n IH]; [reflexivity|]. rewrite repeat_snoc. unfold run in *. rewrite fold_left_app, IH. cbn [solo fold_left]. destruct (solo n (fs, a)) as [fs1 a1]. apply turn_0.
  Qed.
  Lemma run_solo_1 n fs a b : run (repeat 1 n) (fs, [a; b]) = let (fs', b') := solo n (fs, b) in (fs', [a; b']).
  Proof.
    induction n as [|n IH]; [reflexivity|]. rewrite repeat_snoc. unfold run in *. rewrite fold_left_app, IH. cbn [solo fold_left]. destruct (solo n (fs, b)) as [fs1 b1]. apply turn_1.
  Qed.
  Lemma serial s fs : run s (fs0, [A; B]) = (fs, [Ret (Ok tt); Ret (Ok tt)]) -> exists n m fs1,
    (run (repeat 0 n) (fs0, [A; B]) = (fs1, [Ret (Ok tt); B]) /\ run (repeat 1 m) (fs1, [Ret (Ok tt); B]) = (fs, [Ret (Ok tt); Ret (Ok tt)])) \/
    (run (repeat 1 n) (fs0, [A; B]) = (fs1, [A; Ret (Ok tt)]) /\ run (repeat 0 m) (fs1, [A; Ret (Ok tt)]) = (fs, [Ret (Ok tt); Ret (Ok tt)])).
  Proof.
    intros H. pose proof (inv_run s) as I. rewrite H in I.
    inversion I as [n fs' a E|m fs' b E|n m fs1 r fs' b E1 E2|n m fs1 r fs' a E1 E2|fs' a b Pa Pb|fs' a b Fa Pb N|fs' a b Pa Fb N]; subst.
    - exfalso. apply (starts_not_fine _ HB). unfold fine. auto.
    - exfalso. apply (starts_not_fine _ HA). unfold fine. auto.
    - exists n, m, fs1. left. rewrite run_solo_0, run_solo_1, E1, E2. auto.
    - exists m, n, fs1. right. rewrite run_solo_0, run_solo_1, E1, E2. auto.
    - exfalso. now apply (pending_not_fine _ Pa).
    - exfalso. now apply (pending_not_fine _ Pb).
    - exfalso. now apply (pending_not_fine _ Pa).
  Qed.
End Two.

Lemma unpack_pending local u : leaves_alone local u -> pending local (after u (Do (CUnlink local) (on_done (Ret (Ok tt))))).
Proof.
  induction 1 as [[?|e]|c k S _ IH]; cbn [after].
  - apply pd_unlink; [reflexivity|]. intros e. constructor.
  - constructor.
  - apply pd_do; auto.
Qed.
Lemma chunks_pending local i k : pending local k -> forall chunks pos, pending local (write_chunks i pos chunks k).
Proof.
  intros K. induction chunks as [|s chunks IH]; intros pos; cbn [write_chunks]; [auto|]. destruct (nonempty s); [|auto].
  apply pd_do; [exact I|]. intros [?|?| |e]; cbn [on_done]; auto. constructor.
Qed.
Lemma download_starts r local u : (forall t, leaves_alone local (u t)) -> starts local (download r local u).
Proof.
  intros U. unfold download. destruct (negb (rs_ok r)); [left; eauto|right]. eexists. split; [reflexivity|].
  intros [i|?| |e]; cbn [on_file]; try constructor. apply chunks_pending. destruct (rs_end r); [|constructor].
  apply pd_openr. intros [t|?| |e]; cbn [on_file]; try constructor. now apply unpack_pending.
Qed.
Lemma one_after_the_other : forall fs local r1 r2 u1 u2 schedule fs', (forall t, leaves_alone local (u1 t)) -> (forall t, leaves_alone local (u2 t)) ->
  let A := download r1 local u1 in let B := download r2 local u2 in
  run schedule (fs, [A; B]) = (fs', [Ret (Ok tt); Ret (Ok tt)]) -> exists n m fs1,
    (run (repeat 0 n) (fs, [A; B]) = (fs1, [Ret (Ok tt); B]) /\ run (repeat 1 m) (fs1, [Ret (Ok tt); B]) = (fs', [Ret (Ok tt); Ret (Ok tt)])) \/
    (run (repeat 1 n) (fs, [A; B]) = (fs1, [A; Ret (Ok tt)]) /\ run (repeat 0 m) (fs1, [A; Ret (Ok tt)]) = (fs', [Ret (Ok tt); Ret (Ok tt)])).
Proof. intros fs local r1 r2 u1 u2 s fs' U1 U2 A B H. eapply (serial local); eauto; apply download_starts; auto. Qed.

(** ** What any number of processes leave alone *)
Lemma keeps_more paths own own' p : keeps_to paths own p -> incl own own' -> keeps_to paths own' p.
Proof.
  intros H. revert own'. induction H; intros own' I; constructor; auto.
  - intros i. apply H1. intros j [->|Hj]; [now left|right; auto].
Qed.
Section Many.
  Context (paths : string -> Prop) (fs0 : fsys).
  Definition owned (fs : fsys) (own : list nat) : Prop := forall i, In i own -> i < List.length (fs_bytes fs) /\ forall q, ~ paths q -> dget q (fs_names fs) <> Some i.
  Definition safe (fs : fsys) (p : proc) : Prop := exists own, keeps_to paths own p /\ owned fs own.
  Definition outside (fs : fsys) : Prop := forall q, ~ paths q -> dget q (fs_names fs) = dget q (fs_names fs0) /\ shows fs q = shows fs0 q.
  Lemma call_safe c k fs fs' r : proper fs -> outside fs -> safe fs (Do c k) -> exec c fs = (fs', r) ->
    proper fs' /\ outside fs' /\ safe fs' (k r) /\ (forall q, ~ paths q -> dget q (fs_names fs') = dget q (fs_names fs)) /\ List.length (fs_bytes fs) <= List.length (fs_bytes fs').
  Proof.
    intros P O (own & K & W) E. inversion K as [|own' p k' Hp K1 K2|own' i pos s k' Hi K1|own' p k' K1|own' i pos len k' K1|own' p k' Hp K1]; subst.
    - destruct (openw_ok _ _ _ _ P E) as (i & -> & P' & D & S1 & S2 & L). assert (NP : forall q, ~ paths q -> q <> p) by (intros q Hq ->; auto).
      split; [auto|]. split; [intros q Hq; destruct (S2 q (NP q Hq)) as [-> ->]; apply O; auto|]. split; [|split; [intros q Hq; apply S2; auto|auto]].
      exists (i :: own). split; [auto|]. intros j [<-|Hj].
      + split; [apply (proj1 P' _ _ D)|]. intros q Hq Hd. apply (NP q Hq). eapply (proj2 P'); eauto.
      + destruct (W j Hj) as [W1 W2]. split; [lia|]. intros q Hq. rewrite (proj1 (S2 q (NP q Hq))). auto.
    - cbn [exec] in E. injection E as <- <-. destruct P as [P1 P2]. split; [split; cbn [fs_names fs_bytes]; [intros q j H; rewrite set_nth_length; eauto|exact P2]|].
      split; [|split; [|split; [reflexivity|cbn [fs_bytes]; now rewrite set_nth_length]]].
      + intros q Hq. cbn [fs_names]. split; [apply O; auto|]. rewrite <- (proj2 (O q Hq)). unfold shows. cbn [fs_names fs_bytes].
        destruct (dget q (fs_names fs)) as [j|] eqn:F; [|reflexivity]. apply set_nth_other. intros ->. now apply (proj2 (W j Hi) q Hq).
      + exists own. split; [auto|]. intros j Hj. cbn [fs_names fs_bytes]. rewrite set_nth_length. auto.
    - cbn [exec] in E. injection E as <- <-. split; [auto|]. split; [auto|]. split; [|split; auto]. exists own. auto.
    - cbn [exec] in E. injection E as <- <-. split; [auto|]. split; [auto|]. split; [|split; auto]. exists own. auto.
    - assert (NP : forall q, ~ paths q -> q <> p) by (intros q Hq ->; auto).
      destruct (unlink_ok _ _ _ _ P E) as [(H1 & -> & ->)|(-> & P' & B' & _ & S2)]; [split; [auto|]; split; [auto|]; split; [|split; auto]; exists own; auto|].
      split; [auto|]. split; [|split; [|split; [intros q Hq; apply S2; auto|rewrite B'; auto]]].
      + intros q Hq. unfold shows. rewrite S2, B' by auto. apply O. auto.
      + exists own. split; [auto|]. intros j Hj. destruct (W j Hj) as [W1 W2]. split; [now rewrite B'|]. intros q Hq. rewrite S2 by auto. auto.
  Qed.
  Lemma safe_others fs fs' p : (forall q, ~ paths q -> dget q (fs_names fs') = dget q (fs_names fs)) -> List.length (fs_bytes fs) <= List.length (fs_bytes fs') -> safe fs p -> safe fs' p.
  Proof. intros N L (own & K & W). exists own. split; [auto|]. intros j Hj. destruct (W j Hj) as [W1 W2]. split; [lia|]. intros q Hq. rewrite N by auto. auto. Qed.
  Lemma set_nth_Forall {T} (Q : T -> Prop) a : Q a -> forall l i, Forall Q l -> Forall Q (set_nth i a l).
  Proof. intros Ha. induction l as [|b l IH]; intros [|i] H; cbn [set_nth]; auto; inversion H; constructor; auto. Qed.
  Lemma run_safe s : forall fs ps, proper fs -> outside fs -> Forall (safe fs) ps -> outside (fst (run s (fs, ps))).
  Proof.
    induction s as [|i s IH]; intros fs ps P O S; [exact O|]. unfold run in *. cbn [fold_left]. unfold turn at 2. cbn [fst snd].
    destruct (nth_error ps i) as [[r|c k]|] eqn:E; [apply IH; auto| |apply IH; auto].
    destruct (exec c fs) as [fs' r] eqn:X. assert (Sk : safe fs (Do c k)) by (eapply Forall_forall; [exact S|eapply nth_error_In; exact E]).
    destruct (call_safe _ _ _ _ _ P O Sk X) as (P' & O' & S' & N & L). apply IH; auto. apply set_nth_Forall; [auto|].
    eapply Forall_impl; [|exact S]. intros p. now apply safe_others.
  Qed.
End Many.
Lemma keeps_after paths own m k : keeps_to paths own m -> (forall own', incl own own' -> keeps_to paths own' k) -> keeps_to paths own (after m k).
Proof.
  intros H. induction H as [own [?|e]| | | | |]; intros K; cbn [after].
  - apply K. apply incl_refl.
  - constructor.
  - apply kt_openw; auto. intros i. apply H1. intros own' I. apply K. intros j Hj. apply I. now right.
  - apply kt_write; auto.
  - apply kt_openr; auto.
  - apply kt_read; auto.
  - apply kt_unlink; auto.
Qed.
Lemma chunks_keep paths i k : (forall own, In i own -> keeps_to paths own k) -> forall chunks pos own, In i own -> keeps_to paths own (write_chunks i pos chunks k).
Proof.
  intros K. induction chunks as [|s chunks IH]; intros pos own H; cbn [write_chunks]; [auto|]. destruct (nonempty s); [|auto].
  apply kt_write; [auto|]. intros [?|?| |e]; cbn [on_done]; auto. constructor.
Qed.
Lemma download_keeps (paths : string -> Prop) r local u : paths local -> (forall t, keeps_to paths [] (u t)) -> keeps_to paths [] (download r local u).
Proof.
  intros L U. unfold download. destruct (negb (rs_ok r)); [constructor|]. apply kt_openw; [auto| |].
  - intros i. cbn [on_file]. apply chunks_keep; [|now left]. intros own Hi. destruct (rs_end r); [|constructor]. apply kt_openr. intros [t|?| |e]; cbn [on_file]; try constructor.
    apply keeps_after; [eapply keeps_more; [apply U|intros j []]|]. intros own' _. apply kt_unlink; [auto|]. intros [?|?| |e]; constructor.
  - intros [i|?| |e] H; cbn [on_file]; try constructor. exfalso. now apply (H i).
Qed.
Lemma others_untouched : forall (paths : string -> Prop) local fs (downloads : list (response * (nat -> proc))) schedule, proper fs -> paths local ->
  Forall (fun d => forall t, keeps_to paths [] (snd d t)) downloads ->
  forall q, ~ paths q -> shows (fst (run schedule (fs, map (fun d => download (fst d) local (snd d)) downloads))) q = shows fs q.
Proof.
  intros paths local fs ds s P L D q Hq. apply (run_safe paths fs s fs); auto.
  - intros q' _. auto.
  - apply Forall_forall. intros p Hp. apply in_map_iff in Hp as (d & <- & Hd). rewrite Forall_forall in D. exists []. split; [apply download_keeps; auto|]. intros j [].
Qed.
Lemma unpack_keeps x dir t : keeps_to (fun p => exists n, p = join dir n) [] (unpack_all x dir t).
Proof.
  apply kt_read. intros [?|s| |e]; try constructor. destruct (x_untar x s) as [members o]. generalize (@nil nat). induction members as [|[n c] members IH]; intros own; cbn [unpack_members]; [constructor|].
  apply kt_openw; [eauto| |].
  - intros i. cbn [on_file]. apply kt_write; [now left|]. intros [?|?| |e]; cbn [on_done]; auto. constructor.
  - intros [i|?| |e] H; cbn [on_file]; [exfalso; now apply (H i)|constructor..].
Qed.
Lemma unpack_leaves x dir tarball t : (forall s n, In n (map fst (fst (x_untar x s))) -> n <> tarball) -> leaves_alone (join dir tarball) (unpack_all x dir t).
Proof.
  intros H. apply la_do; [exact I|]. intros [?|s| |e]; try constructor. specialize (H s). destruct (x_untar x s) as [members o]. cbn [fst] in H.
  induction members as [|[n c] members IH]; cbn [unpack_members]; [constructor|]. apply la_do.
  - cbn [spares]. intros E. apply join_inj in E. apply (H n); [now left|auto].
  - intros [i|?| |e]; cbn [on_file]; [|constructor..]. apply la_do; [exact I|]. intros [?|?| |e]; cbn [on_done]; [| | |constructor]; apply IH; intros m Hm; apply H; now right.
Qed.
