(** Two downloads that meet: what can go wrong (C97). *)
From Coq Require Import String List Arith Lia.
From Verif Require Import Base M_Tables M_Utils M_World M_Download M_Procs S_Procs P_Procs P_Procs2 Samples10.
Import ListNotations.
Local Open Scope string_scope.

Lemma race_proper : proper race_fs.
Proof.
  assert (K : forall p i, dget p (fs_names race_fs) = Some i -> p = "/rsr/keep.txt" /\ i = 0).
  { intros p i. cbn [race_fs fs_names dget]. destruct (String.eqb_spec p "/rsr/keep.txt"); [|discriminate]. now intros [= <-]. }
  split.
  - intros p i H. apply K in H as [_ ->]. cbn. lia.
  - intros p q i H1 H2. apply K in H1 as [-> _]. now apply K in H2 as [-> _].
Qed.
Lemma race_spares s n : In n (map fst (fst (race_untar s))) -> n <> rsr_tarball.
Proof.
  unfold race_untar. destruct (String.eqb s "abc"); [|destruct s as [|[[] [] [] [] [] [] [] []] s]]; cbn; intuition (subst; discriminate).
Qed.
Lemma two_fail : ~ (forall x r tarball dir fs schedule fs' ps, proper fs -> rs_ok r = true -> rs_end r = Ok tt -> snd (x_untar x (String.concat "" (rs_chunks r))) = Ok tt ->
  let D := download r (join dir tarball) (unpack_all x dir) in
  run schedule (fs, [D; D]) = (fs', ps) -> forall e, ~ In (Ret (Err e)) ps).
Proof.
  intros H. specialize (H race_ext race_reply rsr_tarball "/rsr" race_fs race_removed _ _ race_proper eq_refl eq_refl eq_refl (surjective_pairing _) FileNotFoundError).
  apply H. vm_compute. right. now left.
Qed.
Lemma two_damage : ~ (forall x r tarball dir fs schedule fs' ps, proper fs -> rs_ok r = true -> rs_end r = Ok tt ->
  let members := fst (x_untar x (String.concat "" (rs_chunks r))) in
  snd (x_untar x (String.concat "" (rs_chunks r))) = Ok tt -> NoDup (map fst members) ->
  let D := download r (join dir tarball) (unpack_all x dir) in
  run schedule (fs, [D; D]) = (fs', ps) -> In (Ret (Ok tt)) ps -> Forall (fun p => exists o, p = Ret o) ps ->
  shows fs' (join dir RSR_DATA_VERSION_FILENAME) = Some RSR_DATA_VERSION ->
  forall n c, In (n, c) members -> shows fs' (join dir n) = Some c).
Proof.
  intros H.
  assert (N : NoDup (map fst (fst (x_untar race_ext (String.concat "" (rs_chunks race_reply)))))).
  { vm_compute. repeat constructor; cbn; intuition discriminate. }
  assert (X : exists fs', run race_damaged (race_fs, [race_proc; race_proc]) = (fs', [Ret (Err TarReadError); Ret (Ok tt)]) /\
    shows fs' (join "/rsr" RSR_DATA_VERSION_FILENAME) = Some RSR_DATA_VERSION /\ shows fs' (join "/rsr" "rsr_modis_EOS-Aqua.h5") = Some "").
  { eexists. split; [vm_compute; reflexivity|]. vm_compute. auto. }
  destruct X as (fs' & E & X & Y). unfold race_proc in E.
  specialize (H race_ext race_reply rsr_tarball "/rsr" race_fs race_damaged fs' [Ret (Err TarReadError); Ret (Ok tt)] race_proper eq_refl eq_refl). cbn zeta in H.
  specialize (H eq_refl N E (or_intror (or_introl eq_refl))
    ltac:(repeat constructor; eauto) X "rsr_modis_EOS-Aqua.h5" "MODIS").
  rewrite Y in H. assert (I : Some "" = Some "MODIS") by (apply H; vm_compute; auto). discriminate.
Qed.
(** one after the other: everything there *)
Lemma race_serial : exists fs', run (repeat 0 20 ++ repeat 1 20) (race_fs, [race_proc; race_proc]) = (fs', [Ret (Ok tt); Ret (Ok tt)]) /\
  shows fs' "/rsr/rsr_modis_EOS-Aqua.h5" = Some "MODIS" /\ shows fs' "/rsr/keep.txt" = Some "mine" /\ shows fs' (join "/rsr" rsr_tarball) = None.
Proof. eexists. split; [vm_compute; reflexivity|]. vm_compute. auto. Qed.
