(** Property C97: several processes downloading into one directory at the same
    time. *)
From Coq Require Import String List.
From Verif Require Import Base M_Tables M_Utils M_World M_Download M_Procs S_Procs P_Procs P_Procs2 P_Procs3 Samples10.
Import ListNotations.
Local Open Scope string_scope.

(** [shows fs p] is the content a name shows; [run schedule] lets the processes
    make their system calls in the order of the schedule; [w] is the file
    system as C41-C47 see it. *)

(** A process on its own does what those properties say of a download. *)
Theorem C97_alone : forall x r tarball dir w fs, proper fs -> (forall p, shows fs p = dget p (w_files w)) ->
  is_dir w dir = true -> (forall n, is_dir w (join dir n) = false) ->
  exists n fs', run (repeat 0 n) (fs, [download r (join dir tarball) (unpack_all x dir)]) = (fs', [Ret (snd (transfer_events x r tarball dir w))]) /\
  proper fs' /\ forall p, shows fs' p = dget p (w_files (run_evs (fst (transfer_events x r tarball dir w)) w)).
Proof. exact download_alone. Qed.
Print Assumptions C97_alone.
Example C97_case_proper : proper race_fs.
Proof. exact race_proper. Qed.

(** If two processes both end normally, one began after the other had ended:
    the outcome is that of one complete run after the other.  This holds
    whatever the unpacking does, as long as it spares the archive itself. *)
Theorem C97_one_after_the_other : forall fs local r1 r2 u1 u2 schedule fs', (forall t, leaves_alone local (u1 t)) -> (forall t, leaves_alone local (u2 t)) ->
  let A := download r1 local u1 in let B := download r2 local u2 in
  run schedule (fs, [A; B]) = (fs', [Ret (Ok tt); Ret (Ok tt)]) -> exists n m fs1,
    (run (repeat 0 n) (fs, [A; B]) = (fs1, [Ret (Ok tt); B]) /\ run (repeat 1 m) (fs1, [Ret (Ok tt); B]) = (fs', [Ret (Ok tt); Ret (Ok tt)])) \/
    (run (repeat 1 n) (fs, [A; B]) = (fs1, [A; Ret (Ok tt)]) /\ run (repeat 0 m) (fs1, [A; Ret (Ok tt)]) = (fs', [Ret (Ok tt); Ret (Ok tt)])).
Proof. exact one_after_the_other. Qed.
Print Assumptions C97_one_after_the_other.
Example C97_case_spares : forall t, leaves_alone (join "/rsr" rsr_tarball) (unpack_all race_ext "/rsr" t).
Proof. exact (fun t => unpack_leaves race_ext "/rsr" rsr_tarball t race_spares). Qed.
Example C97_case_serial : exists fs', run (repeat 0 20 ++ repeat 1 20) (race_fs, [race_proc; race_proc]) = (fs', [Ret (Ok tt); Ret (Ok tt)]) /\
  shows fs' "/rsr/rsr_modis_EOS-Aqua.h5" = Some "MODIS" /\ shows fs' "/rsr/keep.txt" = Some "mine" /\ shows fs' (join "/rsr" rsr_tarball) = None.
Proof. exact race_serial. Qed.

(** Any number of processes, stopped at any point of any schedule: names other
    than the archive and the members show what they showed before. *)
Theorem C97_others_untouched : forall (paths : string -> Prop) local fs (downloads : list (response * (nat -> proc))) schedule, proper fs -> paths local ->
  Forall (fun d => forall t, keeps_to paths [] (snd d t)) downloads ->
  forall q, ~ paths q -> shows (fst (run schedule (fs, map (fun d => download (fst d) local (snd d)) downloads))) q = shows fs q.
Proof. exact others_untouched. Qed.
Print Assumptions C97_others_untouched.
Example C97_case_keeps : forall x dir t, keeps_to (fun p => exists n, p = join dir n) [] (unpack_all x dir t).
Proof. exact unpack_keeps. Qed.

(** One would like both to succeed when the server delivers a good archive; but
    the second one may find the archive removed by the first. *)
Theorem C97_both_succeed_refuted : ~ (forall x r tarball dir fs schedule fs' ps, proper fs -> rs_ok r = true -> rs_end r = Ok tt -> snd (x_untar x (String.concat "" (rs_chunks r))) = Ok tt ->
  let D := download r (join dir tarball) (unpack_all x dir) in
  run schedule (fs, [D; D]) = (fs', ps) -> forall e, ~ In (Ret (Err e)) ps).
Proof. exact two_fail. Qed.
Print Assumptions C97_both_succeed_refuted.

(** And one would like the members to be complete once both have ended, one of
    them normally, and the version file is current; but the other one may have
    unpacked a half-written archive over them. *)
Theorem C97_complete_refuted : ~ (forall x r tarball dir fs schedule fs' ps, proper fs -> rs_ok r = true -> rs_end r = Ok tt ->
  let members := fst (x_untar x (String.concat "" (rs_chunks r))) in
  snd (x_untar x (String.concat "" (rs_chunks r))) = Ok tt -> NoDup (map fst members) ->
  let D := download r (join dir tarball) (unpack_all x dir) in
  run schedule (fs, [D; D]) = (fs', ps) -> In (Ret (Ok tt)) ps -> Forall (fun p => exists o, p = Ret o) ps ->
  shows fs' (join dir RSR_DATA_VERSION_FILENAME) = Some RSR_DATA_VERSION ->
  forall n c, In (n, c) members -> shows fs' (join dir n) = Some c).
Proof. exact two_damage. Qed.
Print Assumptions C97_complete_refuted.
