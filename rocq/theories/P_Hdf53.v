(** Lemmas for C53-C55: final forms and concrete cases. *)
From Coq Require Import String List Bool ZArith Lia Reals Lra.
From Verif Require Import Base NumSig XR M_Tables M_Utils S_Names M_Hdf5 S_Hdf5 P_Hdf5 P_Hdf52 Samples6.
Import ListNotations.
Local Open Scope string_scope.

Section G.
  Variable N : Num.
  Lemma contents : forall (h : h5file N) i, read_rsr h = Ok i ->
    names_bands h (ri_bands i) /\ describes h (ri_description i) /\
    (forall b, In b (ri_bands i) -> exists g y, dget b (h_bands h) = Some g /\ dget b (ri_rsr i) = Some y /\ band_data g y) /\
    (forall b, In b (dkeys (ri_rsr i)) -> In b (ri_bands i)) /\
    (NoDup (ri_bands i) -> dkeys (ri_rsr i) = ri_bands i).
  Proof. intros h i H. apply read_spec in H. tauto. Qed.
  Lemma platform_read : forall (h : h5file N) i, read_rsr h = Ok i -> exists p, names_platform h p /\ oscar_opt p (ri_platform i).
  Proof. intros h i H. apply read_spec in H. tauto. Qed.
  Lemma instrument_read : forall (h : h5file N) i, read_rsr h = Ok i -> names_instrument h (ri_platform i) (ri_instrument i).
  Proof. intros h i H. apply read_spec in H. tauto. Qed.
  Lemma determined : forall (h : h5file N) p p' q q' i i', names_platform h p -> names_platform h p' -> oscar_opt p q -> oscar_opt p' q' ->
    names_instrument h q i -> names_instrument h q' i' -> q = q' /\ i = i'.
  Proof.
    intros h p p' q q' i i' H1 H2 H3 H4 H5 H6.
    assert (E : read_platform_name h = Ok q) by (apply read_platform_spec; eauto).
    assert (E' : read_platform_name h = Ok q') by (apply read_platform_spec; eauto).
    assert (q = q') by congruence. subst q'. split; auto.
    apply read_instrument_spec in H5, H6. congruence.
  Qed.
  Lemma bad_name : forall (h : h5file N) v, h_platform_name h = Some v -> (forall s, ~ holds_text v s) -> exists e, read_rsr h = Err e.
  Proof.
    intros h v H K. destruct (read_rsr h) as [i|e] eqn:E; [|eauto]. exfalso. apply platform_read in E.
    destruct E as (p & [v' s A B|v' s n A|v' s A|A] & _); try congruence. apply (K s). congruence.
  Qed.
End G.

Lemma oscar_idem : forall s t, oscar s t -> forall u, oscar t u <-> u = t.
Proof.
  assert (F : forallb (fun kv => negb (dhas (snd kv) OSCAR_PLATFORM_NAMES)) OSCAR_PLATFORM_NAMES = true) by (vm_compute; reflexivity).
  assert (I : forall s t, oscar s t -> oscar t t).
  { intros s t [s' t' H|s' H].
    - apply oscar_other. rewrite forallb_forall in F. apply dget_Some_in in H. specialize (F _ H). cbn [snd] in F.
      unfold dhas in F. destruct (dget t' OSCAR_PLATFORM_NAMES) eqn:E; [discriminate|]. now apply dget_None_notin.
    - now apply oscar_other. }
  intros s t H u. split.
  - intros K. eapply oscar_fun; [exact K|]. eapply I; eauto.
  - intros ->. eapply I; eauto.
Qed.

Ltac xr := change (num XRN) with XR in *; cbn; repeat f_equal; try lra.
Lemma file1_read : exists x1 x2, read_rsr file1 = Ok {| ri_platform := Some "Metop-B"; ri_instrument := Some (IOne "avhrr/3");
    ri_bands := ["ch1"]; ri_description := "test"; ri_rsr := [("ch1", [("det-1", x1); ("det-2", x2)])] |} /\
  get_arr "response" x1 = Ok [Fin 1; Fin 2] /\ get_arr "response" x2 = Ok [Fin 8; Fin 9] /\
  get_arr "wavelength" x1 = Ok [Fin 500; Fin 600] /\ get_arr "wavelength" x2 = Ok [Fin 700; Fin 800].
Proof.
  do 2 eexists. split; [reflexivity|]. split; [reflexivity|]. split; [reflexivity|]. split; xr.
Qed.

Lemma waves_differ : exists (load : string -> res (sensor XRN)) h i r x w,
  convert2hdf5 (fun v => v) (fun s => s) load "GOES-16" ["ch1"] (nlit XRN 1 1000000) None = Ok h /\ read_rsr h = Ok i /\
  load "ch1" = Ok {| sn_instrument := "abi"; sn_rsr := RSingle r |} /\ dget "ch1" (ri_rsr i) = Some [("det-1", x)] /\
  get_arr "wavelength" x = Ok w /\ w <> rw_wavelength r.
Proof.
  destruct (single_writes (fun v => v) (fun s => s) load1 "GOES-16" ["ch1"] (nlit XRN 1 1000000)) as (h & H).
  - discriminate.
  - repeat constructor; cbn; tauto.
  - intros b _. exists {| sn_instrument := "abi"; sn_rsr := RSingle raw1 |}, raw1. auto.
  - pose proof (single_back _ _ _ _ _ _ _ H) as (i & R & _ & _ & _ & _ & B).
    destruct (B "ch1") as (s & r & c & L & E & _ & D); [now left|]. injection L as <-. injection E as <-.
    exists load1, h, i, raw1. do 2 eexists. split; [exact H|]. split; [exact R|]. split; [reflexivity|]. split; [exact D|].
    split; [reflexivity|]. cbn. intros K. injection K. intros. lra.
Qed.

Lemma multi_case : (exists h, convert2hdf5 (fun v => v) (fun s => s) load2 "GOES-16" ["ch1"] (nlit XRN 1 1000000) (Some ["det-2"; "det-1"]) = Ok h) /\
  standard_names ["det-2"; "det-1"].
Proof.
  split; [eexists; reflexivity|]. intros k Hk. cbn in Hk. destruct k as [|[|[|k]]]; try lia; cbn; auto.
Qed.
Lemma odd_case : (exists h, convert2hdf5 (fun v => v) (fun s => s) load2 "GOES-16" ["ch1"] (nlit XRN 1 1000000) (Some ["det-0"; "det-1"]) = Ok h) /\
  ~ standard_names ["det-0"; "det-1"].
Proof.
  split; [eexists; reflexivity|]. intros H. destruct (H 2%nat) as [E|[E|[]]]; [cbn; lia| |]; discriminate.
Qed.
