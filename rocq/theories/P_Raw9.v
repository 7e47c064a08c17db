(** Lemmas about files with several detectors. *)
From Coq Require Import String Ascii List Bool ZArith Lia.
From Verif Require Import Base NumSig M_Tables M_Utils M_World M_Hdf5 M_Raw S_Raw S_Raw2 S_Hdf5 S_Names P_Hdf5 P_Hdf52 P_Raw6 P_Raw8.
Import ListNotations.
Local Open Scope string_scope.

Section Dets.
  Context {N : Num}.
  Variable f32 : N -> N.
  Local Open Scope num_scope.

  (** a group whose detectors have responses and central wavelengths, and their
      own or shared wavelengths *)
  Definition filled (g : h5band N) (k : string) (resp waves : list N) (c : N) : Prop :=
    exists x, dget k (hb_dets g) = Some x /\ hd_response x = Some resp /\ hd_central x = Some c /\
      (hd_wavelength x = Some (micro_wave f32 waves) \/ hd_wavelength x = None /\ hd_wavelength (hb_shared g) = Some (micro_wave f32 waves)).
  Lemma filled_available g k resp waves c : filled g k resp waves c ->
    (forall r, available has_response g k r <-> r = resp) /\ (forall w, available has_wavelengths g k w <-> w = stored f32 waves) /\
    (forall c', available has_central g k c' <-> c' = c).
  Proof.
    intros (x & X & R & C & W). split; [|split].
    - intros r. split.
      + intros [(g' & G & H)|[H _]]; [rewrite X in G; injection G as <-; unfold has_response in H; congruence|].
        exfalso. apply (H x resp X R).
      + intros ->. left. exists x. split; auto.
    - intros w. split.
      + intros [(g' & G & l & s & H & ->)|[H (l & s & H' & ->)]].
        * rewrite X in G. injection G as <-. destruct W as [W|[W _]]; [|congruence]. rewrite W in H. unfold micro_wave in H. injection H as <- <-.
          unfold stored. now rewrite map_map.
        * destruct W as [W|[_ W]].
          -- exfalso. apply (H x (stored f32 waves) X). eexists _, _. split; [exact W|]. unfold stored. now rewrite map_map.
          -- rewrite W in H'. unfold micro_wave in H'. injection H' as <- <-. unfold stored. now rewrite map_map.
      + intros ->. destruct W as [W|[W1 W2]].
        * left. exists x. split; auto. eexists _, _. split; [exact W|]. unfold stored. now rewrite map_map.
        * right. split.
          -- intros g' y G (l & s & H & _). rewrite X in G. injection G as <-. congruence.
          -- eexists _, _. split; [exact W2|]. unfold stored. now rewrite map_map.
    - intros c'. split.
      + intros [(g' & G & H)|[H _]]; [rewrite X in G; injection G as <-; unfold has_central in H; congruence|].
        exfalso. apply (H x c X C).
      + intros ->. left. exists x. split; auto.
  Qed.
  Lemma filled_complete g n : hb_count g = Some (Z.of_nat n) -> (forall k, (1 <= k <= n)%nat -> exists r w c, filled g (det_name k) r w c) -> complete g.
  Proof.
    intros C H k Hk. unfold detector_count in Hk. rewrite C, Nat2Z.id in Hk. destruct (H k Hk) as (r & w & c & F).
    apply filled_available in F as (F1 & F2 & F3). split; [|split]; eexists; [apply F1|apply F2|apply F3]; reflexivity.
  Qed.
  Lemma filled_data g n y : hb_count g = Some (Z.of_nat n) -> band_data g y ->
    dkeys y = map det_name (seq 1 n) /\
    forall k r w c, (1 <= k <= n)%nat -> filled g (det_name k) r w c ->
      dget (det_name k) y = Some [("response", VArr r); ("wavelength", VArr (stored f32 w)); ("central_wavelength", VNum c)].
  Proof.
    intros C (K & D). unfold detector_count in *. rewrite C, Nat2Z.id in *. split; auto.
    intros k r w c Hk F. apply filled_available in F as (F1 & F2 & F3). destruct (D k Hk) as (z & -> & r' & w' & c' & A1 & A2 & A3 & ->).
    apply F1 in A1. apply F2 in A2. apply F3 in A3. congruence.
  Qed.

  (** ** loops *)
  Lemma on_dets_spec (f : raw N -> res (h5data N)) d : forall out, on_dets f d = Ok out ->
    dkeys out = dkeys d /\ forall k r, dget k d = Some r -> exists g, f r = Ok g /\ dget k out = Some g.
  Proof.
    induction d as [|(k, r) d IH]; intros out; cbn [on_dets]; [intros [= <-]; split; [auto|discriminate]|].
    destruct (f r) as [g|] eqn:E; cbn [bind]; [|discriminate]. destruct (on_dets f d) as [rest|]; cbn [bind]; [|discriminate]. intros [= <-].
    destruct (IH _ eq_refl) as (H1 & H2). split; [unfold dkeys in *; cbn [map fst]; congruence|].
    intros k' r'. cbn [dget]. destruct (String.eqb k' k); [intros [= <-]; eauto|apply H2].
  Qed.
  Lemma on_dets_total (f : raw N -> res (h5data N)) d : (forall k r, In (k, r) d -> exists g, f r = Ok g) -> exists out, on_dets f d = Ok out.
  Proof.
    induction d as [|(k, r) d IH]; intros H; cbn [on_dets]; [eauto|].
    destruct (H k r) as (g & ->); [now left|]. cbn [bind]. destruct IH as (out & ->); [intros k1 r1 H1; apply (H k1 r1); now right|]. cbn [bind]. eauto.
  Qed.
  Lemma on_bands_spec (f : string -> res (h5band N)) bs : forall out, on_bands f bs = Ok out ->
    dkeys out = bs /\ forall b, In b bs -> exists g, f b = Ok g /\ dget b out = Some g.
  Proof.
    induction bs as [|b bs IH]; intros out; cbn [on_bands]; [intros [= <-]; split; [auto|intros ? []]|].
    destruct (f b) as [g|] eqn:E; cbn [bind]; [|discriminate]. destruct (on_bands f bs) as [rest|]; cbn [bind]; [|discriminate]. intros [= <-].
    destruct (IH _ eq_refl) as (H1 & H2). split; [unfold dkeys in *; cbn [map fst]; congruence|].
    intros b' Hb. cbn [dget]. destruct (String.eqb_spec b' b) as [->|Hn]; [eauto|]. destruct Hb as [Hb|Hb]; [congruence|]. now apply H2.
  Qed.
  Lemma on_bands_total (f : string -> res (h5band N)) bs : (forall b, In b bs -> exists g, f b = Ok g) -> exists out, on_bands f bs = Ok out.
  Proof.
    induction bs as [|b bs IH]; intros H; cbn [on_bands]; [eauto|].
    destruct (H b) as (g & ->); [now left|]. cbn [bind]. destruct IH as (out & ->); [intros; eapply H; now right|]. cbn [bind]. eauto.
  Qed.

  (** ** MODIS *)
  Lemma alike_iff (w w' : list N) : same_wavelengths w w' = true <-> alike w w'.
  Proof.
    unfold same_wavelengths, alike. revert w'. induction w as [|a w IH]; intros [|b w']; cbn.
    - split; auto.
    - split; [discriminate|intros H; inversion H].
    - split; [discriminate|intros H; inversion H].
    - rewrite andb_true_iff in *. specialize (IH w'). rewrite andb_true_iff in IH. rewrite andb_true_iff. split.
      + intros (L & E & F). constructor; auto. apply IH. auto.
      + intros H. inversion H as [|? ? ? ? H1 H2]; subst. apply IH in H2. tauto.
  Qed.
  Lemma modis_band_spec d g : NoDup (dkeys d) -> modis_band f32 d = Ok g ->
    hb_count g = Some (Z.of_nat (List.length d)) /\
    exists k0 r0, hd_error d = Some (k0, r0) /\
    hd_response (hb_shared g) = None /\ (forall k, ~ In k (dkeys d) -> dget k (hb_dets g) = None) /\
    forall k r, dget k d = Some r -> exists c w, central_of (numbered (rw_wavelength r) (rw_wavelength r)) (numbered (rw_wavelength r) (rw_response r)) c /\
      filled g k (map f32 (rw_response r)) w c /\
      ((forall k' r', dget k' d = Some r' -> k' <> k0 -> alike (rw_wavelength r0) (rw_wavelength r')) -> w = rw_wavelength r0) /\
      (forall k' r', dget k' d = Some r' -> k' <> k0 -> ~ alike (rw_wavelength r0) (rw_wavelength r') -> w = rw_wavelength r).
  Proof.
    intros ND. unfold modis_band. destruct d as [|(k0, r0) d]; cbn [hd_error of_option bind snd tl]; [discriminate|].
    set (constant := forallb _ d). destruct (on_dets (modis_detector f32 constant) ((k0, r0) :: d)) as [dets|] eqn:E; cbn [bind]; [|discriminate]. intros [= <-].
    apply on_dets_spec in E as (K & D). cbn [hb_count hb_dets hb_shared hd_response]. split; auto. exists k0, r0. split; auto. split; auto.
    split. { intros k Hk. apply dget_None_notin. now rewrite K. }
    intros k r Hr. destruct (D k r Hr) as (x & X & G). unfold modis_detector in X.
    destruct (where_wave (rw_wavelength r) (rw_wavelength r)) as [w1|] eqn:E1; cbn [bind] in X; [|discriminate].
    destruct (where_wave (rw_wavelength r) (rw_response r)) as [a|] eqn:E2; cbn [bind] in X; [|discriminate].
    destruct (get_central_wave w1 a (WScalar n1)) as [c|] eqn:E3; cbn [bind] in X; [|discriminate]. injection X as <-.
    apply where_wave_ok in E1 as (_ & ->), E2 as (_ & ->). exists c, (if constant then rw_wavelength r0 else rw_wavelength r).
    split; [exact E3|]. split; [|split].
    - eexists. cbn [hb_dets hb_shared]. split; [exact G|]. cbn [hd_response hd_central hd_wavelength]. split; auto. split; auto. destruct constant; auto.
    - intros H. assert (C : constant = true).
      { unfold constant. apply forallb_forall. intros (k', r') Hin. cbn [snd]. apply alike_iff. inversion ND as [|? ? N1 N2]; subst.
        apply (H k').
        - cbn [dget]. destruct (String.eqb_spec k' k0) as [->|]; [|now apply dget_in_nodup].
          exfalso. apply N1. apply in_map_iff. exists (k0, r'). auto.
        - intros ->. apply N1. apply in_map_iff. exists (k0, r'). auto. }
      now rewrite C.
    - intros k' r' G' Hk' HA. assert (C : constant = false).
      { destruct constant eqn:C; [|auto]. exfalso. apply HA. unfold constant in C. rewrite forallb_forall in C.
        apply alike_iff. cbn [dget] in G'. destruct (String.eqb_spec k' k0) as [->|]; [congruence|]. apply dget_Some_in in G'. apply (C _ G'). }
      now rewrite C.
  Qed.
End Dets.
