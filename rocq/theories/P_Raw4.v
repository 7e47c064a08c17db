(** Lemmas about trimmed curves. *)
From Coq Require Import String Ascii List Bool ZArith Lia Reals Lra Sorted.
From Verif Require Import Base NumSig XR M_Tables M_Utils M_World M_Hdf5 M_Raw M_Download S_Raw S_Hdf5 P_Hdf52 P_Raw P_Raw2.
Import ListNotations.
Local Open Scope string_scope.

Local Open Scope R_scope.
Lemma combine_fin (l : list (R * R)) :
  combine (map (fun p => Fin (fst p)) l) (map (fun p => Fin (snd p)) l) = map (fun p => (Fin (fst p), Fin (snd p))) l.
Proof. induction l as [|p l IH]; cbn; [easy|]. now rewrite IH. Qed.
Lemma cut_trimmed l : exists l', trimmed l l' /\
  curve (@cut XRN (nlit XRN 1 1000) {| rw_wavelength := map (fun p => Fin (fst p)) l : list (num XRN); rw_response := map (fun p => Fin (snd p)) l |}) l'.
Proof.
  unfold cut, curve. cbn [rw_wavelength rw_response]. change (combine _ _) with (combine (map (fun p : R * R => Fin (fst p)) l) (map (fun p : R * R => Fin (snd p)) l)).
  rewrite combine_fin. induction l as [|[w r] l (l' & T & C1 & C2)]; [exists []; repeat constructor|].
  cbn [map filter]. cbn [nltb nlit XRN fst snd]. rewrite xlit_eq. cbn [xltb]. destruct (Rlt_dec (1 / 1000) r) as [Hr|Hr].
  - exists ((w, r) :: l'). rewrite Rltb_true by exact Hr. split; [now constructor|]. cbn [map]. cbn [nltb nlit XRN fst snd] in C1, C2.
    rewrite xlit_eq in C1, C2. split; f_equal; [exact C1|exact C2].
  - exists l'. rewrite Rltb_false by lra. split; [apply tr_drop; [lra|easy]|]. cbn [nltb nlit XRN fst snd] in C1, C2.
    rewrite xlit_eq in C1, C2. split; [exact C1|exact C2].
Qed.

Lemma exceeds (l : list R) : existsb (fun x => nltb XRN (@n1 XRN) x) (map Fin l) = existsb (fun x => Rltb 1 x) l.
Proof.
  induction l as [|x l IH]; [reflexivity|]. cbn [map existsb]. rewrite IH. f_equal. unfold n1. cbn [nltb nlit XRN]. rewrite xlit_eq. cbn [xltb].
  replace (1 / 1) with 1 by field. reflexivity.
Qed.
Lemma over_one l : existsb (fun x => Rltb 1 x) l = true <-> exists x, In x l /\ 1 < x.
Proof.
  rewrite existsb_exists. split; intros (x & H1 & H2); exists x; split; auto; now apply Rltb_iff.
Qed.

Definition unit_scale (u : Z) : XR := if Z.eqb u 1 then nlit XRN 1 1 else nlit XRN 1 1000.
Lemma scale_fin u w : (u = 1 \/ u = 1000)%Z -> xmul (Fin w) (unit_scale u) = Fin (w / IZR u).
Proof. intros [-> | ->]; unfold unit_scale; cbn [Z.eqb Pos.eqb nlit XRN]; rewrite xlit_eq; cbn [xmul]; f_equal; field. Qed.

Lemma agri_load cols u f r : (u = 1 \/ u = 1000)%Z -> @load_agri XRN cols (unit_scale u) f = Ok r ->
  exists w y rest, cols f 1%nat = Ok (w :: y :: rest) /\
    forall l, w = map (fun p => Fin (fst p)) l -> y = map (fun p => Fin (snd p)) l ->
      (Forall (fun p => snd p <= 1) l -> exists l', trimmed (map (fun p => (fst p / IZR u, snd p)) l) l' /\ curve r l') /\
      (Exists (fun p => 1 < snd p) l -> exists l', trimmed (map (fun p => (fst p / IZR u, snd p / 100)) l) l' /\ curve r l').
Proof.
  intros Hu H. unfold load_agri, load_columns, idx in H. destruct (cols f 1%nat) as [[|w [|y rest]]|]; cbn [bind nth_error of_option] in H; try discriminate.
  exists w, y, rest. split; [easy|]. intros l -> ->. cbn [rw_wavelength rw_response] in H.
  assert (Hw : map (fun x => xmul x (unit_scale u)) (map (fun p : R * R => Fin (fst p)) l) = map (fun p : R * R => Fin (fst p / IZR u)) l).
  { rewrite map_map. apply map_ext. intros p. now apply scale_fin. }
  unfold percent_to_fraction in H. destruct (map (fun p => Fin (snd p)) l) as [|y0 ys] eqn:Hy; [discriminate|]. rewrite <- Hy in H. cbn [bind] in H.
  replace (map (fun p => Fin (snd p)) l) with (map Fin (map snd l)) in H by (rewrite map_map; reflexivity). 
  change (num XRN) with XR in *. rewrite exceeds in H. injection H as <-. rewrite Hw. split; intros F.
  - replace (existsb _ _) with false.
    + destruct (cut_trimmed (map (fun p => (fst p / IZR u, snd p)) l)) as (l' & T & C). exists l'. split; [easy|].
      rewrite !map_map in *. exact C.
    + symmetry. destruct (existsb _ _) eqn:E; [|easy]. apply over_one in E as (x & Hx & H1). apply in_map_iff in Hx as (q & <- & Hq).
      rewrite Forall_forall in F. specialize (F _ Hq). lra.
  - replace (existsb _ _) with true.
    + destruct (cut_trimmed (map (fun p => (fst p / IZR u, snd p / 100)) l)) as (l' & T & C). exists l'. split; [easy|].
      rewrite !map_map in *. cbn [fst snd] in C.
      replace (map (fun x : R * R => xdiv (Fin (snd x)) (xlit 100 1)) l) with (map (fun x : R * R => Fin (snd x / 100)) l); [exact C|].
      apply map_ext. intros q. rewrite xlit_eq, xdiv_fin by lra. f_equal. field.
    + symmetry. apply over_one. apply Exists_exists in F as (q & Hq & H1). exists (snd q). split; [now apply in_map|easy].
Qed.

Lemma unit_agri p b d s : dget p AGRI_SCALES = Some d -> dget b d = Some s -> exists u, geo_unit Agri p b u /\ s = unit_scale u.
Proof.
  unfold AGRI_SCALES. cbn [dget]. destruct (String.eqb_spec p "FY-4A") as [->|].
  - intros [= <-] H. cbn in H. unfold unit_scale.
    repeat match type of H with (if ?c then _ else _) = _ => let E := fresh "E" in destruct c eqn:E;
      [apply String.eqb_eq in E; subst b; injection H as <-;
       first [exists 1000%Z; split; [apply gu_4a_nano; constructor; cbn; tauto|reflexivity]|exists 1%Z; split; [apply gu_4a_micro; constructor; cbn; tauto|reflexivity]]|] end.
    discriminate.
  - destruct (String.eqb_spec p "FY-4B") as [->|]; [|discriminate]. intros [= <-] H. cbn in H. unfold unit_scale.
    repeat match type of H with (if ?c then _ else _) = _ => let E := fresh "E" in destruct c eqn:E;
      [apply String.eqb_eq in E; subst b; injection H as <-;
       first [exists 1000%Z; split; [apply gu_4b_nano; constructor; cbn; tauto|reflexivity]|exists 1%Z; split; [apply gu_4b_micro; constructor; cbn; tauto|reflexivity]]|] end.
    discriminate.
Qed.
Lemma unit_ghi p b d s : dget p GHI_SCALES = Some d -> dget b d = Some s -> exists u, geo_unit Ghi p b u /\ s = unit_scale u.
Proof.
  unfold GHI_SCALES. cbn [dget]. destruct (String.eqb_spec p "FY-4B") as [->|]; [|discriminate]. intros [= <-] H. cbn in H. unfold unit_scale.
  repeat match type of H with (if ?c then _ else _) = _ => let E := fresh "E" in destruct c eqn:E;
    [apply String.eqb_eq in E; subst b; injection H as <-;
     first [exists 1000%Z; split; [apply gu_ghi_nano; constructor; cbn; tauto|reflexivity]|exists 1%Z; split; [apply gu_ghi_micro|reflexivity]]|] end.
  discriminate.
Qed.
Lemma geo_unit_values k p b u : geo_unit k p b u -> (u = 1 \/ u = 1000)%Z.
Proof. destruct 1; auto. Qed.

Lemma geo_curves k options ex cols b p o r : k = Agri \/ k = Ghi -> make k options ex cols b p = Ok o -> ir_rsr o = Some r ->
  exists file u w y rest, configured options p (ir_instrument o) b file /\ geo_unit k p b u /\ cols file 1%nat = Ok (w :: y :: rest) /\
    forall l, w = map (fun p => Fin (fst p)) l -> y = map (fun p => Fin (snd p)) l ->
      (Forall (fun p => snd p <= 1) l -> exists l', trimmed (map (fun p => (fst p / IZR u, snd p)) l) l' /\ curve r l') /\
      (Exists (fun p => 1 < snd p) l -> exists l', trimmed (map (fun p => (fst p / IZR u, snd p / 100)) l) l' /\ curve r l').
Proof.
  intros [-> | ->] H Hr; cbn [make] in H; eapply text_load in H as (f & C & Hl & _); try exact Hr; unfold scaled_load in Hl.
  - destruct (dget p AGRI_SCALES) as [d|] eqn:Hd; [|discriminate]. cbn [bind of_option] in Hl. destruct (dget b d) as [s|] eqn:Hs; [|discriminate].
    destruct (unit_agri _ _ _ _ Hd Hs) as (u & Hu & ->). destruct (agri_load _ _ _ _ (geo_unit_values _ _ _ _ Hu) Hl) as (w & y & rest & E & L).
    exists f, u, w, y, rest. auto.
  - destruct (dget p GHI_SCALES) as [d|] eqn:Hd; [|discriminate]. cbn [bind of_option] in Hl. destruct (dget b d) as [s|] eqn:Hs; [|discriminate].
    destruct (unit_ghi _ _ _ _ Hd Hs) as (u & Hu & ->). destruct (agri_load _ _ _ _ (geo_unit_values _ _ _ _ Hu) Hl) as (w & y & rest & E & L).
    exists f, u, w, y, rest. auto.
Qed.
