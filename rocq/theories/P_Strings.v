(** Lemmas on strings, white space and first lines. *)
From Coq Require Import String Ascii List Bool.
From Verif Require Import Base M_World S_Download.
Import ListNotations.
Local Open Scope string_scope.

Lemma sapp_assoc a b c : (a ++ b) ++ c = a ++ b ++ c.
Proof. induction a; cbn; congruence. Qed.
Lemma sapp_nil a : a ++ "" = a.
Proof. induction a; cbn; congruence. Qed.
Lemma sapp_inj a b c : a ++ b = a ++ c -> b = c.
Proof. induction a; cbn; [auto|]. intros [= H]. auto. Qed.
Lemma join_inj d a b : join d a = join d b -> a = b.
Proof. unfold join. intros H. apply sapp_inj in H. now injection H. Qed.

Lemma all_chars_app P a b : all_chars P (a ++ b) <-> all_chars P a /\ all_chars P b.
Proof. induction a as [|c a IH]; cbn; [tauto|]. rewrite IH. tauto. Qed.

Lemma is_eol_iff c : is_eol c = true <-> eol c.
Proof.
  unfold is_eol, eol. rewrite orb_true_iff. rewrite !Ascii.eqb_eq. tauto.
Qed.

Lemma first_line_spec s : exists rest, s = first_line s ++ rest /\ all_chars (fun c => ~ eol c) (first_line s) /\
  (rest = "" \/ exists c t, rest = String c t /\ eol c).
Proof.
  induction s as [|c s (rest & E & A & R)]; [exists ""; cbn; auto|]. cbn [first_line].
  destruct (is_eol c) eqn:H.
  - exists (String c s). cbn. split; [reflexivity|]. split; [exact I|]. right. exists c, s. split; [reflexivity|now apply is_eol_iff].
  - exists rest. cbn. split; [congruence|]. split; [split; [|exact A]|exact R].
    intros He. apply is_eol_iff in He. congruence.
Qed.

Lemma first_line_eq L rest : all_chars (fun c => ~ eol c) L -> (rest = "" \/ exists c t, rest = String c t /\ eol c) ->
  first_line (L ++ rest) = L.
Proof.
  intros HL HR. induction L as [|c L IH]; cbn.
  - destruct HR as [->|(c & t & -> & He)]; [reflexivity|]. cbn. apply is_eol_iff in He. now rewrite He.
  - destruct HL as [Hc HL]. destruct (is_eol c) eqn:E; [apply is_eol_iff in E; contradiction|]. now rewrite IH.
Qed.

Lemma is_space_blank c : is_space c = true <-> blank c.
Proof.
  split.
  - destruct c as [[] [] [] [] [] [] [] []]; try discriminate; intros _; vm_compute; tauto.
  - intros H. unfold blank, white in H. cbn [In] in H. repeat (destruct H as [<-|H]; [reflexivity|]). destruct H.
Qed.
Lemma not_space_blank c : is_space c = false -> ~ blank c.
Proof. intros H B. apply is_space_blank in B. congruence. Qed.

Lemma lstrip_spec s : exists a, s = a ++ lstrip s /\ all_chars blank a /\ (forall c t, lstrip s = String c t -> ~ blank c).
Proof.
  induction s as [|c s (a & E & A & B)]; [exists ""; cbn; repeat split; discriminate|]. cbn [lstrip].
  destruct (is_space c) eqn:H.
  - exists (String c a). cbn. split; [congruence|]. split; [split; [now apply is_space_blank|exact A]|exact B].
  - exists "". cbn. split; [reflexivity|]. split; [exact I|]. intros c' t [= <- _]. now apply not_space_blank.
Qed.

Lemma lstrip_eq a v : all_chars blank a -> (forall c t, v = String c t -> ~ blank c) -> lstrip (a ++ v) = v.
Proof.
  intros Ha Hv. induction a as [|c a IH]; cbn.
  - destruct v as [|c v]; [reflexivity|]. cbn. destruct (is_space c) eqn:E; [|reflexivity].
    exfalso. apply is_space_blank in E. exact (Hv c v eq_refl E).
  - destruct Ha as [Hc Ha]. apply is_space_blank in Hc. rewrite Hc. auto.
Qed.

Lemma rstrip_spec s : exists b, s = rstrip s ++ b /\ all_chars blank b /\ (forall c t, rstrip s = t ++ String c "" -> ~ blank c).
Proof.
  induction s as [|c s (b & E & A & B)].
  { exists "". cbn. repeat split. intros c t H. destruct t; discriminate. }
  cbn [rstrip]. destruct (rstrip s) as [|c1 r] eqn:R.
  - cbn in E. subst b. destruct (is_space c) eqn:H.
    + exists (String c s). cbn [append all_chars]. apply is_space_blank in H. split; [reflexivity|]. split; [split; assumption|]. intros c' t He. destruct t; discriminate.
    + exists s. cbn [append all_chars]. split; [reflexivity|]. split; [exact A|]. intros c' t He. destruct t as [|c2 t].
      * injection He as <-. now apply not_space_blank.
      * injection He as _ He. destruct t; discriminate.
  - exists b. split; [cbn in *; congruence|]. split; [exact A|]. intros c' t He.
    destruct t as [|c2 t]; [discriminate|]. cbn in He. injection He as _ He. exact (B _ _ He).
Qed.

Lemma rstrip_blank b : all_chars blank b -> rstrip b = "".
Proof. induction b as [|c b IH]; cbn; [auto|]. intros [Hc Hb]. rewrite IH by exact Hb. apply is_space_blank in Hc. now rewrite Hc. Qed.

Lemma rstrip_app_nonempty u b : rstrip (u ++ b) = match rstrip b with "" => rstrip u | r => u ++ r end.
Proof.
  induction u as [|c u IH]; cbn; [now destruct (rstrip b)|]. rewrite IH.
  destruct (rstrip b) as [|c1 r]; [reflexivity|]. destruct (u ++ String c1 r) eqn:E; [destruct u; discriminate|reflexivity].
Qed.

Lemma rstrip_trimmed v : (forall c t, v = t ++ String c "" -> ~ blank c) -> rstrip v = v.
Proof.
  induction v as [|c v IH]; [reflexivity|]. intros H. cbn [rstrip].
  rewrite IH by (intros c' t E; apply (H c' (String c t)); cbn; congruence).
  destruct v; [|reflexivity]. destruct (is_space c) eqn:E; [|reflexivity].
  exfalso. apply is_space_blank in E. exact (H c "" eq_refl E).
Qed.

Lemma strip_spec s v : strip s = v <-> exists a b, s = a ++ v ++ b /\ all_chars blank a /\ all_chars blank b /\ trimmed v.
Proof.
  unfold strip. split.
  - intros <-. destruct (rstrip_spec s) as (b & Eb & Bb & Tb). destruct (lstrip_spec (rstrip s)) as (a & Ea & Ba & Ta).
    exists a, b. split; [|split; [exact Ba|split; [exact Bb|]]].
    + rewrite <- sapp_assoc, <- Ea. exact Eb.
    + split; [exact Ta|]. intros c t E. apply (Tb c (a ++ t)). rewrite sapp_assoc, <- E. exact Ea.
  - intros (a & b & -> & Ba & Bb & T1 & T2). destruct v as [|c v].
    + cbn [append]. rewrite rstrip_blank; [reflexivity|]. now apply all_chars_app.
    + rewrite <- sapp_assoc, rstrip_app_nonempty, (rstrip_blank b) by exact Bb.
      rewrite rstrip_app_nonempty, (rstrip_trimmed (String c v)) by exact T2.
      apply lstrip_eq; assumption.
Qed.

Lemma all_chars_impl (P Q : ascii -> Prop) s : (forall c, P c -> Q c) -> all_chars P s -> all_chars Q s.
Proof. intros H. induction s; cbn; [auto|]. intros []. auto. Qed.
Lemma all_chars_and (P Q : ascii -> Prop) s : all_chars P s -> all_chars Q s -> all_chars (fun c => P c /\ Q c) s.
Proof. induction s; cbn; [auto|]. intros [] []. auto. Qed.

Lemma version_line_iff text v : strip (first_line text) = v <-> version_line text v.
Proof.
  rewrite strip_spec. split.
  - intros (a & b & E & Ba & Bb & T). destruct (first_line_spec text) as (rest & Et & Ne & R).
    rewrite E in Ne. apply all_chars_app in Ne. destruct Ne as [Na Ne]. apply all_chars_app in Ne. destruct Ne as [Nv Nb].
    exists a, b, rest. split; [rewrite Et, E, !sapp_assoc; reflexivity|].
    repeat split; try apply T; try apply all_chars_and; auto.
  - intros (a & b & rest & -> & Ha & Hv & Hb & T & R). exists a, b.
    split; [|split; [|split; [|exact T]]].
    + rewrite <- (sapp_assoc v b rest), <- (sapp_assoc a (v ++ b) rest). apply first_line_eq; [|exact R].
      rewrite !all_chars_app. split; [|split]; [eapply all_chars_impl; [|exact Ha]|exact Hv|eapply all_chars_impl; [|exact Hb]]; cbn; intros c [_ H]; exact H.
    + eapply all_chars_impl; [|exact Ha]; cbn; intros c [H _]; exact H.
    + eapply all_chars_impl; [|exact Hb]; cbn; intros c [H _]; exact H.
Qed.

(** prefixes *)
Lemma prefix_app s' s : String.prefix s' s = true -> exists t, s = s' ++ t.
Proof.
  revert s. induction s' as [|c s' IH]; intros s H; [now exists s|]. destruct s as [|c2 s]; [discriminate|]. cbn in H.
  destruct (ascii_dec c c2); [|discriminate]. subst. destruct (IH _ H) as [t ->]. now exists t.
Qed.

Lemma concat_cons s l : String.concat "" (s :: l) = s ++ String.concat "" l.
Proof. destruct l; cbn; [now rewrite sapp_nil|reflexivity]. Qed.
Lemma concat_filter l : String.concat "" (filter (fun s => negb (String.eqb s "")) l) = String.concat "" l.
Proof.
  induction l as [|s l IH]; [reflexivity|]. cbn [filter]. destruct (String.eqb_spec s ""); cbn [negb].
  - subst. rewrite IH, concat_cons. reflexivity.
  - now rewrite !concat_cons, IH.
Qed.
