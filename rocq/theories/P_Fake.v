(** Lemmas about the fake data of pyspectral.testing. *)
From Coq Require Import Reals Lra Lia ZArith String Ascii List Bool Sorted.
From Verif Require Import Base NumSig XR M_Tables M_Utils M_Solar M_Nir M_Rayleigh M_World M_Download M_Rsr M_Fake
     S_Solar S_Nir S_Rayleigh S_Fake P_Solar P_Names P_Nir4.
Import ListNotations.
Local Open Scope string_scope.
Local Open Scope R_scope.

(** ** file names *)
Lemma has_char_app c a b : has_char c (a ++ b) = has_char c a || has_char c b.
Proof. induction a as [|d a IH]; cbn; [reflexivity|]. now rewrite IH, orb_assoc. Qed.

Lemma sapp_assoc (a b c : string) : (a ++ b) ++ c = a ++ b ++ c.
Proof. induction a as [|x a IH]; cbn; [reflexivity|]. now rewrite IH. Qed.

Lemma split_slash_none f : has_char "/" f = false -> split_slash f = ("", f).
Proof.
  induction f as [|c t IH]; cbn [has_char split_slash]; [reflexivity|]. rewrite orb_false_iff. intros [H1 H2]. rewrite IH by exact H2.
  rewrite Ascii.eqb_sym in H1. rewrite H1. reflexivity.
Qed.
Lemma split_slash_join d f : has_char "/" f = false -> snd (split_slash (join d f)) = f.
Proof.
  intros H. unfold join. induction d as [|c t IH]; cbn [String.append split_slash].
  - rewrite split_slash_none by exact H. reflexivity.
  - cbn [String.append] in IH |- *. destruct (split_slash (t ++ String "/" f)) as [h b] eqn:E. cbn [snd] in IH. subst b.
    destruct (Ascii.eqb c "/"); [reflexivity|]. destruct (String.eqb h "") eqn:Eh; [|reflexivity].
    exfalso. apply String.eqb_eq in Eh. subst h.
    pose proof (P_Nir4.split_slash_spec (t ++ String "/" f)) as S. rewrite E in S. destruct S as (S & _ & _). cbn in S.
    assert (K : has_char "/" (t ++ String "/" f) = false) by now rewrite S.
    rewrite has_char_app in K. cbn in K. rewrite orb_true_r in K. discriminate.
Qed.

Lemma split_dot_none f : has_char "." f = false -> split_dot f = None.
Proof.
  induction f as [|c t IH]; cbn [has_char split_dot]; [reflexivity|]. rewrite orb_false_iff. intros [H1 H2]. rewrite IH by exact H2.
  rewrite Ascii.eqb_sym in H1. now rewrite H1.
Qed.
Lemma split_dot_app p s : has_char "." s = false -> split_dot (p ++ "." ++ s) = Some (p, s).
Proof.
  intros H. induction p as [|c t IH]; cbn [String.append split_dot].
  - rewrite split_dot_none by exact H. reflexivity.
  - cbn [String.append] in IH. now rewrite IH.
Qed.

Lemma split_on_none c s : has_char c s = false -> split_on c s = [s].
Proof.
  induction s as [|d t IH]; cbn [has_char split_on]; [reflexivity|]. rewrite orb_false_iff. intros [H1 H2]. now rewrite H1, IH.
Qed.
Lemma split_on_app c a b : has_char c a = false -> split_on c (a ++ String c b) = a :: split_on c b.
Proof.
  induction a as [|d t IH]; cbn [has_char String.append split_on]; [now rewrite Ascii.eqb_refl|].
  rewrite orb_false_iff. intros [H1 H2]. now rewrite H1, IH.
Qed.

Lemma file_stem dir i p : has_char "/" i = false -> has_char "/" p = false ->
  stem (join dir (get_rsr_filename p i)) = "rsr_" ++ i ++ "_" ++ p.
Proof.
  intros Hi Hp. unfold stem.
  rewrite split_slash_join by (unfold get_rsr_filename; rewrite !has_char_app, Hi, Hp; reflexivity).
  unfold get_rsr_filename.
  assert (A : "rsr_" ++ i ++ "_" ++ p ++ ".h5" = ("rsr_" ++ i ++ "_" ++ p) ++ "." ++ "h5").
  { now rewrite !sapp_assoc. }
  rewrite A, split_dot_app by reflexivity. cbn [String.append String.eqb orb]. reflexivity.
Qed.
Lemma file_parts dir i p : plain i -> plain p ->
  split_on "_" (stem (join dir (get_rsr_filename p i))) = ["rsr"; i; p].
Proof.
  intros [I1 I2] [P1 P2]. rewrite file_stem by assumption.
  change ("rsr_" ++ i ++ "_" ++ p) with ("rsr" ++ String "_" (i ++ String "_" p)).
  rewrite split_on_app by reflexivity. rewrite split_on_app by exact I1. now rewrite split_on_none by exact P1.
Qed.

(** ** adjusted instrument names *)
Lemma lower_ascii_idem c : lower_ascii (lower_ascii c) = lower_ascii c.
Proof. destruct c as [[] [] [] [] [] [] [] []]; reflexivity. Qed.
Lemma lower_idem s : lower (lower s) = lower s.
Proof. unfold lower. induction s as [|c t IH]; cbn; [reflexivity|]. now rewrite lower_ascii_idem, IH. Qed.
Lemma lower_remove c s : lower s = s -> lower (remove_char c s) = remove_char c s.
Proof.
  unfold lower. induction s as [|d t IH]; cbn; [reflexivity|]. intros [= H1 H2]. destruct (Ascii.eqb c d); cbn; [auto|]. rewrite H1. now rewrite IH.
Qed.
Lemma adjusted_form p i r : check_and_adjust_instrument_name p i = Ok r -> lower r = r /\ has_char "/" r = false /\ has_char "-" r = false.
Proof.
  unfold check_and_adjust_instrument_name. cbv zeta. match goal with |- bind ?e _ = _ -> _ => destruct e as [j|e'] end; cbn [bind]; [|discriminate]. intros [= <-].
  repeat split.
  - apply lower_remove, lower_remove, lower_idem.
  - apply has_char_remove_other, has_char_remove_same.
  - apply has_char_remove_same.
Qed.
Lemma replace_id c d s : has_char c s = false -> replace_char c d s = s.
Proof.
  unfold replace_char. induction s as [|x t IH]; cbn; [reflexivity|]. rewrite orb_false_iff. intros [H1 H2]. rewrite H1. now rewrite IH.
Qed.

Lemma prefix_split p : forall s, String.prefix p s = true -> exists r, s = p ++ r.
Proof.
  induction p as [|c p IH]; intros s H; [now exists s|]. destruct s as [|d s]; [discriminate|]. cbn in H.
  destruct (ascii_dec c d) as [->|]; [|discriminate]. destruct (IH s H) as [r ->]. now exists r.
Qed.
Lemma prefix_iff i : startswith i "avhrr" = true <-> is_avhrr i.
Proof.
  unfold startswith, is_avhrr. split; [apply prefix_split|]. intros [r ->]. cbn. destruct r; reflexivity.
Qed.
Lemma last_char_cons c d t : last_char (String c (String d t)) = last_char (String d t).
Proof. reflexivity. Qed.
Lemma last_char_form i : i <> "" -> exists p c, i = p ++ String c "" /\ last_char i = String c "".
Proof.
  induction i as [|c t IH]; [congruence|]. intros _. destruct t as [|d t].
  - exists "", c. auto.
  - destruct IH as (p & e & E & L); [discriminate|]. exists (String c p), e. cbn [String.append]. rewrite <- E. split; [reflexivity|]. now rewrite last_char_cons.
Qed.
Lemma app_last_inj p q c d : p ++ String c "" = q ++ String d "" -> c = d.
Proof.
  revert q. induction p as [|x p IH]; intros [|y q]; cbn.
  - now intros [= ->].
  - intros [= _ H]. destruct q; discriminate.
  - intros [= _ H]. destruct p; discriminate.
  - intros [= _ H]. eauto.
Qed.
Lemma lower_3 c : lower_ascii c = "3"%char -> c = "3"%char.
Proof. destruct c as [[] [] [] [] [] [] [] []]; intros H; try reflexivity; vm_compute in H; discriminate. Qed.
Lemma not_slash_lower c : lower_ascii c <> "/"%char \/ c = "/"%char.
Proof. destruct c as [[] [] [] [] [] [] [] []]; try (left; vm_compute; discriminate). right. reflexivity. Qed.

Lemma avhrr_table d : dget ("avhrr-" ++ d) BANDNAMES = if String.eqb d "3" then Some BN_avhrr_3 else None.
Proof.
  cbn [dget BANDNAMES String.append String.eqb]. 
  repeat (match goal with |- context [if Ascii.eqb ?a ?b then _ else false] => let v := eval vm_compute in (Ascii.eqb a b) in change (Ascii.eqb a b) with v; cbv iota end).
  reflexivity.
Qed.

Lemma table_of i t : lower i = i -> has_char "/" i = false -> band_table i t -> fake_band_name_map (fake_instrument i) = t.
Proof.
  intros Hl Hs T. unfold fake_instrument, fake_band_name_map. destruct (startswith i "avhrr") eqn:E.
  - apply prefix_iff in E. destruct T as [(_ & T)|(T & _)]; [|contradiction].
    destruct (last_char_form i) as (p & c & Ei & Lc); [destruct E as [r ->]; discriminate|]. rewrite Lc.
    assert (Q : replace_char "/" "-" (lower ("avhrr/" ++ String c "")) = "avhrr-" ++ String (if Ascii.eqb "/" (lower_ascii c) then "-" else lower_ascii c)%char "") by reflexivity.
    rewrite Q, avhrr_table.
    assert (C : c <> "/"%char). { intros ->. rewrite Ei, has_char_app in Hs. cbn in Hs. rewrite orb_true_r in Hs. discriminate. }
    destruct (not_slash_lower c) as [NS|NS]; [|contradiction].
    destruct (Ascii.eqb_spec "/" (lower_ascii c)) as [Q'|_]; [congruence|].
    destruct T as [[E3 ->]|[E3 ->]].
    + destruct E3 as [q E3]. rewrite Ei in E3. apply app_last_inj in E3. subst c. reflexivity.
    + destruct (String.eqb_spec (String (lower_ascii c) "") "3") as [[= K]|K]; [|reflexivity].
      exfalso. apply E3. apply lower_3 in K. subst c. now exists p.
  - destruct T as [(T & _)|(_ & T)]; [apply prefix_iff in T; congruence|]. rewrite Hl, replace_id by exact Hs.
    destruct T as [->|[-> ->]]; reflexivity.
Qed.
Lemma table_exists i : exists t, band_table i t.
Proof.
  destruct (startswith i "avhrr") eqn:E.
  - apply prefix_iff in E. destruct (Classical_Prop.classic (ends_in_3 i)).
    + exists BN_avhrr_3. left. auto.
    + exists BN_generic. left. auto.
  - assert (~ is_avhrr i) by (rewrite <- prefix_iff; congruence). destruct (dget i BANDNAMES) as [t|] eqn:D; [exists t|exists BN_generic]; right; auto.
Qed.
