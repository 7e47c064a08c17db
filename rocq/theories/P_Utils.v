(** Lemmas about the utility functions (C52, C56-C58). *)
From Coq Require Import Reals Lra ZArith String List Lia Bool Arith Sorting.Permutation Sorting.Sorted.
From Verif Require Import Base NumSig XR P_Trapz M_Tables M_Utils S_Utils P_RadTb.
Import ListNotations.
Local Open Scope nat_scope.

(** ** np.where *)
Section Where.
  Context {N : Num}.
  Variable p : N -> bool.

  Lemma where_from_in k l i : In i (where_from k p l) <->
    k <= i /\ exists x, nth_error l (i - k) = Some x /\ p x = true.
  Proof.
    revert k; induction l as [|x l IH]; intros k; cbn [where_from].
    - split; [intros []|]. intros (_ & x & H & _). destruct (i - k); discriminate.
    - destruct (p x) eqn:E; cbn [In]; rewrite ?IH; split.
      + intros [->|(H1 & y & H2 & H3)].
        * split; auto. rewrite Nat.sub_diag. simpl. eauto.
        * split; [lia|]. replace (i - k) with (S (i - S k)) by lia. simpl. eauto.
      + intros (H1 & y & H2 & H3). destruct (Nat.eq_dec k i); auto. right. split; [lia|].
        replace (i - k) with (S (i - S k)) in H2 by lia. simpl in H2. eauto.
      + intros (H1 & y & H2 & H3). split; [lia|]. replace (i - k) with (S (i - S k)) by lia. simpl. eauto.
      + intros (H1 & y & H2 & H3). destruct (Nat.eq_dec k i) as [->|].
        * rewrite Nat.sub_diag in H2. simpl in H2. congruence.
        * split; [lia|]. replace (i - k) with (S (i - S k)) in H2 by lia. simpl in H2. eauto.
  Qed.

  Lemma where_in l i : In i (where_ p l) <-> exists x, nth_error l i = Some x /\ p x = true.
  Proof. unfold where_. rewrite where_from_in. rewrite Nat.sub_0_r. intuition lia. Qed.

  Lemma where_from_sorted k l : StronglySorted lt (where_from k p l).
  Proof.
    revert k; induction l as [|x l IH]; intros k; cbn [where_from]; [constructor|].
    destruct (p x); [|apply IH]. constructor; [apply IH|].
    apply Forall_forall. intros i Hi. apply where_from_in in Hi. lia.
  Qed.
  Lemma where_sorted l : StronglySorted lt (where_ p l).
  Proof. apply where_from_sorted. Qed.
End Where.

Lemma last_cons_d {A} (b : A) l a : last (b :: l) a = last l b.
Proof. revert b a; induction l as [|c l IH]; intros b a; auto. change (last (b :: c :: l) a) with (last (c :: l) a). now rewrite !IH. Qed.

Lemma sorted_last_max l a : StronglySorted lt (a :: l) ->
  (forall k, In k (a :: l) -> a <= k <= last l a) /\ In (last l a) (a :: l).
Proof.
  revert a; induction l as [|b l IH]; intros a H.
  - simpl. split; [intros k [->|[]]; lia|auto].
  - inversion H as [|? ? Hs Hf]; subst. inversion Hf as [|? ? Hab Hf']; subst.
    destruct (IH b Hs) as [H1 H2].
    assert (E : last (b :: l) a = last l b) by apply last_cons_d.
    rewrite E. split.
    + intros k [<-|Hk].
      * split; [lia|]. specialize (H1 _ (or_introl eq_refl)). lia.
      * specialize (H1 k Hk). lia.
    + right. exact H2.
Qed.

(** the first and last index of a non-empty search result *)
Lemma where_first_last {N : Num} (p : N -> bool) l i0 rest :
  where_ p l = i0 :: rest -> first_last (fun x => p x = true) l i0 (last rest i0).
Proof.
  intros H. pose proof (where_sorted p l) as Hs. rewrite H in Hs.
  destruct (sorted_last_max _ _ Hs) as [H1 H2].
  assert (Hin : forall k, In k (i0 :: rest) <-> exists x, nth_error l k = Some x /\ p x = true).
  { intros k. rewrite <- H. apply where_in. }
  split; [apply (H1 i0); now left|]. split; [|split].
  - apply Hin. now left.
  - apply Hin. exact H2.
  - intros k x Hk Hp. apply H1. apply Hin. eauto.
Qed.

Lemma first_last_unique {A} (P : A -> Prop) l i j i' j' :
  first_last P l i j -> first_last P l i' j' -> i = i' /\ j = j'.
Proof.
  intros (_ & (a & Ha & Pa) & (b & Hb & Pb) & H) (_ & (a' & Ha' & Pa') & (b' & Hb' & Pb') & H').
  pose proof (H _ _ Ha' Pa'). pose proof (H _ _ Hb' Pb').
  pose proof (H' _ _ Ha Pa). pose proof (H' _ _ Hb Pb). lia.
Qed.

Lemma first_last_ext {A} (P Q : A -> Prop) l i j : (forall x, P x <-> Q x) ->
  first_last P l i j -> first_last Q l i j.
Proof.
  intros E (H0 & (a & Ha & Pa) & (b & Hb & Pb) & H). repeat split; auto.
  - exists a. split; auto. now apply E.
  - exists b. split; auto. now apply E.
  - apply (H k x); auto. now apply E.
  - apply (H k x); auto. now apply E.
Qed.
