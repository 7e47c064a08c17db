(** Facts about the trapezoidal rule on real lists. *)
From Coq Require Import Reals Lra List Sorted Lia.
From Verif Require Import Base NumSig XR.
Import ListNotations.
Open Scope R_scope.

Lemma Rtrapz_cons2 y0 y1 ys x0 x1 xs :
  Rtrapz (y0 :: y1 :: ys) (x0 :: x1 :: xs) =
  (x1 - x0) * (y1 + y0) / 2 + Rtrapz (y1 :: ys) (x1 :: xs).
Proof. reflexivity. Qed.

Lemma Rtrapz_nil_r ys : Rtrapz ys [] = 0.
Proof. destruct ys as [|? [|? ?]]; reflexivity. Qed.
Lemma Rtrapz_one_r ys x : Rtrapz ys [x] = 0.
Proof. destruct ys as [|? [|? ?]]; reflexivity. Qed.
Lemma Rtrapz_one_l y xs : Rtrapz [y] xs = 0.
Proof. reflexivity. Qed.

Lemma Rtrapz_scale k ys : forall xs, Rtrapz (map (Rmult k) ys) xs = k * Rtrapz ys xs.
Proof.
  induction ys as [|y0 ys IH]; intros xs; [simpl; lra|].
  destruct ys as [|y1 ys]; [simpl; lra|].
  destruct xs as [|x0 [|x1 xs]]; try (simpl; lra).
  specialize (IH (x1 :: xs)). simpl map in *.
  rewrite !Rtrapz_cons2, IH. lra.
Qed.

Lemma Rtrapz_scale_x k ys : forall xs, Rtrapz ys (map (Rmult k) xs) = k * Rtrapz ys xs.
Proof.
  induction ys as [|y0 ys IH]; intros xs; [simpl; lra|].
  destruct ys as [|y1 ys]; [simpl; lra|].
  destruct xs as [|x0 [|x1 xs]]; try (simpl; lra).
  specialize (IH (x1 :: xs)). simpl map in *.
  rewrite !Rtrapz_cons2, IH. lra.
Qed.

Lemma Rtrapz_shift_x k ys : forall xs, Rtrapz ys (map (Rplus k) xs) = Rtrapz ys xs.
Proof.
  induction ys as [|y0 ys IH]; intros xs; [simpl; lra|].
  destruct ys as [|y1 ys]; [simpl; lra|].
  destruct xs as [|x0 [|x1 xs]]; try (simpl; lra).
  specialize (IH (x1 :: xs)). simpl map in *.
  rewrite !Rtrapz_cons2, IH. lra.
Qed.

(** appending one more sample *)
Lemma Rtrapz_snoc ys y : forall xs x,
  length ys = length xs -> ys <> [] ->
  Rtrapz (ys ++ [y]) (xs ++ [x]) =
  Rtrapz ys xs + (x - last xs 0) * (y + last ys 0) / 2.
Proof.
  induction ys as [|y0 ys IH]; intros xs x Hlen Hne; [congruence|].
  destruct xs as [|x0 xs]; [discriminate|].
  destruct ys as [|y1 ys].
  - destruct xs; [|discriminate]. simpl. lra.
  - destruct xs as [|x1 xs]; [discriminate|].
    specialize (IH (x1 :: xs) x). 
    change ((y0 :: y1 :: ys) ++ [y]) with (y0 :: y1 :: (ys ++ [y])).
    change ((x0 :: x1 :: xs) ++ [x]) with (x0 :: x1 :: (xs ++ [x])).
    rewrite !Rtrapz_cons2.
    change (y1 :: ys ++ [y]) with ((y1 :: ys) ++ [y]).
    change (x1 :: xs ++ [x]) with ((x1 :: xs) ++ [x]).
    rewrite IH by (simpl in *; congruence).
    change (last (x0 :: x1 :: xs) 0) with (last (x1 :: xs) 0).
    change (last (y0 :: y1 :: ys) 0) with (last (y1 :: ys) 0). lra.
Qed.

Lemma last_rev {A} (l : list A) d : last (rev l) d = hd d l.
Proof. destruct l; simpl; auto. apply last_last. Qed.

Lemma Rtrapz_rev ys : forall xs, length ys = length xs ->
  Rtrapz (rev ys) (rev xs) = - Rtrapz ys xs.
Proof.
  induction ys as [|y0 ys IH]; intros xs Hlen.
  - destruct xs; [|discriminate]. simpl. lra.
  - destruct xs as [|x0 xs]; [discriminate|]. injection Hlen as Hlen.
    destruct ys as [|y1 ys].
    + destruct xs; [|discriminate]. simpl. lra.
    + destruct xs as [|x1 xs]; [discriminate|].
      change (rev (y0 :: y1 :: ys)) with (rev (y1 :: ys) ++ [y0]).
      change (rev (x0 :: x1 :: xs)) with (rev (x1 :: xs) ++ [x0]).
      rewrite Rtrapz_snoc.
      * rewrite IH by auto. rewrite !last_rev. simpl hd. rewrite Rtrapz_cons2. lra.
      * rewrite !rev_length. auto.
      * intros H. apply (f_equal (@length _)) in H. rewrite rev_length in H. discriminate.
Qed.

Lemma Rvmul_cons a la b lb : Rvmul (a :: la) (b :: lb) = a * b :: Rvmul la lb.
Proof. reflexivity. Qed.

Lemma Sorted_tail {A} (R : A -> A -> Prop) a l : Sorted R (a :: l) -> Sorted R l.
Proof. intros H. inversion H; auto. Qed.
Lemma Sorted_head2 {A} (R : A -> A -> Prop) a b l : Sorted R (a :: b :: l) -> R a b.
Proof. intros H. inversion H; subst. inversion H3; auto. Qed.

Lemma Sorted_Rlt_Rle l : Sorted Rlt l -> Sorted Rle l.
Proof.
  induction l as [|a l IH]; intros H; constructor.
  - apply IH. eapply Sorted_tail; eauto.
  - destruct l; constructor. apply Sorted_head2 in H. lra.
Qed.

Lemma Rtrapz_le ys : forall ys' xs, Sorted Rle xs -> Forall2 Rle ys ys' ->
  Rtrapz ys xs <= Rtrapz ys' xs.
Proof.
  induction ys as [|y0 ys IH]; intros ys' xs Hs HF; inversion HF as [|? z0 ? zs Hz HFt]; subst;
    [simpl; lra|].
  destruct ys as [|y1 ys]; inversion HFt as [|? z1 ? zs' Hz1 HFt']; subst; [simpl; lra|].
  destruct xs as [|x0 [|x1 xs]]; try (simpl; lra).
  rewrite !Rtrapz_cons2.
  specialize (IH (z1 :: zs') (x1 :: xs) (Sorted_tail _ _ _ Hs) HFt).
  apply Sorted_head2 in Hs.
  assert ((x1 - x0) * (y1 + y0) <= (x1 - x0) * (z1 + z0)) by (apply Rmult_le_compat_l; lra).
  lra.
Qed.

Lemma Rtrapz_nonneg ys : forall xs, Sorted Rle xs -> Forall (fun y => 0 <= y) ys ->
  0 <= Rtrapz ys xs.
Proof.
  induction ys as [|y0 ys IH]; intros xs Hs HF; [simpl; lra|].
  destruct ys as [|y1 ys]; [simpl; lra|].
  destruct xs as [|x0 [|x1 xs]]; try (simpl; lra).
  inversion HF as [|? ? H0 HFt]; subst. inversion HFt as [|? ? H1 HFtt]; subst.
  rewrite Rtrapz_cons2.
  specialize (IH (x1 :: xs) (Sorted_tail _ _ _ Hs) HFt).
  apply Sorted_head2 in Hs.
  assert (0 <= (x1 - x0) * (y1 + y0)) by (apply Rmult_le_pos; lra). lra.
Qed.

(** strict positivity: strictly increasing abscissae, at least two samples, one
    of them positive *)
Lemma Rtrapz_pos ys : forall xs, length ys = length xs -> (2 <= length ys)%nat ->
  Sorted Rlt xs -> Forall (fun y => 0 <= y) ys -> Exists (fun y => 0 < y) ys ->
  0 < Rtrapz ys xs.
Proof.
  induction ys as [|y0 ys IH]; intros xs Hlen H2 Hs HF HE; [simpl in H2; lia|].
  destruct ys as [|y1 ys]; [simpl in H2; lia|].
  destruct xs as [|x0 [|x1 xs]]; try discriminate.
  rewrite Rtrapz_cons2.
  assert (Hs' := Sorted_tail _ _ _ Hs). assert (Hlt := Sorted_head2 _ _ _ _ Hs).
  inversion HF as [|? ? H0 HFt]; subst. inversion HFt as [|? ? H1 HFtt]; subst.
  assert (Hnn : 0 <= Rtrapz (y1 :: ys) (x1 :: xs))
    by (apply Rtrapz_nonneg; auto using Sorted_Rlt_Rle).
  assert (Hnn2 : 0 <= (x1 - x0) * (y1 + y0)) by (apply Rmult_le_pos; lra).
  inversion HE as [? ? Hy|? ? HEt]; subst.
  - assert (0 < (x1 - x0) * (y1 + y0)) by (apply Rmult_lt_0_compat; lra). lra.
  - inversion HEt as [? ? Hy|? ? HEtt]; subst.
    + assert (0 < (x1 - x0) * (y1 + y0)) by (apply Rmult_lt_0_compat; lra). lra.
    + destruct ys as [|y2 ys]; [inversion HEtt|].
      specialize (IH (x1 :: xs)).
      assert (0 < Rtrapz (y1 :: y2 :: ys) (x1 :: xs)).
      { apply IH; auto; simpl in *; try lia. }
      lra.
Qed.

Lemma Rtrapz_add ys : forall zs xs, length ys = length zs ->
  Rtrapz (map (fun p => fst p + snd p) (combine ys zs)) xs = Rtrapz ys xs + Rtrapz zs xs.
Proof.
  induction ys as [|y0 ys IH]; intros zs xs Hlen; destruct zs as [|z0 zs]; try discriminate;
    [simpl; lra|].
  injection Hlen as Hlen.
  destruct ys as [|y1 ys]; destruct zs as [|z1 zs]; try discriminate; [simpl; lra|].
  destruct xs as [|x0 [|x1 xs]]; try (simpl; lra).
  specialize (IH (z1 :: zs) (x1 :: xs) Hlen). simpl combine in *. simpl map in *.
  rewrite !Rtrapz_cons2. rewrite IH. simpl. lra.
Qed.

(** difference of two integrands *)
Lemma Rtrapz_sub ys : forall zs xs, length ys = length zs ->
  Rtrapz (map (fun p => fst p - snd p) (combine ys zs)) xs = Rtrapz ys xs - Rtrapz zs xs.
Proof.
  induction ys as [|y0 ys IH]; intros zs xs Hlen; destruct zs as [|z0 zs]; try discriminate;
    [simpl; lra|].
  injection Hlen as Hlen.
  destruct ys as [|y1 ys]; destruct zs as [|z1 zs]; try discriminate; [simpl; lra|].
  destruct xs as [|x0 [|x1 xs]]; try (simpl; lra).
  specialize (IH (z1 :: zs) (x1 :: xs) Hlen). simpl combine in *. simpl map in *.
  rewrite !Rtrapz_cons2. rewrite IH. simpl. lra.
Qed.

(** weighted mean: [m <= f <= M] on the samples bounds the weighted integral *)
Lemma Rtrapz_weighted_bounds m M fs ws xs :
  length fs = length ws ->
  Sorted Rle xs -> Forall (fun w => 0 <= w) ws -> Forall (fun f => m <= f <= M) fs ->
  m * Rtrapz ws xs <= Rtrapz (Rvmul fs ws) xs <= M * Rtrapz ws xs.
Proof.
  intros Hlen Hs Hw Hf. rewrite <- !Rtrapz_scale. split; apply Rtrapz_le; auto.
  - revert ws Hlen Hw. induction fs as [|f fs IH]; intros [|w ws] Hlen Hw; try discriminate;
      try rewrite Rvmul_cons; simpl; constructor.
    + inversion Hf; inversion Hw; subst. apply Rmult_le_compat_r; lra.
    + apply IH; auto; inversion Hf; inversion Hw; subst; auto.
  - revert ws Hlen Hw. induction fs as [|f fs IH]; intros [|w ws] Hlen Hw; try discriminate;
      try rewrite Rvmul_cons; simpl; constructor.
    + inversion Hf; inversion Hw; subst. apply Rmult_le_compat_r; lra.
    + apply IH; auto; inversion Hf; inversion Hw; subst; auto.
Qed.

Lemma Rvmul_rev a : forall b, length a = length b -> Rvmul (rev a) (rev b) = rev (Rvmul a b).
Proof.
  induction a as [|x a IH]; intros [|y b] Hlen; try discriminate; auto.
  injection Hlen as Hlen. rewrite Rvmul_cons. simpl rev. rewrite <- IH by auto.
  unfold Rvmul.
  assert (Hl : length (rev a) = length (rev b)) by (rewrite !rev_length; auto).
  revert Hl. generalize (rev a) (rev b). clear.
  intros l; induction l as [|u l IH]; intros [|v l'] H; try discriminate; auto.
  simpl. f_equal. apply IH. simpl in H. lia.
Qed.

Lemma Rvmul_scale_r k a : forall b, Rvmul a (map (Rmult k) b) = map (Rmult k) (Rvmul a b).
Proof.
  induction a as [|x a IH]; intros [|y b]; simpl; auto.
  unfold Rvmul in *. simpl. f_equal; [ring|]. apply IH.
Qed.

Lemma Rvmul_scale_l k a : forall b, Rvmul (map (Rmult k) a) b = map (Rmult k) (Rvmul a b).
Proof.
  induction a as [|x a IH]; intros [|y b]; simpl; auto.
  unfold Rvmul in *. simpl. f_equal; [ring|]. apply IH.
Qed.
