(** sort_data on doubles. *)
From Coq Require Import ZArith Reals Lra Lia List Bool SpecFloat Sorting.Sorted Sorting.Permutation.
From Flocq Require Import Core BinarySingleNaN.
From Verif Require Import Base NumSig XR B64 M_Utils S_Utils S_B64 P_Trapz P_Utils P_Sort P_B64 P_B64ops.
Import ListNotations.
Local Open Scope nat_scope.

Lemma select_ded64 lib {A} (xs : list b64) : forall (prev : b64) (l : list A), List.length l = List.length xs ->
  Forall is_double (prev :: xs) ->
  select l (@increases (B64N lib) (prev :: xs)) = Ok (ded (to_R prev) (map (SF2R radix2) xs) l).
Proof.
  induction xs as [|x xs IH]; intros prev l Hl HF; destruct l as [|a l]; try discriminate; [reflexivity|].
  change (@increases (B64N lib) (prev :: x :: xs)) with (SFltb (S754_zero false) (SFsub 53 1024 x prev) :: @increases (B64N lib) (x :: xs)).
  cbn [select]. inversion HF as [|? ? [Vp Fp] HF']; subst. inversion HF' as [|? ? [Vx Fx] _]; subst.
  rewrite IH by (auto; simpl in Hl; lia). cbn [bind ded map].
  rewrite sub_sign by auto. destruct (Rlt_dec (to_R prev) (to_R x)); [rewrite Rlt_bool_true by auto|rewrite Rlt_bool_false by lra]; reflexivity.
Qed.

Lemma ded_map {A B} (f : A -> B) xs : forall prev l, map f (ded prev xs l) = ded prev xs (map f l).
Proof.
  induction xs as [|x xs IH]; intros prev [|a l]; cbn [ded map]; auto. destruct (Rlt_dec prev x); cbn [map]; now rewrite IH.
Qed.

Lemma sort_doubles : forall lib X (Y : list b64) idxs, is_argsort (map to_R X) idxs -> Forall is_double X ->
  List.length Y = List.length X -> X <> [] ->
  exists X' Y', @sort_data (B64N lib) idxs X Y = Ok (X', Y') /\
    List.length Y' = List.length X' /\ Sorted Rlt (map to_R X') /\
    (forall v, In v (map to_R X') <-> In v (map to_R X)) /\
    (forall p, In p (combine X' Y') -> In p (combine X Y)) /\
    (Sorted Rlt (map to_R X) -> X' = X /\ Y' = Y).
Proof.
  intros lib X Y idxs Ha HF Hl Hne.
  destruct (argsort_take _ _ Ha) as (r & Er & Hs & HP & Hlr).
  pose proof Ha as [HPi Hai]. rewrite map_length in HPi.
  assert (Hin : forall i, In i idxs -> i < List.length X).
  { intros i Hi. eapply Permutation_in in Hi; eauto. apply in_seq in Hi. lia. }
  destruct (take_idx_ok X idxs Hin) as (rx & Ex & Lx & Nx).
  destruct (take_idx_ok Y idxs) as (ry & Ey & Ly & Ny). { rewrite Hl. exact Hin. }
  pose proof (take_idx_map to_R _ _ _ Ex) as Ex'. rewrite Er in Ex'. injection Ex' as ->.
  assert (PX : Permutation rx X) by (eapply take_idx_perm; eauto).
  assert (PC : Permutation (combine rx ry) (combine X Y)).
  { eapply take_idx_perm; [|apply take_idx_combine; eauto]. rewrite combine_length, Hl, Nat.min_id. exact HPi. }
  assert (HFr : Forall is_double rx).
  { apply Forall_forall. intros x Hx. rewrite Forall_forall in HF. apply HF. eapply Permutation_in; eauto. }
  destruct rx as [|x0 xr]. { apply Permutation_nil in PX. congruence. }
  assert (Lyr : List.length ry = List.length (x0 :: xr)) by congruence.
  destruct ry as [|y0 yr]; [discriminate|]. injection Lyr as Lyr.
  exists (x0 :: ded (to_R x0) (map to_R xr) xr), (y0 :: ded (to_R x0) (map to_R xr) yr).
  split.
  { unfold sort_data. change (num (B64N lib)) with spec_float. unfold b64 in *. rewrite Ex. cbn [bind]. rewrite Ey. cbn [bind].
    cbn [select]. rewrite select_ded64 by auto. cbn [bind]. rewrite select_ded64 by (auto; exact Lyr). reflexivity. }
  split; [cbn [List.length]; f_equal; apply ded_length; exact Lyr|].
  cbn [map]. rewrite ded_map.
  split; [apply ded_sorted; exact Hs|]. split; [|split].
  - intros v. rewrite ded_in by exact Hs. split; apply Permutation_in; [exact HP|apply Permutation_sym; exact HP].
  - intros p Hp. eapply Permutation_in; [exact PC|]. cbn [combine] in *.
    destruct Hp as [<-|Hp]; [now left|right]. eapply ded_pairs; eauto.
  - intros Hst. cbn [map] in HP, Hs.
    assert (Hxr : map to_R (x0 :: xr) = map to_R X) by (apply strict_perm_sorted; auto; apply Rlt_strong; auto).
    assert (Hi : idxs = seq 0 (List.length X)).
    { assert (Hnd : NoDup (map to_R X)) by (apply strong_nodup, Rlt_strong; auto).
      apply nth_error_ext'. intros k. specialize (Nx k).
      destruct (nth_error idxs k) as [i|] eqn:Ek.
      - assert (Hk : k < List.length (x0 :: xr)) by (rewrite Lx; apply nth_error_Some; congruence).
        assert (Hk' : k < List.length X) by (rewrite <- (Permutation_length PX); exact Hk).
        apply (f_equal (option_map to_R)) in Nx. rewrite <- !nth_error_map, Hxr in Nx.
        assert (i = k).
        { rewrite NoDup_nth_error in Hnd. symmetry. apply Hnd; [now rewrite map_length|exact Nx]. }
        subst i. rewrite (nth_error_nth' _ 0) by (rewrite seq_length; auto). now rewrite seq_nth.
      - symmetry. apply nth_error_None. rewrite seq_length. apply nth_error_None in Ek.
        rewrite <- Lx in Ek. rewrite <- (Permutation_length PX). exact Ek. }
    subst idxs. rewrite take_idx_seq in Ex. rewrite <- Hl, take_idx_seq in Ey. injection Ey as Ey. injection Ex as Ex. subst X Y.
    cbn [map] in Hst. rewrite !ded_strict; auto; rewrite map_length; auto.
Qed.

(** 0.1 + 0.2 comes after 0.3 and 0.0 equals -0.0 *)
Definition case_sort : list b64 := [SFadd 53 1024 (b64_ratio 1 10) (b64_ratio 2 10); S754_zero true; b64_ratio 3 10; S754_zero false].
Lemma case_sort_R : exists a b, map to_R case_sort = [b; 0; a; 0]%R /\ (0 < a < b)%R.
Proof.
  exists (to_R (b64_ratio 3 10)), (to_R (SFadd 53 1024 (b64_ratio 1 10) (b64_ratio 2 10))). split; [reflexivity|].
  pose proof (ltb_R (S754_zero false) (b64_ratio 3 10)) as L1. pose proof (ltb_R (b64_ratio 3 10) (SFadd 53 1024 (b64_ratio 1 10) (b64_ratio 2 10))) as L2.
  specialize (L1 eq_refl eq_refl eq_refl eq_refl). specialize (L2 eq_refl eq_refl eq_refl eq_refl).
  vm_compute (SFltb _ _) in L1. vm_compute (SFltb _ _) in L2. change (to_R (S754_zero false)) with 0%R in L1.
  destruct (Rlt_bool_spec 0 (to_R (b64_ratio 3 10))); [|discriminate].
  destruct (Rlt_bool_spec (to_R (b64_ratio 3 10)) (to_R (SFadd 53 1024 (b64_ratio 1 10) (b64_ratio 2 10)))); [|discriminate]. auto.
Qed.
Lemma case_sort_hyps : is_argsort (map to_R case_sort) [1; 3; 2; 0] /\ Forall is_double case_sort.
Proof.
  split.
  - destruct case_sort_R as (a & b & -> & Hab). split.
    + cbn. apply Permutation_sym. apply perm_trans with [1; 0; 2; 3]; [constructor|]. constructor.
      apply perm_trans with [3; 0; 2]; [|constructor; constructor].
      apply perm_trans with [0; 3; 2]; [constructor; constructor|constructor].
    + intros i j x y u v Hij Hi Hj Hu Hv.
      destruct i as [|[|[|[|i]]]]; [..|destruct i; discriminate]; destruct j as [|[|[|[|j]]]]; try (destruct j; discriminate); try lia;
        cbn in Hi, Hj; injection Hi as <-; injection Hj as <-; cbn in Hu, Hv; injection Hu as <-; injection Hv as <-; lra.
  - repeat constructor.
Qed.
