(** sort_data: sorting and de-duplication (C52). *)
From Coq Require Import Reals Lra ZArith List Lia Bool Arith Sorting.Permutation Sorting.Sorted.
From Verif Require Import Base NumSig XR P_Trapz M_Utils S_Utils P_Utils P_RadTb.
Import ListNotations.
Local Open Scope nat_scope.

(** the real-number counterpart of the masking after the first sample *)
Fixpoint ded {A} (prev : R) (xs : list R) (l : list A) : list A :=
  match xs, l with
  | x :: xt, a :: t => if Rlt_dec prev x then a :: ded x xt t else ded x xt t
  | _, _ => []
  end.

Lemma increases_cons (a b : R) t :
  increases (map Fin (a :: b :: t)) = Rltb a b :: increases (map Fin (b :: t)).
Proof.
  cbn [map increases]. f_equal. rewrite n0_fin. cbn. unfold Rltb.
  destruct (Rlt_dec 0 (b - a)), (Rlt_dec a b); auto; lra.
Qed.

Lemma select_ded {A} xs : forall prev (l : list A), length l = length xs ->
  select l (increases (map Fin (prev :: xs))) = Ok (ded prev xs l).
Proof.
  induction xs as [|x xs IH]; intros prev l Hl; destruct l as [|a l]; try discriminate.
  - reflexivity.
  - rewrite increases_cons. cbn [select]. rewrite IH by (simpl in Hl; lia).
    cbn [bind ded]. unfold Rltb. destruct (Rlt_dec prev x); reflexivity.
Qed.

Lemma ded_length {A B} xs : forall prev (l : list A) (m : list B), length l = length m ->
  length (ded prev xs l) = length (ded prev xs m).
Proof.
  induction xs as [|x xs IH]; intros prev l m H; [reflexivity|].
  destruct l, m; try discriminate; [reflexivity|]. cbn [ded].
  destruct (Rlt_dec prev x); cbn [length]; auto.
Qed.

Lemma ded_pairs {A B} xs : forall prev (l : list A) (m : list B) v, length l = length m ->
  In v (combine (ded prev xs l) (ded prev xs m)) -> In v (combine l m).
Proof.
  induction xs as [|x xs IH]; intros prev l m v H Hin; [destruct Hin|].
  destruct l, m; try discriminate; [destruct Hin|]. cbn [ded] in Hin.
  cbn [combine]. simpl in H. destruct (Rlt_dec prev x).
  - destruct Hin as [<-|Hin]; [now left|right; eapply IH; eauto].
  - right; eapply IH; eauto.
Qed.

Lemma ded_in xs : forall prev v, Sorted Rle (prev :: xs) ->
  (In v (prev :: ded prev xs xs) <-> In v (prev :: xs)).
Proof.
  induction xs as [|x xs IH]; intros prev v Hs; [reflexivity|].
  pose proof (Sorted_head2 _ _ _ _ Hs) as Hpx. apply Sorted_tail in Hs.
  specialize (IH x v Hs). cbn [ded].
  destruct (Rlt_dec prev x).
  - cbn [In] in *. tauto.
  - assert (prev = x) by lra. subst. cbn [In] in *. tauto.
Qed.

Lemma ded_sorted xs : forall prev, Sorted Rle (prev :: xs) -> Sorted Rlt (prev :: ded prev xs xs).
Proof.
  induction xs as [|x xs IH]; intros prev Hs; [repeat constructor|].
  pose proof (Sorted_head2 _ _ _ _ Hs) as Hpx. apply Sorted_tail in Hs.
  specialize (IH x Hs). cbn [ded]. destruct (Rlt_dec prev x).
  - constructor; auto.
  - assert (prev = x) by lra. now subst.
Qed.

Lemma ded_strict {A} xs : forall prev (l : list A), length l = length xs ->
  Sorted Rlt (prev :: xs) -> ded prev xs l = l.
Proof.
  induction xs as [|x xs IH]; intros prev l Hl Hs; destruct l; try discriminate; [reflexivity|].
  pose proof (Sorted_head2 _ _ _ _ Hs). apply Sorted_tail in Hs. cbn [ded].
  destruct (Rlt_dec prev x); [|lra]. f_equal. apply IH; auto.
Qed.

(** ** Fancy indexing *)
Lemma take_idx_ok {A} (l : list A) idxs : (forall i, In i idxs -> i < length l) ->
  exists r, take_idx l idxs = Ok r /\ length r = length idxs /\
            forall k, nth_error r k = match nth_error idxs k with Some i => nth_error l i | None => None end.
Proof.
  induction idxs as [|i idxs IH]; intros H.
  - exists []. repeat split. intros k. destruct k; reflexivity.
  - destruct IH as (r & E & Hl & Hn). { intros j Hj. apply H. now right. }
    assert (Hi : i < length l) by (apply H; now left).
    destruct (nth_error l i) as [a|] eqn:Ea; [|apply nth_error_None in Ea; lia].
    exists (a :: r). unfold take_idx in *. cbn [mapM]. rewrite Ea. cbn [of_option bind].
    rewrite E. cbn [bind]. repeat split; [simpl; lia|].
    intros [|k]; cbn [nth_error]; [congruence|apply Hn].
Qed.

Lemma take_idx_map {A B} (f : A -> B) l idxs r :
  take_idx l idxs = Ok r -> take_idx (map f l) idxs = Ok (map f r).
Proof.
  revert r; induction idxs as [|i idxs IH]; intros r; unfold take_idx; cbn [mapM].
  - intros [= <-]. reflexivity.
  - intros H. rewrite nth_error_map. destruct (nth_error l i); [|discriminate].
    cbn [of_option bind option_map] in *.
    change (mapM (fun i => of_option IndexError (nth_error l i)) idxs) with (take_idx l idxs) in H.
    change (mapM (fun i => of_option IndexError (nth_error (map f l) i)) idxs) with (take_idx (map f l) idxs).
    destruct (take_idx l idxs); [|discriminate]. cbn [bind] in H. injection H as <-.
    rewrite (IH _ eq_refl). reflexivity.
Qed.

Lemma nth_error_ext' {A} (l m : list A) : (forall k, nth_error l k = nth_error m k) -> l = m.
Proof.
  revert m; induction l as [|a l IH]; intros [|b m] H; auto.
  - specialize (H 0). discriminate.
  - specialize (H 0). discriminate.
  - f_equal; [specialize (H 0); simpl in H; congruence|]. apply IH. intros k. apply (H (S k)).
Qed.

Lemma take_idx_seq {A} (l : list A) : take_idx l (seq 0 (length l)) = Ok l.
Proof.
  destruct (take_idx_ok l (seq 0 (length l))) as (r & E & Hl & Hn).
  { intros i Hi. apply in_seq in Hi. lia. }
  rewrite E. f_equal. apply nth_error_ext'. intros k. rewrite Hn.
  destruct (Nat.lt_ge_cases k (length l)) as [Hk|Hk].
  - rewrite (nth_error_nth' _ 0) by (rewrite seq_length; auto). now rewrite seq_nth.
  - rewrite (proj2 (nth_error_None (seq 0 (length l)) k)) by (rewrite seq_length; auto).
    symmetry. now apply nth_error_None.
Qed.

Lemma nth_error_combine {A B} (l : list A) (m : list B) k a b :
  nth_error (combine l m) k = Some (a, b) <-> nth_error l k = Some a /\ nth_error m k = Some b.
Proof.
  revert m k; induction l as [|x l IH]; intros [|y m] [|k]; cbn [combine nth_error]; split;
    try discriminate; try (intros [? ?]; discriminate).
  - intros [= -> ->]. auto.
  - intros [[= ->] [= ->]]. auto.
  - apply IH.
  - apply IH.
Qed.

(** taking along a permutation of the indices permutes *)
Lemma take_idx_perm {A} (l : list A) idxs r : Permutation idxs (seq 0 (length l)) ->
  take_idx l idxs = Ok r -> Permutation r l.
Proof.
  intros HP E.
  assert (Hgen : forall i1 i2, Permutation i1 i2 -> forall r1, take_idx l i1 = Ok r1 ->
            exists r2, take_idx l i2 = Ok r2 /\ Permutation r1 r2).
  { induction 1; intros r1 H1.
    - exists r1. injection H1 as <-. split; auto.
    - unfold take_idx in *. cbn [mapM] in *.
      destruct (nth_error l x); [|discriminate]. cbn [of_option bind] in *.
      destruct (mapM _ l0) eqn:E1; [|discriminate]. destruct (IHPermutation _ eq_refl) as (r2 & E2 & P2).
      rewrite E2. cbn [bind] in *. injection H1 as <-. eexists; split; eauto.
    - unfold take_idx in *. cbn [mapM] in *.
      destruct (nth_error l y); [|discriminate]. cbn [of_option bind] in *.
      destruct (nth_error l x); [|discriminate]. cbn [of_option bind] in *.
      destruct (mapM _ l0) eqn:E1; [|discriminate]. cbn [bind] in *. injection H1 as <-.
      eexists; split; eauto. constructor.
    - destruct (IHPermutation1 _ H1) as (r2 & E2 & P2). destruct (IHPermutation2 _ E2) as (r3 & E3 & P3).
      exists r3. split; auto. etransitivity; eauto. }
  destruct (Hgen _ _ HP _ E) as (r2 & E2 & P2). rewrite take_idx_seq in E2. injection E2 as <-. auto.
Qed.

Lemma take_idx_combine {A B} (l : list A) (m : list B) idxs r s :
  take_idx l idxs = Ok r -> take_idx m idxs = Ok s ->
  take_idx (combine l m) idxs = Ok (combine r s).
Proof.
  revert r s; induction idxs as [|i idxs IH]; intros r s; unfold take_idx; cbn [mapM].
  - intros [= <-] [= <-]. reflexivity.
  - intros H1 H2. destruct (nth_error l i) eqn:El; [|discriminate]. destruct (nth_error m i) eqn:Em; [|discriminate].
    cbn [of_option bind] in *.
    destruct (mapM (fun i0 => of_option IndexError (nth_error l i0)) idxs) eqn:E1; [|discriminate].
    destruct (mapM (fun i0 => of_option IndexError (nth_error m i0)) idxs) eqn:E2; [|discriminate].
    cbn [bind] in *. injection H1 as <-. injection H2 as <-.
    specialize (IH _ _ E1 E2). unfold take_idx in IH.
    assert (Ec : nth_error (combine l m) i = Some (a, b)) by (apply nth_error_combine; auto).
    rewrite Ec. cbn [of_option bind]. rewrite IH. reflexivity.
Qed.

Lemma Sorted_of_nth (l : list R) :
  (forall i j x y, i < j -> nth_error l i = Some x -> nth_error l j = Some y -> (x <= y)%R) -> Sorted Rle l.
Proof.
  induction l as [|a l IH]; intros H; constructor.
  - apply IH. intros i j x y Hij Hx Hy. apply (H (S i) (S j)); auto. lia.
  - destruct l as [|b l]; constructor. apply (H 0 1); auto.
Qed.

Lemma argsort_take xs idxs : is_argsort xs idxs ->
  exists r, take_idx xs idxs = Ok r /\ Sorted Rle r /\ Permutation r xs /\ length r = length xs.
Proof.
  intros [HP Hs].
  destruct (take_idx_ok xs idxs) as (r & E & Hl & Hn).
  { intros i Hi. eapply Permutation_in in Hi; eauto. apply in_seq in Hi. lia. }
  exists r. split; auto. split; [|split].
  - apply Sorted_of_nth. intros i j x y Hij Hx Hy. rewrite Hn in Hx, Hy.
    destruct (nth_error idxs i) as [a|] eqn:Ea; [|discriminate].
    destruct (nth_error idxs j) as [b|] eqn:Eb; [|discriminate].
    eapply Hs; eauto.
  - eapply take_idx_perm; eauto.
  - rewrite Hl. erewrite Permutation_length by eauto. apply seq_length.
Qed.

Lemma strict_perm_sorted l : forall m, StronglySorted Rlt l -> Sorted Rle m -> Permutation m l -> m = l.
Proof.
  induction l as [|a l IH]; intros m Hl Hm HP.
  - apply Permutation_sym, Permutation_nil in HP. auto.
  - destruct m as [|b m]; [apply Permutation_nil in HP; discriminate|].
    inversion Hl as [|? ? Hl' Hf]; subst. rewrite Forall_forall in Hf.
    apply Sorted_StronglySorted in Hm; [|intros x y z; apply Rle_trans].
    inversion Hm as [|? ? Hm' Hg]; subst. rewrite Forall_forall in Hg.
    assert (b = a).
    { assert (Ha : In a (b :: m)) by (eapply Permutation_in; [apply Permutation_sym; eauto|now left]).
      assert (Hb : In b (a :: l)) by (eapply Permutation_in; [eauto|now left]).
      destruct Ha as [Ha|Ha]; auto. destruct Hb as [Hb|Hb]; auto.
      specialize (Hg _ Ha). specialize (Hf _ Hb). lra. }
    subst b. f_equal. apply IH; auto.
    + apply StronglySorted_Sorted; auto.
    + eapply Permutation_cons_inv; eauto.
Qed.

Lemma Rlt_strong l : Sorted Rlt l -> StronglySorted Rlt l.
Proof. apply Sorted_StronglySorted. intros x y z; apply Rlt_trans. Qed.

Lemma strong_nodup l : StronglySorted Rlt l -> NoDup l.
Proof.
  induction 1 as [|a l Hl IH Hf]; constructor; auto.
  intros Hin. rewrite Forall_forall in Hf. specialize (Hf _ Hin). lra.
Qed.

Lemma nodup_sorted_strict l : NoDup l -> Sorted Rle l -> Sorted Rlt l.
Proof.
  induction l as [|a l IH]; intros Hn Hs; constructor.
  - inversion Hn; subst. apply IH; auto. eapply Sorted_tail; eauto.
  - destruct l as [|b l]; constructor. pose proof (Sorted_head2 _ _ _ _ Hs).
    inversion Hn as [|? ? Hna Hnl]; subst. assert (a <> b) by (intros ->; apply Hna; now left). lra.
Qed.

Lemma sort_data_eq xs ys idxs : is_argsort xs idxs -> length ys = length xs -> xs <> [] ->
  exists x0 xr y0 yr,
    sort_data idxs (map Fin xs) (map Fin ys) =
      Ok (map Fin (x0 :: ded x0 xr xr), map Fin (y0 :: ded x0 xr yr)) /\
    take_idx xs idxs = Ok (x0 :: xr) /\ take_idx ys idxs = Ok (y0 :: yr) /\
    Sorted Rle (x0 :: xr) /\ Permutation (x0 :: xr) xs /\ length yr = length xr /\
    Permutation (combine (x0 :: xr) (y0 :: yr)) (combine xs ys).
Proof.
  intros Ha Hl Hne.
  destruct (argsort_take _ _ Ha) as (r & Er & Hs & HP & Hlr).
  destruct Ha as [HPi Hai].
  destruct (take_idx_ok ys idxs) as (s & Es & Hls & _).
  { intros i Hi. eapply Permutation_in in Hi; eauto. apply in_seq in Hi. lia. }
  assert (Hlen : length s = length r).
  { rewrite Hls, Hlr. erewrite Permutation_length by eauto. apply seq_length. }
  destruct r as [|x0 xr]; [destruct xs; [congruence|discriminate]|].
  destruct s as [|y0 yr]; [discriminate|].
  exists x0, xr, y0, yr. split; [|repeat split; auto].
  - unfold sort_data. change (num XRN) with XR. rewrite (take_idx_map Fin _ _ _ Er), (take_idx_map Fin _ _ _ Es).
    cbn [bind]. change (map Fin (x0 :: xr)) with (Fin x0 :: map Fin xr) at 1.
    change (map Fin (y0 :: yr)) with (Fin y0 :: map Fin yr) at 1.
    cbn [select].
    assert (Hded : forall zs, length zs = length xr ->
        select (map Fin zs) (increases (map Fin (x0 :: xr))) = Ok (map Fin (ded x0 xr zs))).
    { intros zs Hz. rewrite select_ded by (rewrite map_length; auto). f_equal.
      clear. revert x0 zs. induction xr as [|x xr IH]; intros x0 zs; [reflexivity|].
      destruct zs; cbn [map ded]; auto. destruct (Rlt_dec x0 x); cbn [map]; now rewrite IH. }
    change (@num XRN) with XR in *.
    rewrite Hded by auto. cbn [bind]. rewrite Hded by (simpl in Hlen; lia). reflexivity.
  - eapply take_idx_perm; [|apply take_idx_combine; eauto].
    rewrite combine_length, Hl, Nat.min_id. exact HPi.
Qed.

Theorem sort_data_spec : forall xs ys idxs, is_argsort xs idxs -> length ys = length xs -> xs <> [] ->
  exists xs' ys', sort_data idxs (map Fin xs) (map Fin ys) = Ok (map Fin xs', map Fin ys') /\
    length ys' = length xs' /\ Sorted Rlt xs' /\
    (forall v, In v xs' <-> In v xs) /\
    (forall p, In p (combine xs' ys') -> In p (combine xs ys)) /\
    (NoDup xs -> Permutation (combine xs' ys') (combine xs ys)) /\
    (Sorted Rlt xs -> xs' = xs /\ ys' = ys).
Proof.
  intros xs ys idxs Ha Hl Hne.
  destruct (sort_data_eq _ _ _ Ha Hl Hne) as (x0 & xr & y0 & yr & E & Ex & Ey & Hs & HP & Hlr & HPc).
  exists (x0 :: ded x0 xr xr), (y0 :: ded x0 xr yr). split; [exact E|].
  split; [cbn [length]; f_equal; apply ded_length; auto|].
  split; [apply ded_sorted; auto|]. split; [|split; [|split]].
  - intros v. rewrite ded_in by auto. split; apply Permutation_in; auto. now apply Permutation_sym.
  - intros p Hp. eapply Permutation_in; [exact HPc|]. cbn [combine] in *.
    destruct Hp as [<-|Hp]; [now left|right]. eapply ded_pairs; eauto.
  - intros Hn. assert (Hst : Sorted Rlt (x0 :: xr)).
    { apply nodup_sorted_strict; auto. eapply Permutation_NoDup; [apply Permutation_sym|]; eauto. }
    rewrite !ded_strict by auto. exact HPc.
  - intros Hst. assert (Hxr : x0 :: xr = xs) by (apply strict_perm_sorted; auto; apply Rlt_strong; auto).
    assert (Hi : idxs = seq 0 (length xs)).
    { destruct Ha as [HPi Hsi]. subst xs.
      assert (Hnd : NoDup (x0 :: xr)) by (apply strong_nodup, Rlt_strong; auto).
      destruct (take_idx_ok (x0 :: xr) idxs) as (r & Er & Hlr' & Hn).
      { intros i Hi. eapply Permutation_in in Hi; eauto. apply in_seq in Hi. lia. }
      rewrite Ex in Er. injection Er as <-.
      apply nth_error_ext'. intros k. specialize (Hn k).
      destruct (nth_error idxs k) as [i|] eqn:Ek.
      - assert (Hk : k < length (x0 :: xr)) by (rewrite Hlr'; apply nth_error_Some; congruence).
        symmetry in Hn.
        assert (i = k).
        { rewrite NoDup_nth_error in Hnd. symmetry. apply Hnd; auto. }
        subst i. rewrite (nth_error_nth' _ 0) by (rewrite seq_length; auto). now rewrite seq_nth.
      - symmetry. apply nth_error_None. rewrite seq_length. apply nth_error_None in Ek. lia. }
    subst idxs. rewrite take_idx_seq in Ex. rewrite <- Hl, take_idx_seq in Ey.
    injection Ey as ->. injection Ex as Ex. rewrite Ex in *. clear Ex.
    rewrite !ded_strict by auto. auto.
Qed.

(** the empty case: the mask has one element, the arrays none *)
Lemma sort_data_empty : forall idxs ys, is_argsort [] idxs -> sort_data idxs [] (map Fin ys) = Err IndexError.
Proof.
  intros idxs ys [HP _]. simpl in HP. apply Permutation_sym, Permutation_nil in HP. subst. reflexivity.
Qed.
