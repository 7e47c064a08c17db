(** Lemmas about array broadcasting (M_Nir). *)
From Coq Require Import String List Bool Arith Lia.
From Verif Require Import Base NumSig M_Nir S_Nir.
Import ListNotations.
Local Open Scope nat_scope.

Lemma shape_eqb_iff a : forall b, shape_eqb a b = true <-> a = b.
Proof.
  induction a as [|x a IH]; intros [|y b]; simpl; try (split; [discriminate|discriminate]); [tauto|].
  rewrite andb_true_iff, Nat.eqb_eq, IH. split; [intros [-> ->]|intros [= -> ->]]; auto.
Qed.
Lemma shape_eqb_refl a : shape_eqb a a = true. Proof. now apply shape_eqb_iff. Qed.
Lemma shape_eqb_false a b : a <> b -> shape_eqb a b = false.
Proof. destruct (shape_eqb a b) eqn:E; auto. apply shape_eqb_iff in E. tauto. Qed.

Lemma zip_length {A B C} (f : A -> B -> C) a b : List.length (zip_with f a b) = Nat.min (List.length a) (List.length b).
Proof. unfold zip_with. now rewrite map_length, combine_length. Qed.
Lemma zip_nth {A B C} (f : A -> B -> C) a : forall b k x y, nth_error a k = Some x -> nth_error b k = Some y ->
  nth_error (zip_with f a b) k = Some (f x y).
Proof.
  induction a as [|a0 a IH]; intros [|b0 b] [|k] x y; simpl; try discriminate.
  - intros [= ->] [= ->]. reflexivity.
  - apply IH.
Qed.
Lemma zip_repeat_r {A B C} (f : A -> B -> C) y a : zip_with f a (repeat y (List.length a)) = map (fun x => f x y) a.
Proof. induction a as [|x a IH]; simpl; auto. unfold zip_with in *. simpl. now rewrite IH. Qed.
Lemma zip_repeat_l {A B C} (f : A -> B -> C) x b : zip_with f (repeat x (List.length b)) b = map (f x) b.
Proof. induction b as [|y b IH]; simpl; auto. unfold zip_with in *. simpl. now rewrite IH. Qed.

Lemma blocks_concat {A} k : forall n (l : list A), List.length l = n * k -> concat (blocks n k l) = l.
Proof.
  induction n as [|n IH]; intros l H; simpl in *.
  - now apply length_zero_iff_nil in H.
  - rewrite IH by (rewrite skipn_length; lia). apply firstn_skipn.
Qed.
Lemma blocks_length {A} k : forall n (l : list A), List.length l = n * k -> Forall (fun b => List.length b = k) (blocks n k l).
Proof.
  induction n as [|n IH]; intros l H; simpl in *; constructor.
  - rewrite firstn_length. lia.
  - apply IH. rewrite skipn_length. lia.
Qed.
Lemma expand_same {A} : forall s (l : list A), List.length l = size s -> expand s s l = l.
Proof.
  induction s as [|x s IH]; intros l H; simpl; auto. rewrite Nat.eqb_refl.
  change (size (x :: s)) with (x * size s) in H.
  rewrite (map_ext_Forall _ id); [rewrite map_id; now apply blocks_concat|].
  eapply Forall_impl; [|apply blocks_length; exact H]. intros b Hb. now apply IH.
Qed.
Lemma size_ones n : size (repeat 1 n) = 1.
Proof. induction n; simpl; auto. rewrite IHn. reflexivity. Qed.
Lemma concat_same {A} (x : A) k n : concat (map (fun _ => repeat x k) (seq 0 n)) = repeat x (n * k).
Proof.
  generalize 0. induction n as [|n IH]; intros m; simpl; auto. rewrite IH. now rewrite repeat_app.
Qed.
Lemma expand_single {A} (x : A) : forall s, expand (repeat 1 (List.length s)) s [x] = repeat x (size s).
Proof.
  induction s as [|y s IH]; [reflexivity|].
  change (repeat 1 (List.length (y :: s))) with (1 :: repeat 1 (List.length s)).
  change (size (y :: s)) with (y * size s). cbn [expand]. rewrite size_ones. cbn [blocks firstn map concat].
  rewrite IH, app_nil_r. destruct y as [|[|y]]; [reflexivity| |].
  - cbn [Nat.eqb]. simpl. now rewrite Nat.add_0_r.
  - cbn [Nat.eqb]. apply concat_same.
Qed.
Lemma pad_one n : 0 < n -> pad [1] n = repeat 1 n.
Proof.
  intros H. unfold pad. simpl. replace (repeat 1 n) with (repeat 1 ((n - 1) + 1)) by (f_equal; lia).
  now rewrite repeat_app.
Qed.
Lemma pad_self s : pad s (List.length s) = s.
Proof. unfold pad. now rewrite Nat.sub_diag. Qed.
Lemma bshape_one_r s : s <> [] -> bshape s [1] = Some s.
Proof.
  destruct s as [|x s]; [congruence|]. intros _. cbn [bshape]. replace (bshape s []) with (Some s) by now destruct s.
  destruct (Nat.eqb x 1) eqn:E; [reflexivity|]. simpl. reflexivity.
Qed.
Lemma bshape_one_l s : s <> [] -> bshape [1] s = Some s.
Proof.
  destruct s as [|x s]; [congruence|]. intros _. cbn [bshape].
  destruct x as [|[|x]]; simpl; auto.
Qed.
Lemma rev_ne {A} (l : list A) : l <> [] -> rev l <> [].
Proof. intros H E. apply (f_equal (@rev A)) in E. rewrite rev_involutive in E. auto. Qed.

Section Bcast.
  Context {N : Num}.
  Definition mkf (s : list nat) (d : list N) : arr N := {| a_dtype := Float64; a_shape := s; a_data := d |}.

  Lemma bmap2_same f (a b : arr N) : a_shape a = a_shape b -> bmap2 f a b = Ok (mkf (a_shape a) (zip_with f (a_data a) (a_data b))).
  Proof. intros H. unfold bmap2. rewrite H, shape_eqb_refl. reflexivity. Qed.
  Lemma bmap2_single_r f (a b : arr N) y : List.length (a_data a) = size (a_shape a) -> a_data b = [y] ->
    a_shape b = [] \/ a_shape b = [1] ->
    exists s, bmap2 f a b = Ok (mkf s (map (fun x => f x y) (a_data a))) /\ (s = a_shape a \/ a_shape a = [] /\ s = [1]).
  Proof.
    intros HL Hb Hs. destruct a as [da sa la], b as [db sb lb]; cbn [a_shape a_data] in *; subst lb.
    destruct Hs as [-> | ->].
    - destruct sa as [|n sa].
      + rewrite bmap2_same by reflexivity. exists []. cbn. split; [|auto].
        cbn in HL. destruct la as [|x [|x' la]]; cbn in HL; try lia. reflexivity.
      + exists (n :: sa). split; [|auto]. unfold bmap2. cbn [a_shape a_data shape_eqb]. reflexivity.
    - destruct sa as [|n sa].
      + exists [1]. split; [|auto]. cbn in HL. destruct la as [|x [|x' la]]; cbn in HL; try lia. reflexivity.
      + exists (n :: sa). split; [|auto]. unfold bmap2. cbn [a_shape a_data].
        destruct (shape_eqb (n :: sa) [1]) eqn:E.
        * apply shape_eqb_iff in E. injection E as -> ->. cbn in HL. destruct la as [|x [|x' la]]; cbn in HL; try lia. reflexivity.
        * replace (bshape (rev (n :: sa)) (rev [1])) with (Some (rev (n :: sa)))
            by (symmetry; apply bshape_one_r, rev_ne; discriminate).
          rewrite rev_involutive, pad_self, expand_same by exact HL.
          rewrite pad_one by (cbn; lia). rewrite expand_single, <- HL, zip_repeat_r. reflexivity.
  Qed.
  Lemma bmap2_single_l f (a b : arr N) x : List.length (a_data b) = size (a_shape b) -> a_data a = [x] ->
    a_shape a = [] \/ a_shape a = [1] ->
    exists s, bmap2 f a b = Ok (mkf s (map (f x) (a_data b))) /\ (s = a_shape b \/ a_shape b = [] /\ s = [1]).
  Proof.
    intros HL Hb Hs. destruct a as [da sa la], b as [db sb lb]; cbn [a_shape a_data] in *; subst la.
    destruct Hs as [-> | ->].
    - destruct sb as [|n sb].
      + rewrite bmap2_same by reflexivity. exists []. cbn. split; [|auto].
        cbn in HL. destruct lb as [|y [|y' lb]]; cbn in HL; try lia. reflexivity.
      + exists (n :: sb). split; [|auto]. unfold bmap2. cbn [a_shape a_data shape_eqb]. reflexivity.
    - destruct sb as [|n sb].
      + exists [1]. split; [|auto]. cbn in HL. destruct lb as [|y [|y' lb]]; cbn in HL; try lia. reflexivity.
      + exists (n :: sb). split; [|auto]. unfold bmap2. cbn [a_shape a_data].
        destruct (shape_eqb [1] (n :: sb)) eqn:E.
        * apply shape_eqb_iff in E. injection E as <- <-. cbn in HL. destruct lb as [|y [|y' lb]]; cbn in HL; try lia. reflexivity.
        * replace (bshape (rev [1]) (rev (n :: sb))) with (Some (rev (n :: sb)))
            by (symmetry; apply bshape_one_l, rev_ne; discriminate).
          rewrite rev_involutive, pad_self, expand_same by exact HL.
          rewrite pad_one by (cbn; lia). rewrite expand_single, <- HL, zip_repeat_l. reflexivity.
  Qed.

  Lemma pix_some s (a : arr N) k : fits s a -> (k < size s)%nat -> exists x, pix k a = Some x.
  Proof.
    intros [[_ HL]|(x & Hx & _)] Hk; unfold pix.
    - destruct (a_data a) as [|x [|y l]] eqn:E; [cbn in HL; lia|eauto|].
      destruct (nth_error (x :: y :: l) k) eqn:E2; [eauto|]. apply nth_error_None in E2. lia.
    - rewrite Hx. eauto.
  Qed.
  Lemma pix_nth (a : arr N) k x : (k < List.length (a_data a))%nat -> (pix k a = Some x <-> nth_error (a_data a) k = Some x).
  Proof.
    unfold pix. destruct (a_data a) as [|y [|z l]]; intros H; [cbn in H; lia| |tauto].
    destruct k; [tauto|cbn in H; lia].
  Qed.
  Lemma pix_map f (a : arr N) k : pix k (arr_map f a) = option_map f (pix k a).
  Proof.
    unfold pix, arr_map. cbn [a_data]. destruct (a_data a) as [|x [|y l]]; cbn [map].
    - now destruct k.
    - reflexivity.
    - destruct k; [reflexivity|]. cbn [nth_error]. destruct k; [reflexivity|]. cbn [nth_error].
      revert k. induction l as [|z l IH]; intros [|k]; cbn; auto.
  Qed.
  Lemma fits_map f s (a : arr N) : fits s a -> fits s (arr_map f a).
  Proof.
    intros [[H1 H2]|(x & Hx & H)].
    - left. cbn. now rewrite map_length.
    - right. exists (f x). cbn. now rewrite Hx.
  Qed.

  Lemma bmap2_fits f s (a b : arr N) : fits s a -> fits s b ->
    exists c, bmap2 f a b = Ok c /\ a_dtype c = Float64 /\ fits s c /\ forall k, (k < size s)%nat -> exists x y, pix k a = Some x /\ pix k b = Some y /\ pix k c = Some (f x y).
  Proof.
    intros Ha Hb.
    assert (Hpx : forall c, (forall k x y, (k < size s)%nat -> pix k a = Some x -> pix k b = Some y -> pix k c = Some (f x y)) ->
              forall k, (k < size s)%nat -> exists x y, pix k a = Some x /\ pix k b = Some y /\ pix k c = Some (f x y)).
    { intros c H k Hk. destruct (pix_some s a k Ha Hk) as [x Hx]. destruct (pix_some s b k Hb Hk) as [y Hy].
      exists x, y. auto. }
    destruct Ha as [[A1 A2]|(x & Hx & A)]; destruct Hb as [[B1 B2]|(y & Hy & B)].
    - rewrite bmap2_same by congruence. eexists. split; [reflexivity|]. split; [reflexivity|].
      assert (L : List.length (zip_with f (a_data a) (a_data b)) = size s) by (rewrite zip_length; lia).
      split; [left; cbn; auto|]. apply Hpx. intros k x y Hk Pa Pb.
      apply pix_nth in Pa; [|lia]. apply pix_nth in Pb; [|lia].
      apply pix_nth; [cbn; lia|]. cbn [a_data mkf]. now apply zip_nth.
    - edestruct (bmap2_single_r f a b y) as (s' & E & Hs); [congruence|exact Hy|exact B|]. rewrite E.
      eexists. split; [reflexivity|]. split; [reflexivity|]. split.
      + destruct Hs as [-> | [H0 ->]]; [left; cbn; now rewrite map_length|].
        right. rewrite <- A1, H0 in A2. cbn in A2. destruct (a_data a) as [|x [|]]; cbn in A2; [discriminate| |discriminate].
        exists (f x y). cbn. auto.
      + apply Hpx. intros k x y' Hk Pa Pb. unfold pix in Pb. rewrite Hy in Pb. injection Pb as <-.
        change (pix k (arr_map (fun x => f x y) a) = Some (f x y)). now rewrite pix_map, Pa.
    - edestruct (bmap2_single_l f a b x) as (s' & E & Hs); [congruence|exact Hx|exact A|]. rewrite E.
      eexists. split; [reflexivity|]. split; [reflexivity|]. split.
      + destruct Hs as [-> | [H0 ->]]; [left; cbn; now rewrite map_length|].
        right. rewrite <- B1, H0 in B2. cbn in B2. destruct (a_data b) as [|y [|]]; cbn in B2; [discriminate| |discriminate].
        exists (f x y). cbn. auto.
      + apply Hpx. intros k x' y Hk Pa Pb. unfold pix in Pa. rewrite Hx in Pa. injection Pa as <-.
        change (pix k (arr_map (f x) b) = Some (f x y)). now rewrite pix_map, Pb.
    - assert (L : List.length (a_data a) = size (a_shape a)) by (rewrite Hx; destruct A as [-> | ->]; reflexivity).
      edestruct (bmap2_single_r f a b y) as (s' & E & Hs); [exact L|exact Hy|exact B|]. rewrite E.
      eexists. split; [reflexivity|]. split; [reflexivity|]. split.
      + right. exists (f x y). cbn. rewrite Hx. split; [reflexivity|].
        destruct Hs as [-> | [_ ->]]; auto.
      + apply Hpx. intros k x' y' Hk Pa Pb. unfold pix in *. rewrite Hx in Pa. rewrite Hy in Pb.
        injection Pa as <-. injection Pb as <-. cbn. now rewrite Hx.
  Qed.
End Bcast.
