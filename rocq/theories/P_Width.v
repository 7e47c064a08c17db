(** Band width measures (C56-C58). *)
From Coq Require Import Reals Lra ZArith String List Lia Bool Arith Sorting.Permutation Sorting.Sorted.
From Verif Require Import Base NumSig XR P_Trapz M_Utils S_Utils P_Utils P_Sort P_RadTb.
Import ListNotations.
Local Open Scope nat_scope.

Lemma nth_error_map_Fin l i x : nth_error (map Fin l) i = Some x <-> exists r, nth_error l i = Some r /\ x = Fin r.
Proof.
  rewrite nth_error_map. destruct (nth_error l i); cbn; split.
  - intros [= <-]. eauto.
  - intros (r0 & [= ->] & ->). auto.
  - discriminate.
  - intros (r0 & H & _). discriminate.
Qed.

Lemma first_last_map_Fin (P : XR -> Prop) (Q : R -> Prop) l i j : (forall r, P (Fin r) <-> Q r) ->
  first_last P (map Fin l) i j <-> first_last Q l i j.
Proof.
  intros E. unfold first_last. split; intros (H0 & (a & Ha & Pa) & (b & Hb & Pb) & H); (split; [auto|split; [|split]]).
  - apply nth_error_map_Fin in Ha. destruct Ha as (r & Hr & ->). exists r. split; auto. now apply E.
  - apply nth_error_map_Fin in Hb. destruct Hb as (r & Hr & ->). exists r. split; auto. now apply E.
  - intros k x Hk Hx. apply (H k (Fin x)). apply nth_error_map_Fin; eauto. now apply E.
  - exists (Fin a). split. apply nth_error_map_Fin; eauto. now apply E.
  - exists (Fin b). split. apply nth_error_map_Fin; eauto. now apply E.
  - intros k x Hk Hx. apply nth_error_map_Fin in Hk. destruct Hk as (r & Hr & ->). apply (H k r); auto. now apply E.
Qed.

(** the search result, for a predicate on reals *)
Lemma where_Fin (p : XR -> bool) (Q : R -> Prop) l : (forall r, p (Fin r) = true <-> Q r) ->
  match where_ p (map Fin l) with
  | [] => Forall (fun r => ~ Q r) l
  | i0 :: rest => first_last Q l i0 (last rest i0) /\ (rest = [] -> forall i j a b, nth_error l i = Some a -> nth_error l j = Some b -> Q a -> Q b -> i = j) /\ (rest <> [] -> i0 < last rest i0)
  end.
Proof.
  intros E. destruct (where_ p (map Fin l)) as [|i0 rest] eqn:W.
  - apply Forall_forall. intros r Hr Hq. apply In_nth_error in Hr. destruct Hr as [k Hk].
    assert (In k (where_ p (map Fin l))).
    { apply where_in. exists (Fin r). split; [apply nth_error_map_Fin; eauto|]. now apply E. }
    rewrite W in H. destruct H.
  - assert (Hfl := where_first_last (N := XRN) _ _ _ _ W).
    apply (first_last_map_Fin _ Q) in Hfl; auto. split; auto. split.
    + intros ->. cbn [last] in Hfl. intros i j a b Ha Hb Qa Qb. destruct Hfl as (_ & _ & _ & H).
      pose proof (H _ _ Ha Qa). pose proof (H _ _ Hb Qb). lia.
    + intros Hne. pose proof (where_sorted (N := XRN) p (map Fin l)) as Hs. rewrite W in Hs.
      inversion Hs as [|? ? Hs' Hf]; subst. rewrite Forall_forall in Hf. apply Hf.
      destruct rest as [|b rest]; [congruence|]. rewrite last_cons_d.
      apply (proj2 (sorted_last_max _ _ Hs')).
Qed.

Lemma half_lit : (@nlit XRN 5 10) = Fin (1/2).
Proof. cbn. unfold xlit. f_equal. lra. Qed.

Lemma idx_Fin ws i : i < length ws -> exists w, nth_error ws i = Some w /\ idx (map Fin ws) i = Ok (Fin w).
Proof.
  intros H. destruct (nth_error ws i) as [w|] eqn:E; [|apply nth_error_None in E; lia].
  exists w. split; auto. unfold idx. rewrite nth_error_map, E. reflexivity.
Qed.

Lemma first_last_lt {A} (P : A -> Prop) l i j : first_last P l i j -> i < length l /\ j < length l.
Proof.
  intros (_ & (a & Ha & _) & (b & Hb & _) & _).
  split; apply nth_error_Some; congruence.
Qed.

(** FWHM: full characterisation *)
Lemma fwhm_spec : forall rs ws, length ws = length rs ->
  (forall i j wi wj, first_last (fun r => 1/2 <= r)%R rs i j -> i <> j ->
     nth_error ws i = Some wi -> nth_error ws j = Some wj ->
     get_fullwidth_halfmax (map Fin rs) (map Fin ws) = Ok (Fin (wj - wi))) /\
  ((forall i j a b, nth_error rs i = Some a -> nth_error rs j = Some b ->
      (1/2 <= a)%R -> (1/2 <= b)%R -> i = j) ->
     get_fullwidth_halfmax (map Fin rs) (map Fin ws) = Err ValueError).
Proof.
  intros rs ws Hl. unfold get_fullwidth_halfmax. rewrite half_lit.
  pose proof (where_Fin (fun r => nleb XRN (Fin (1/2)) r) (fun r => (1/2 <= r)%R) rs
     (fun r => Rleb_iff (1/2) r)) as H.
  change (num XRN) with XR in *.
  destruct (where_ _ (map Fin rs)) as [|i0 rest].
  - split; auto. intros i j wi wj Hfl _ _ _. destruct Hfl as (_ & (a & Ha & Pa) & _).
    rewrite Forall_forall in H. exfalso. apply (H a); auto. eapply nth_error_In; eauto.
  - destruct H as (Hfl & H1 & H2). split.
    + intros i j wi wj Hfl' Hij Hi Hj. destruct (first_last_unique _ _ _ _ _ _ Hfl Hfl') as [<- <-].
      destruct rest as [|b rest]; [cbn [last] in Hij; congruence|].
      unfold idx. rewrite !nth_error_map, Hi, Hj. reflexivity.
    + intros Hu. destruct rest as [|b rest]; auto. exfalso.
      specialize (H2 ltac:(discriminate)). destruct Hfl as (_ & (x & Hx & Px) & (y & Hy & Py) & _).
      specialize (Hu _ _ _ _ Hx Hy Px Py). lia.
Qed.

(** ** get_wave_range *)
Lemma central_fin ws rs : length rs = length ws ->
  get_central_wave (map Fin ws) (map Fin rs) (WScalar (@n1 XRN)) =
    Ok (xdiv (Fin (Rtrapz (Rvmul rs ws) ws)) (Fin (Rtrapz rs ws))).
Proof.
  intros H. unfold get_central_wave. rewrite (vmul_fin rs ws) by auto. cbn [bind wmul].
  rewrite n1_fin.
  assert (E : forall l, map (fun a : XRN => nmul XRN a (Fin 1)) (map Fin l) = map Fin l).
  { intros l. rewrite map_map. apply map_ext. intros a. cbn. f_equal. lra. }
  change (num XRN) with XR in *. rewrite !E.
  rewrite (trapezoid_fin (Rvmul rs ws) ws) by (rewrite Rvmul_length; auto).
  cbn [bind]. rewrite trapezoid_fin by auto. reflexivity.
Qed.

Local Open Scope string_scope.

Lemma wave_range_spec : forall (ch : detector XRN) ws rs t, length rs = length ws ->
  dget "wavelength" ch = Some (VArr (map Fin ws)) -> dget "response" ch = Some (VArr (map Fin rs)) ->
  (forall i j wi wj, first_last (fun r => t < r)%R rs i j ->
     nth_error ws i = Some wi -> nth_error ws j = Some wj ->
     get_wave_range ch (Fin t) =
       Ok (Fin wi, xdiv (Fin (Rtrapz (Rvmul rs ws) ws)) (Fin (Rtrapz rs ws)), Fin wj)) /\
  (Forall (fun r => r <= t)%R rs -> get_wave_range ch (Fin t) = Err IndexError).
Proof.
  intros ch ws rs t Hl Hw Hr. unfold get_wave_range, get_arr. rewrite Hw, Hr. cbn [bind].
  pose proof (where_Fin (fun r => nltb XRN (Fin t) r) (fun r => (t < r)%R) rs
     (fun r => Rltb_iff t r)) as H.
  pose proof (central_fin ws rs Hl) as Hc.
  change (num XRN) with XR in *. rewrite Hc. cbn [bind].
  destruct (where_ _ (map Fin rs)) as [|i0 rest].
  - split; auto. intros i j wi wj Hfl _ _. destruct Hfl as (_ & (a & Ha & Pa) & _).
    rewrite Forall_forall in H. exfalso. apply (H a); auto. eapply nth_error_In; eauto.
  - destruct H as (Hfl & _ & _). split.
    + intros i j wi wj Hfl' Hi Hj. destruct (first_last_unique _ _ _ _ _ _ Hfl Hfl') as [<- <-].
      unfold idx. rewrite !nth_error_map, Hi, Hj. reflexivity.
    + intros Hf. exfalso. destruct Hfl as (_ & (x & Hx & Px) & _).
      rewrite Forall_forall in Hf. specialize (Hf x (nth_error_In _ _ Hx)). lra.
Qed.

Lemma Sorted_nth_le (ws : list R) i j wi wj : Sorted Rle ws -> i <= j ->
  nth_error ws i = Some wi -> nth_error ws j = Some wj -> (wi <= wj)%R.
Proof.
  intros Hs. apply Sorted_StronglySorted in Hs; [|intros x y z; apply Rle_trans].
  revert i j. induction Hs as [|a l Hl IH Hf]; intros i j Hij Hi Hj.
  - destruct i; discriminate.
  - destruct i as [|i], j as [|j]; cbn [nth_error] in *.
    + injection Hi as ->. injection Hj as ->. lra.
    + injection Hi as ->. rewrite Forall_forall in Hf. apply Hf. eapply nth_error_In; eauto.
    + lia.
    + apply (IH i j); auto. lia.
Qed.

Lemma first_last_ex (p : R -> bool) l : Exists (fun x => p x = true) l -> exists i j, first_last (fun x => p x = true) l i j.
Proof.
  intros H.
  pose proof (where_Fin (fun x => match x with Fin r => p r | _ => false end) (fun r => p r = true) l
    (fun r => iff_refl _)) as HW.
  destruct (where_ _ _) as [|i0 rest].
  - exfalso. apply Exists_exists in H. destruct H as (x & Hx & Px). rewrite Forall_forall in HW. apply (HW x); auto.
  - eauto. exists i0, (last rest i0). apply HW.
Qed.

Lemma first_last_mono {A} (P Q : A -> Prop) l i j i' j' : (forall x, Q x -> P x) ->
  first_last P l i j -> first_last Q l i' j' -> i <= i' /\ j' <= j.
Proof.
  intros HQ (_ & _ & _ & H) (_ & (a & Ha & Pa) & (b & Hb & Pb) & _).
  pose proof (H _ _ Ha (HQ _ Pa)). pose proof (H _ _ Hb (HQ _ Pb)). lia.
Qed.

(** raising the threshold never widens *)
Lemma wave_range_mono : forall (ch : detector XRN) ws rs t t' lo c hi lo' c' hi',
  length rs = length ws -> Sorted Rle ws ->
  dget "wavelength" ch = Some (VArr (map Fin ws)) -> dget "response" ch = Some (VArr (map Fin rs)) ->
  (t <= t')%R ->
  get_wave_range ch (Fin t) = Ok (Fin lo, c, Fin hi) ->
  get_wave_range ch (Fin t') = Ok (Fin lo', c', Fin hi') ->
  (lo <= lo' /\ lo' <= hi' /\ hi' <= hi)%R /\ c = c'.
Proof.
  intros ch ws rs t t' lo c hi lo' c' hi' Hl Hs Hw Hr Ht H1 H2.
  assert (Hex : forall t lo c hi, get_wave_range ch (Fin t) = Ok (Fin lo, c, Fin hi) ->
    c = xdiv (Fin (Rtrapz (Rvmul rs ws) ws)) (Fin (Rtrapz rs ws)) /\
    exists i j, first_last (fun r => t < r)%R rs i j /\ nth_error ws i = Some lo /\ nth_error ws j = Some hi).
  { clear - Hl Hw Hr. intros t lo c hi. destruct (wave_range_spec ch ws rs t) as [Ha Hb]; auto. intros H.
    destruct (Exists_dec (fun x => Rltb t x = true) rs (fun x => bool_dec (Rltb t x) true)) as [He|He].
    - apply first_last_ex in He. destruct He as (i & j & Hfl).
      apply (first_last_ext _ (fun r => t < r)%R) in Hfl; [|intros x; apply Rltb_iff].
      destruct (first_last_lt _ _ _ _ Hfl) as [Hi Hj]. rewrite Hl in *.
      destruct (idx_Fin ws i Hi) as (wi & Ei & _). destruct (idx_Fin ws j Hj) as (wj & Ej & _).
      rewrite (Ha _ _ _ _ Hfl Ei Ej) in H. injection H as <- <- <-. eauto 6.
    - rewrite Hb in H; [discriminate|]. apply Forall_forall. intros x Hx.
      destruct (Rle_dec x t); auto. exfalso. apply He. apply Exists_exists. exists x. split; auto.
      apply Rltb_iff. lra. }
  destruct (Hex _ _ _ _ H1) as (-> & i & j & Hfl & Hi & Hj).
  destruct (Hex _ _ _ _ H2) as (-> & i' & j' & Hfl' & Hi' & Hj'). split; auto.
  destruct (first_last_mono (fun r => t < r)%R (fun r => t' < r)%R _ _ _ _ _ ltac:(intros x; simpl; intros; lra) Hfl Hfl').
  destruct Hfl' as (Hij & _).
  repeat split; (eapply Sorted_nth_le; [eassumption| |eassumption|eassumption]; lia).
Qed.

(** ** Cumulated energy *)
Definition cum (rs : list R) (k : nat) : R := Rsum (firstn (S k) rs).

Fixpoint Rcums (acc : R) (l : list R) : list R :=
  match l with [] => [] | x :: t => (acc + x)%R :: Rcums (acc + x) t end.
Lemma cumsum_from_Fin l : forall acc, cumsum_from (N := XRN) (Fin acc) (map Fin l) = map Fin (Rcums acc l).
Proof. induction l as [|x l IH]; intros acc; [reflexivity|]. cbn. rewrite <- IH. reflexivity. Qed.
Lemma cumsum_Fin l : cumsum (N := XRN) (map Fin l) = map Fin (Rcums 0 l).
Proof.
  destruct l as [|x l]; [reflexivity|]. cbn [map cumsum Rcums].
  change (cumsum_from (N := XRN) (Fin x) (map Fin l)) with (cumsum_from (N := XRN) (Fin x) (map Fin l)).
  pose proof (cumsum_from_Fin l x) as H. change (num XRN) with XR in *. rewrite H.
  replace (0 + x)%R with x by lra. reflexivity.
Qed.
Lemma Rcums_nth l : forall acc k c, nth_error (Rcums acc l) k = Some c <-> k < length l /\ c = (acc + cum l k)%R.
Proof.
  induction l as [|x l IH]; intros acc k c; cbn [Rcums].
  - split; [destruct k; discriminate|]. simpl. lia.
  - destruct k as [|k]; cbn [nth_error length].
    + split.
      * intros [= <-]. split; [lia|]. unfold cum. simpl. lra.
      * intros [_ ->]. f_equal. unfold cum. simpl. lra.
    + rewrite IH. unfold cum. cbn [firstn Rsum fold_right]. split; intros [H1 H2]; split; try lia;
        rewrite H2; unfold Rsum; cbn [fold_right]; lra.
Qed.
Lemma Rcums_length l : forall acc, length (Rcums acc l) = length l.
Proof. induction l; intros; simpl; auto. Qed.

Lemma Rsum_app a b : Rsum (a ++ b)%list = (Rsum a + Rsum b)%R.
Proof. induction a; simpl; [unfold Rsum; simpl; lra|]. unfold Rsum in *. simpl. lra. Qed.
Lemma Rsum_nonneg l : Forall (fun r => 0 <= r)%R l -> (0 <= Rsum l)%R.
Proof. induction 1; unfold Rsum in *; simpl; lra. Qed.
Lemma cum_le_total rs k : Forall (fun r => 0 <= r)%R rs -> (0 <= cum rs k <= Rsum rs)%R.
Proof.
  intros H. unfold cum. rewrite <- (firstn_skipn (S k) rs) at 3. rewrite Rsum_app.
  assert (H' : Forall (fun r => 0 <= r)%R (firstn (S k) rs ++ skipn (S k) rs)%list) by (rewrite firstn_skipn; auto).
  apply Forall_app in H'. destruct H' as [H1 H2]. apply Rsum_nonneg in H1, H2. lra.
Qed.
Lemma cum_mono rs j k : Forall (fun r => 0 <= r)%R rs -> j <= k -> (cum rs j <= cum rs k)%R.
Proof.
  intros H Hjk. unfold cum. replace (S k) with (S j + (k - j)) by lia.
  generalize (k - j); intros d. clear Hjk.
  assert (E : firstn (S j) rs = firstn (S j) (firstn (S j + d) rs)) by (rewrite firstn_firstn; f_equal; lia).
  rewrite E. set (l := firstn (S j + d) rs).
  assert (Hn : Forall (fun r => 0 <= r)%R l).
  { apply Forall_forall. intros x Hx. rewrite Forall_forall in H. apply H.
    rewrite <- (firstn_skipn (S j + d) rs). apply in_app_iff. now left. }
  apply (cum_le_total l j) in Hn. apply Hn.
Qed.
Lemma cum_last rs : rs <> [] -> cum rs (length rs - 1) = Rsum rs.
Proof. intros H. unfold cum. rewrite firstn_all2; auto. destruct rs; [congruence|simpl; lia]. Qed.

Lemma fold_max_Fin l : forall x, fold_left (nmax (N := XRN)) (map Fin l) (Fin x) = Fin (fold_left Rmax l x).
Proof. induction l as [|a l IH]; intros x; [reflexivity|]. cbn [map fold_left]. rewrite nmax_fin. apply IH. Qed.
Lemma fold_Rmax_spec l : forall x, (forall y, In y (x :: l) -> y <= fold_left Rmax l x)%R /\ In (fold_left Rmax l x) (x :: l).
Proof.
  induction l as [|a l IH]; intros x; cbn [fold_left].
  - split; [intros y [->|[]]; lra|now left].
  - destruct (IH (Rmax x a)) as [H1 H2]. split.
    + intros y [<-|[<-|Hy]].
      * eapply Rle_trans; [apply (Rmax_l x a)|apply H1; now left].
      * eapply Rle_trans; [apply (Rmax_r x a)|apply H1; now left].
      * apply H1. now right.
    + destruct H2 as [H2|H2]; [|right; now right]. rewrite <- H2. unfold Rmax. destruct (Rle_dec x a); simpl; auto.
Qed.

Lemma npmax_cumsum rs : rs <> [] -> Forall (fun r => 0 <= r)%R rs ->
  np_max (cumsum (N := XRN) (map Fin rs)) = Ok (Fin (Rsum rs)).
Proof.
  intros Hne Hn. rewrite cumsum_Fin.
  destruct (Rcums 0 rs) as [|c0 cr] eqn:E.
  { destruct rs; [congruence|discriminate]. }
  cbn [map np_max]. change (Fin c0 :: map Fin cr) with (map Fin (c0 :: cr)).
  f_equal. etransitivity; [apply fold_max_Fin|]. f_equal.
  destruct (fold_Rmax_spec cr c0) as [H1 H2]. rewrite <- E in H1, H2.
  apply Rle_antisym.
  - apply In_nth_error in H2. destruct H2 as [k Hk]. apply Rcums_nth in Hk. destruct Hk as [_ ->].
    pose proof (cum_le_total rs k Hn). lra.
  - apply H1. apply (nth_error_In _ (length rs - 1)). apply Rcums_nth.
    split; [destruct rs; [congruence|simpl; lia]|]. rewrite cum_last by auto. lra.
Qed.

(** the percentage curve *)
Definition percents (rs : list R) : list R := map (fun c => c / Rsum rs * 100)%R (Rcums 0 rs).

Lemma percents_nth rs k c : nth_error (percents rs) k = Some c <-> k < length rs /\ c = (cum rs k / Rsum rs * 100)%R.
Proof.
  unfold percents. rewrite nth_error_map. split.
  - destruct (nth_error (Rcums 0 rs) k) as [x|] eqn:E; [|discriminate]. cbn. intros [= <-].
    apply Rcums_nth in E. destruct E as [H ->]. split; auto. now rewrite Rplus_0_l.
  - intros [H ->]. assert (E : nth_error (Rcums 0 rs) k = Some (cum rs k)) by (apply Rcums_nth; split; auto; lra).
    rewrite E. reflexivity.
Qed.
Lemma percents_length rs : length (percents rs) = length rs.
Proof. unfold percents. now rewrite map_length, Rcums_length. Qed.

Lemma percents_eq rs : percents rs = energy_percent rs.
Proof.
  apply nth_error_ext'. intros k. unfold energy_percent.
  destruct (nth_error (percents rs) k) as [c|] eqn:E.
  - apply percents_nth in E. destruct E as [H ->]. rewrite nth_error_map.
    rewrite (nth_error_nth' _ 0) by (rewrite seq_length; auto). rewrite seq_nth by auto. reflexivity.
  - apply nth_error_None in E. rewrite percents_length in E. symmetry. apply nth_error_None.
    rewrite map_length, seq_length. exact E.
Qed.

Lemma take_idx_first_last {A} (l : list A) idxs i0 rest : idxs = i0 :: rest ->
  (forall i, In i idxs -> i < length l) ->
  exists r0 rr a b, take_idx l idxs = Ok (r0 :: rr) /\ nth_error l i0 = Some a /\ r0 = a /\
    nth_error l (last rest i0) = Some b /\ last rr r0 = b.
Proof.
  intros -> H. destruct (take_idx_ok l (i0 :: rest) H) as (r & E & Hl & Hn).
  destruct r as [|r0 rr]; [discriminate|].
  assert (H0 := Hn 0). cbn [nth_error] in H0. symmetry in H0.
  exists r0, rr, r0, (last rr r0). repeat split; auto.
  assert (Hlast : forall {B} (m : list B) x, nth_error (x :: m) (length m) = Some (last m x)).
  { clear. intros B m. induction m as [|y m IH]; intros x; [reflexivity|].
    cbn [length]. rewrite last_cons_d. apply (IH y). }
  specialize (Hn (length rr)). rewrite Hlast in Hn.
  assert (Hrr : length rr = length rest) by (simpl in Hl; lia).
  rewrite Hrr, Hlast in Hn. now symmetry.
Qed.

Lemma first_last_nonempty {A} (P : A -> Prop) l i j : first_last P l i j -> exists x, In x l /\ P x.
Proof. intros (_ & (a & Ha & Pa) & _). exists a. split; auto. eapply nth_error_In; eauto. Qed.

Lemma energy_spec : forall rs ws p, length ws = length rs -> rs <> [] ->
  Forall (fun r => 0 <= r)%R rs -> (0 < Rsum rs)%R ->
  (forall i i' j' j wi wj,
     first_last (fun c => p <= c)%R (percents rs) i i' ->
     first_last (fun c => c <= 100 - p)%R (percents rs) j' j ->
     nth_error ws i = Some wi -> nth_error ws j = Some wj ->
     get_bounds_integrated_energy (map Fin rs) (map Fin ws) (Fin p) = Ok (Fin wi, Fin wj)) /\
  ((Forall (fun c => c < p)%R (percents rs) \/ Forall (fun c => 100 - p < c)%R (percents rs)) ->
     get_bounds_integrated_energy (map Fin rs) (map Fin ws) (Fin p) = Err IndexError).
Proof.
  intros rs ws p Hl Hne Hn HS.
  unfold get_bounds_integrated_energy.
  pose proof (npmax_cumsum rs Hne Hn) as Hm. pose proof (cumsum_Fin rs) as Hc.
  change (num XRN) with XR in *. rewrite Hm. cbn [bind].
  assert (E : map (fun c : XR => nmul XRN (ndiv XRN c (Fin (Rsum rs))) (nlit XRN 100 1)) (cumsum (N := XRN) (map Fin rs)) = map Fin (percents rs)).
  { change (cumsum (N := XRN) (map Fin rs)) with (@cumsum XRN (map Fin rs)). etransitivity; [apply f_equal; exact Hc|].
    unfold percents. rewrite !map_map. apply map_ext. intros c. cbn [nmul ndiv nlit XRN].
    rewrite xdiv_fin by lra. cbn. f_equal. lra. }
  change (num XRN) with XR in *. rewrite E.
  assert (E100 : nsub XRN (nlit XRN 100 1) (Fin p) = Fin (100 - p)).
  { cbn. f_equal. lra. }
  rewrite E100.
  pose proof (where_Fin (fun c => nleb XRN (Fin p) c) (fun c => p <= c)%R (percents rs) (fun r => Rleb_iff p r)) as W1.
  pose proof (where_Fin (fun c => nleb XRN c (Fin (100 - p))) (fun c => c <= 100 - p)%R (percents rs) (fun r => Rleb_iff r (100 - p))) as W2.
  assert (B : forall q i, In i (where_ (N := XRN) q (map Fin (percents rs))) -> i < length (map Fin ws)).
  { intros q i Hi. apply where_in in Hi. destruct Hi as (x & Hx & _).
    rewrite map_length, Hl, <- (percents_length rs), <- (map_length Fin). apply nth_error_Some. intros E0. change (num XRN) with XR in *. rewrite E0 in Hx. discriminate. }
  pose proof (B (fun c => nleb XRN (Fin p) c)) as B1.
  pose proof (B (fun c => nleb XRN c (Fin (100 - p)))) as B2. clear B.
  change (num XRN) with XR in *.
  destruct (where_ (fun c : XR => nleb XRN (Fin p) c) (map Fin (percents rs))) as [|i0 rest].
  { split.
    - intros i i' j' j wi wj Hfl. apply first_last_nonempty in Hfl. destruct Hfl as (x & Hx & Px).
      exfalso. rewrite Forall_forall in W1. apply (W1 x); auto.
    - intros _. reflexivity. }
  destruct (take_idx_first_last (map Fin ws) _ i0 rest eq_refl B1) as (r0 & rr & a & b & Et & Ha & -> & _ & _).
  rewrite Et. cbn [bind of_option hd_error].
  destruct W1 as (Hfl1 & _ & _).
  destruct (where_ (fun c : XR => nleb XRN c (Fin (100 - p))) (map Fin (percents rs))) as [|j0 jrest].
  { split.
    - intros i i' j' j wi wj _ Hfl. apply first_last_nonempty in Hfl. destruct Hfl as (x & Hx & Px).
      exfalso. rewrite Forall_forall in W2. apply (W2 x); auto.
    - intros _. reflexivity. }
  destruct (take_idx_first_last (map Fin ws) _ j0 jrest eq_refl B2) as (s0 & sr & a' & b' & Et' & _ & _ & Hb' & Hb2).
  rewrite Et'. cbn [bind of_option]. rewrite Hb2.
  destruct W2 as (Hfl2 & _ & _). split.
  - intros i i' j' j wi wj F1 F2 Hi Hj.
    destruct (first_last_unique _ _ _ _ _ _ Hfl1 F1) as [<- _].
    destruct (first_last_unique _ _ _ _ _ _ Hfl2 F2) as [_ <-].
    rewrite nth_error_map, Hi in Ha. rewrite nth_error_map, Hj in Hb'. cbn in *.
    injection Ha as <-. injection Hb' as <-. reflexivity.
  - intros [H|H]; exfalso; rewrite Forall_forall in H.
    + apply first_last_nonempty in Hfl1. destruct Hfl1 as (x & Hx & Px). specialize (H _ Hx). lra.
    + apply first_last_nonempty in Hfl2. destruct Hfl2 as (x & Hx & Px). specialize (H _ Hx). lra.
Qed.

Lemma cum_scale k rs j : cum (map (Rmult k) rs) j = (k * cum rs j)%R.
Proof.
  unfold cum. rewrite firstn_map. generalize (firstn (S j) rs); intros l.
  induction l; unfold Rsum in *; simpl; lra.
Qed.
Lemma Rsum_scale k l : Rsum (map (Rmult k) l) = (k * Rsum l)%R.
Proof. induction l; unfold Rsum in *; simpl; lra. Qed.

Lemma percents_scale k rs : (k <> 0)%R -> (Rsum rs <> 0)%R -> percents (map (Rmult k) rs) = percents rs.
Proof.
  intros Hk HS. apply nth_error_ext'. intros j.
  destruct (nth_error (percents rs) j) as [c|] eqn:E.
  - apply percents_nth in E. destruct E as [H ->]. apply percents_nth. rewrite map_length. split; auto.
    rewrite cum_scale, Rsum_scale. field. auto.
  - apply nth_error_None in E. apply nth_error_None. rewrite percents_length, map_length in *. auto.
Qed.

Lemma energy_cases rs ws p : length ws = length rs -> rs <> [] ->
  Forall (fun r => 0 <= r)%R rs -> (0 < Rsum rs)%R ->
  (exists i i' j' j wi wj,
     first_last (fun c => p <= c)%R (percents rs) i i' /\
     first_last (fun c => c <= 100 - p)%R (percents rs) j' j /\
     nth_error ws i = Some wi /\ nth_error ws j = Some wj /\
     get_bounds_integrated_energy (map Fin rs) (map Fin ws) (Fin p) = Ok (Fin wi, Fin wj)) \/
  ((Forall (fun c => c < p)%R (percents rs) \/ Forall (fun c => 100 - p < c)%R (percents rs)) /\
     get_bounds_integrated_energy (map Fin rs) (map Fin ws) (Fin p) = Err IndexError).
Proof.
  intros Hl Hne Hn HS. destruct (energy_spec rs ws p Hl Hne Hn HS) as [Ha Hb].
  assert (D : forall (f : R -> bool), {Exists (fun x => f x = true) (percents rs)} + {~ Exists (fun x => f x = true) (percents rs)}).
  { intros f. apply Exists_dec. intros x. destruct (f x); [left|right]; auto. }
  destruct (D (Rleb p)) as [H1|H1].
  - destruct (D (fun c => Rleb c (100 - p))) as [H2|H2].
    + left. apply first_last_ex in H1, H2. destruct H1 as (i & i' & H1). destruct H2 as (j' & j & H2).
      apply (first_last_ext _ (fun r => p <= r)%R) in H1; [|intros x; apply Rleb_iff].
      apply (first_last_ext _ (fun r => r <= 100 - p)%R) in H2; [|intros x; apply Rleb_iff].
      destruct (first_last_lt _ _ _ _ H1) as [Hi _]. destruct (first_last_lt _ _ _ _ H2) as [_ Hj].
      rewrite percents_length, <- Hl in *.
      destruct (idx_Fin ws i Hi) as (wi & Ei & _). destruct (idx_Fin ws j Hj) as (wj & Ej & _).
      exists i, i', j', j, wi, wj. repeat (split; auto). eapply Ha; eauto.
    + right. assert (Forall (fun c => 100 - p < c)%R (percents rs)).
      { apply Forall_forall. intros x Hx. destruct (Rlt_dec (100 - p) x); auto. exfalso. apply H2.
        apply Exists_exists. exists x. split; auto. apply Rleb_iff. lra. }
      split; auto.
  - right. assert (Forall (fun c => c < p)%R (percents rs)).
    { apply Forall_forall. intros x Hx. destruct (Rlt_dec x p); auto. exfalso. apply H1.
      apply Exists_exists. exists x. split; auto. apply Rleb_iff. lra. }
    split; auto.
Qed.

Lemma energy_scale : forall rs ws p k, length ws = length rs -> rs <> [] ->
  Forall (fun r => 0 <= r)%R rs -> (0 < Rsum rs)%R -> (0 < k)%R ->
  get_bounds_integrated_energy (map Fin (map (Rmult k) rs)) (map Fin ws) (Fin p) =
  get_bounds_integrated_energy (map Fin rs) (map Fin ws) (Fin p).
Proof.
  intros rs ws p k Hl Hne Hn HS Hk.
  assert (Hl' : length ws = length (map (Rmult k) rs)) by (rewrite map_length; auto).
  assert (Hne' : map (Rmult k) rs <> []) by (destruct rs; [congruence|discriminate]).
  assert (Hn' : Forall (fun r => 0 <= r)%R (map (Rmult k) rs)).
  { apply Forall_forall. intros x Hx. apply in_map_iff in Hx. destruct Hx as (y & <- & Hy).
    rewrite Forall_forall in Hn. specialize (Hn _ Hy). simpl in Hn. apply Rmult_le_pos; lra. }
  assert (HS' : (0 < Rsum (map (Rmult k) rs))%R) by (rewrite Rsum_scale; apply Rmult_lt_0_compat; auto).
  destruct (energy_spec (map (Rmult k) rs) ws p Hl' Hne' Hn' HS') as [Ha Hb].
  rewrite percents_scale in Ha, Hb by lra.
  destruct (energy_cases rs ws p Hl Hne Hn HS) as [(i & i' & j' & j & wi & wj & H1 & H2 & H3 & H4 & ->)|[H ->]].
  - eapply Ha; eauto.
  - auto.
Qed.

Lemma energy_mono : forall rs ws p p' lo hi lo' hi', length ws = length rs -> rs <> [] ->
  Forall (fun r => 0 <= r)%R rs -> (0 < Rsum rs)%R -> Sorted Rle ws -> (p <= p')%R ->
  get_bounds_integrated_energy (map Fin rs) (map Fin ws) (Fin p) = Ok (Fin lo, Fin hi) ->
  get_bounds_integrated_energy (map Fin rs) (map Fin ws) (Fin p') = Ok (Fin lo', Fin hi') ->
  (lo <= lo' /\ hi' <= hi)%R.
Proof.
  intros rs ws p p' lo hi lo' hi' Hl Hne Hn HS Hs Hp E E'.
  destruct (energy_cases rs ws p Hl Hne Hn HS) as [(i & i' & j' & j & wi & wj & H1 & H2 & H3 & H4 & F)|[_ F]]; [|congruence].
  destruct (energy_cases rs ws p' Hl Hne Hn HS) as [(k & k' & l' & l & vi & vj & G1 & G2 & G3 & G4 & G)|[_ G]]; [|congruence].
  rewrite E in F. injection F as -> ->. rewrite E' in G. injection G as -> ->.
  destruct (first_last_mono (fun r => p <= r)%R (fun r => p' <= r)%R _ _ _ _ _ ltac:(intros x; simpl; intros; lra) H1 G1).
  destruct (first_last_mono (fun r => r <= 100 - p)%R (fun r => r <= 100 - p')%R _ _ _ _ _ ltac:(intros x; simpl; intros; lra) H2 G2).
  split; (eapply Sorted_nth_le; [eassumption| |eassumption|eassumption]; lia).
Qed.

(** it succeeds for every percentage the first sample leaves room for *)
Lemma energy_ok : forall rs ws p r0 rest, rs = r0 :: rest -> length ws = length rs ->
  Forall (fun r => 0 <= r)%R rs -> (0 < Rsum rs)%R -> (p <= 100)%R ->
  (r0 / Rsum rs * 100 <= 100 - p)%R ->
  exists lo hi, get_bounds_integrated_energy (map Fin rs) (map Fin ws) (Fin p) = Ok (Fin lo, Fin hi).
Proof.
  intros rs ws p r0 rest Ers Hl Hn HS Hp H0.
  assert (Hne : rs <> []) by (subst; discriminate).
  destruct (energy_cases rs ws p Hl Hne Hn HS) as [(i & i' & j' & j & wi & wj & H1 & H2 & H3 & H4 & F)|[[F|F] _]]; eauto; exfalso.
  - rewrite Forall_forall in F.
    assert (E : nth_error (percents rs) (length rs - 1) = Some 100%R).
    { apply percents_nth. split; [subst; simpl; lia|]. rewrite cum_last by auto. field. lra. }
    apply nth_error_In in E. specialize (F _ E). simpl in F. lra.
  - rewrite Forall_forall in F.
    assert (E : nth_error (percents rs) 0 = Some (r0 / Rsum rs * 100)%R).
    { apply percents_nth. split; [subst; simpl; lia|]. f_equal. f_equal. subst. unfold cum, Rsum. simpl. lra. }
    apply nth_error_In in E. specialize (F _ E). simpl in F. lra.
Qed.

(** ** In the words of the specification *)
Lemma energy_spec' : forall rs ws p, length ws = length rs -> rs <> [] ->
  Forall (fun r => 0 <= r)%R rs -> (0 < Rsum rs)%R ->
  (forall i i' j' j wi wj,
     first_last (fun c => p <= c)%R (energy_percent rs) i i' ->
     first_last (fun c => c <= 100 - p)%R (energy_percent rs) j' j ->
     nth_error ws i = Some wi -> nth_error ws j = Some wj ->
     get_bounds_integrated_energy (map Fin rs) (map Fin ws) (Fin p) = Ok (Fin wi, Fin wj)) /\
  ((Forall (fun c => c < p)%R (energy_percent rs) \/ Forall (fun c => 100 - p < c)%R (energy_percent rs)) ->
     get_bounds_integrated_energy (map Fin rs) (map Fin ws) (Fin p) = Err IndexError).
Proof. intros rs ws p. rewrite <- percents_eq. apply energy_spec. Qed.
