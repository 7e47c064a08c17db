(** Concrete cases for the findings and examples of T_Utils. *)
From Coq Require Import Reals Lra ZArith String List Lia Bool Arith Sorting.Sorted Sorting.Permutation.
From Verif Require Import Base NumSig XR P_Trapz M_Tables M_Utils S_Utils P_Utils P_Sort P_Width P_Central.
Import ListNotations.
Open Scope R_scope.

Lemma first_last_intro (P : R -> Prop) l i j : (i <= j)%nat ->
  (exists x, nth_error l i = Some x /\ P x) -> (exists x, nth_error l j = Some x /\ P x) ->
  (forall k x, nth_error l k = Some x -> (k < i \/ j < k)%nat -> ~ P x) -> first_last P l i j.
Proof.
  intros H1 H2 H3 H4. repeat split; auto.
  - destruct (Nat.le_gt_cases i k); auto. exfalso. apply (H4 k x); auto.
  - destruct (Nat.le_gt_cases k j); auto. exfalso. apply (H4 k x); auto.
Qed.

Ltac fl := apply first_last_intro;
  [ lia | eexists; split; [reflexivity|lra] | eexists; split; [reflexivity|lra]
  | let k := fresh in let x := fresh in let H := fresh in let G := fresh in
    intros k x H G;
    repeat (destruct k as [|k]; cbn [nth_error map] in H;
            [ (exfalso; lia) || (injection H as H; subst; lra) |]);
    destruct k; discriminate ].

Lemma fwhm_scaling : exists rs ws k v v', Sorted Rlt ws /\ 0 < k /\
  get_fullwidth_halfmax (map Fin rs) (map Fin ws) = Ok (Fin v) /\
  get_fullwidth_halfmax (map Fin (map (Rmult k) rs)) (map Fin ws) = Ok (Fin v') /\ v <> v'.
Proof.
  exists [4/10; 6/10; 1; 6/10; 2/10], [1; 2; 3; 4; 5], 2, (4 - 2), (4 - 1).
  split; [repeat constructor; lra|]. split; [lra|]. split; [|split; [|lra]].
  - eapply (proj1 (fwhm_spec [4/10; 6/10; 1; 6/10; 2/10] [1; 2; 3; 4; 5] eq_refl) 1%nat 3%nat); try reflexivity; [|lia]. fl.
  - eapply (proj1 (fwhm_spec (map (Rmult 2) [4/10; 6/10; 1; 6/10; 2/10]) [1; 2; 3; 4; 5] eq_refl) 0%nat 3%nat); try reflexivity; [|lia]. fl.
Qed.

Lemma energy_percent_3 a b c : energy_percent [a; b; c] =
  [(a + 0) / (a + (b + (c + 0))) * 100; (a + (b + 0)) / (a + (b + (c + 0))) * 100; (a + (b + (c + 0))) / (a + (b + (c + 0))) * 100].
Proof. reflexivity. Qed.

Lemma energy_inverted : exists rs ws p lo hi, Sorted Rlt ws /\ Forall (fun r => 0 <= r) rs /\ 0 < p <= 50 /\
  get_bounds_integrated_energy (map Fin rs) (map Fin ws) (Fin p) = Ok (Fin lo, Fin hi) /\ hi < lo.
Proof.
  exists [1; 998; 1], [10; 11; 12], 1, 11, 10.
  split; [repeat constructor; lra|]. split; [repeat constructor; lra|]. split; [lra|]. split; [|lra].
  destruct (energy_spec' [1; 998; 1] [10; 11; 12] 1 eq_refl ltac:(discriminate)
             ltac:(repeat constructor; lra) ltac:(unfold Rsum; simpl; lra)) as [H _].
  rewrite energy_percent_3 in H.
  apply (H 1%nat 2%nat 0%nat 0%nat); try reflexivity; fl.
Qed.

(** an ordinary band *)
Lemma energy_case : get_bounds_integrated_energy (map Fin [10; 80; 10]) (map Fin [10; 11; 12]) (Fin 10) = Ok (Fin 10, Fin 11).
Proof.
  destruct (energy_spec' [10; 80; 10] [10; 11; 12] 10 eq_refl ltac:(discriminate)
             ltac:(repeat constructor; lra) ltac:(unfold Rsum; simpl; lra)) as [H _].
  rewrite energy_percent_3 in H.
  apply (H 0%nat 2%nat 0%nat 1%nat); try reflexivity; fl.
Qed.

Local Open Scope string_scope.
Definition det3 (cw : R) : detector XRN :=
  [("wavelength", VArr (map Fin [1; 2; 4])); ("response", VArr (map Fin [1/10; 1; 2/10])); ("central_wavelength", VNum (Fin cw))].

Lemma det3_central : Rtrapz (Rvmul [1/10; 1; 2/10] [1; 2; 4]) [1; 2; 4] / Rtrapz [1/10; 1; 2/10] [1; 2; 4] = 385 / 175.
Proof. unfold Rvmul. cbn. field. Qed.

Lemma wave_range_case : get_wave_range (det3 2) (Fin (15/100)) = Ok (Fin 2, Fin (385/175), Fin 4).
Proof.
  destruct (wave_range_spec (det3 2) [1; 2; 4] [1/10; 1; 2/10] (15/100) eq_refl eq_refl eq_refl) as [H _].
  rewrite (H 1%nat 2%nat 2 4); try reflexivity.
  - rewrite xdiv_fin by (cbn; lra). rewrite det3_central. reflexivity.
  - fl.
Qed.

(** two bands at 0.6 and one at 3.7 um *)
Definition three_bands : rsrdata XRN :=
  [("1", [("det-1", det3 (62/100))]); ("2", [("det-1", det3 (65/100))]); ("3", [("det-1", det3 (37/10))])].
Lemma three_bands_ok : NoDup (dkeys three_bands) /\ Forall (fun kb => first_cw (snd kb) <> None) three_bands.
Proof. split; repeat constructor; cbn; try discriminate; intuition discriminate. Qed.

Lemma near_val wl eps k c : near wl eps (k, [("det-1", det3 c)]) = (Rltb (Rabs (c - wl)) eps && Rltb (Rabs (c - wl)) 2)%bool.
Proof. reflexivity. Qed.

Lemma near_true wl eps k c : Rabs (c - wl) < eps -> Rabs (c - wl) < 2 -> near wl eps (k, [("det-1", det3 c)]) = true.
Proof. intros H1 H2. rewrite near_val. now rewrite !Rltb_true. Qed.
Lemma near_false wl eps k c : eps <= Rabs (c - wl) -> near wl eps (k, [("det-1", det3 c)]) = false.
Proof. intros H1. rewrite near_val. now rewrite Rltb_false. Qed.

Ltac rabs := unfold Rabs; destruct (Rcase_abs _); lra.

Lemma bandname_cases :
  get_bandname_from_wavelength "unknown" (Fin (37/10)) three_bands (Fin (1/10)) false = Ok (BName "ch3") /\
  get_bandname_from_wavelength "unknown" (Fin (63/100)) three_bands (Fin (1/10)) false = Err AttributeError /\
  get_bandname_from_wavelength "unknown" (Fin (63/100)) three_bands (Fin (1/10)) true = Ok (BNames ["ch1"; "ch2"]) /\
  get_bandname_from_wavelength "unknown" (Fin 2) three_bands (Fin (1/10)) false = Ok BNone.
Proof.
  destruct three_bands_ok as [H1 H2].
  repeat split; (rewrite bandname_spec by auto); unfold three_bands; cbn [filter].
  - rewrite (near_false (37/10) (1/10) "1"), (near_false (37/10) (1/10) "2"), (near_true (37/10) (1/10) "3") by rabs. reflexivity.
  - rewrite (near_true (63/100) (1/10) "1"), (near_true (63/100) (1/10) "2"), (near_false (63/100) (1/10) "3") by rabs. reflexivity.
  - rewrite (near_true (63/100) (1/10) "1"), (near_true (63/100) (1/10) "2"), (near_false (63/100) (1/10) "3") by rabs. reflexivity.
  - rewrite (near_false 2 (1/10) "1"), (near_false 2 (1/10) "2"), (near_false 2 (1/10) "3") by rabs. reflexivity.
Qed.

(** The name returned need not be a band of the data, nor an alias the response
    dictionary understands. *)
Lemma bandname_not_a_key : exists sensor wl (rsr : rsrdata XRN) eps b,
  NoDup (dkeys rsr) /\
  get_bandname_from_wavelength sensor (Fin wl) rsr (Fin eps) false = Ok (BName b) /\
  dget b rsr = None.
Proof.
  exists "unknown", (37/10), three_bands, (1/10), "ch3". split; [apply three_bands_ok|].
  split; [apply bandname_cases|reflexivity].
Qed.

(** C52: duplicates, unsorted, with the two equal values in either order *)
Lemma argsort_case idxs : idxs = [2; 0; 1; 3]%nat \/ idxs = [2; 1; 0; 3]%nat -> is_argsort [5; 5; 1; 7] idxs.
Proof.
  intros [->| ->]; split.
  - apply NoDup_Permutation_bis.
    + repeat constructor; cbn; lia.
    + cbn; lia.
    + intros x Hx. apply in_seq. cbn in *. lia.
  - intros i j a b x y Hij Ha Hb Hx Hy.
    destruct i as [|[|[|[|i]]]]; cbn in Ha; try (destruct i; discriminate); injection Ha as <-;
    destruct j as [|[|[|[|j]]]]; cbn in Hb; try (destruct j; discriminate); try lia; injection Hb as <-;
    cbn in Hx, Hy; injection Hx as <-; injection Hy as <-; lra.
  - apply NoDup_Permutation_bis.
    + repeat constructor; cbn; lia.
    + cbn; lia.
    + intros x Hx. apply in_seq. cbn in *. lia.
  - intros i j a b x y Hij Ha Hb Hx Hy.
    destruct i as [|[|[|[|i]]]]; cbn in Ha; try (destruct i; discriminate); injection Ha as <-;
    destruct j as [|[|[|[|j]]]]; cbn in Hb; try (destruct j; discriminate); try lia; injection Hb as <-;
    cbn in Hx, Hy; injection Hx as <-; injection Hy as <-; lra.
Qed.


Lemma bandname_missing : forall sensor wl eps multiple (rsr : rsrdata XRN), NoDup (dkeys rsr) ->
  Forall (fun kb => first_cw (snd kb) <> None \/ no_cw (snd kb)) rsr ->
  Exists (fun kb => no_cw (snd kb)) rsr ->
  get_bandname_from_wavelength sensor (Fin wl) rsr (Fin eps) multiple = Err KeyError.
Proof.
  intros sensor wl eps multiple rsr Hnd Hall Hex. unfold get_bandname_from_wavelength.
  match goal with |- bind (fold_left ?g _ _) _ = _ => set (f := g) end.
  assert (Hb : forall e l, fold_left f l (Err e) = Err e) by (intros e l; induction l; simpl; auto).
  assert (G : forall suf pre acc, rsr = (pre ++ suf)%list -> Exists (fun kb => no_cw (snd kb)) suf ->
              fold_left f (dkeys suf) (Ok acc) = Err KeyError).
  { induction suf as [|[k b] suf IH]; intros pre acc Hp He; [inversion He|].
    assert (Hk : dget k rsr = Some b).
    { apply dget_in_nodup; auto. rewrite Hp. apply in_or_app. right. now left. }
    assert (Hkb : first_cw b <> None \/ no_cw b).
    { rewrite Forall_forall in Hall. apply (Hall (k, b)). rewrite Hp. apply in_or_app. right. now left. }
    cbn [dkeys map fst fold_left].
    assert (Hno : no_cw b -> f (Ok acc) k = Err KeyError).
    { intros Hn. unfold f. cbn [bind]. rewrite Hk. cbn [of_option bind]. unfold no_cw in Hn.
      destruct (dget "det-1" b) as [d|]; [|reflexivity]. cbn [of_option bind]. unfold get_num. now rewrite Hn. }
    destruct Hkb as [Hc|Hn].
    - assert (Hs : exists acc', f (Ok acc) k = Ok acc').
      { unfold f. cbn [bind]. rewrite Hk. cbn [of_option bind]. unfold first_cw in Hc.
        destruct (dget "det-1" b) as [d|]; [|congruence]. cbn [of_option bind]. unfold get_num.
        destruct (dget "central_wavelength" d) as [[l|x|m]|]; try congruence. cbn [bind].
        match goal with |- context [if ?c then _ else _] => destruct c end; eauto. }
      destruct Hs as [acc' ->]. apply (IH (pre ++ [(k, b)])%list); [now rewrite <- app_assoc|].
      inversion He as [? ? H0|? ? H0]; subst; auto. exfalso. cbn in H0. unfold no_cw in H0. unfold first_cw in Hc.
      destruct (dget "det-1" b) as [d|]; [|congruence]. now rewrite H0 in Hc.
    - rewrite (Hno Hn). apply Hb. }
  rewrite (G rsr [] []); auto.
Qed.
