(** The central wavelength (C50). *)
From Coq Require Import Reals Lra ZArith String List Lia Bool Arith Sorting.Sorted.
From Verif Require Import Base NumSig XR P_Trapz M_Tables M_Utils S_Utils P_Utils P_Width P_Sort.
Import ListNotations.
Open Scope R_scope.

Lemma Rvmul_comm a : forall b, Rvmul a b = Rvmul b a.
Proof.
  unfold Rvmul. induction a as [|x a IH]; intros [|y b]; simpl; auto. f_equal; auto. ring.
Qed.
Lemma Rvmul_assoc a : forall b c, Rvmul (Rvmul a b) c = Rvmul a (Rvmul b c).
Proof.
  unfold Rvmul. induction a as [|x a IH]; intros [|y b] [|z c]; simpl; auto. f_equal; auto. ring.
Qed.
Lemma Rvmul_nonneg a : forall b, Forall (fun x => 0 <= x) a -> Forall (fun x => 0 <= x) b -> Forall (fun x => 0 <= x) (Rvmul a b).
Proof.
  unfold Rvmul. induction a as [|x a IH]; intros [|y b] Ha Hb; simpl; auto.
  inversion Ha; inversion Hb; subst. constructor; [simpl; apply Rmult_le_pos; auto|]. apply IH; auto.
Qed.

Lemma central_warr ws rs vs : length rs = length ws -> length vs = length ws ->
  get_central_wave (N := XRN) (map Fin ws) (map Fin rs) (WArray (map Fin vs)) =
    Ok (xdiv (Fin (Rtrapz (Rvmul (Rvmul rs vs) ws) ws)) (Fin (Rtrapz (Rvmul rs vs) ws))).
Proof.
  intros H Hv. unfold get_central_wave. rewrite (vmul_fin rs ws) by auto. cbn [bind wmul].
  rewrite (vmul_fin (Rvmul rs ws) vs) by (rewrite Rvmul_length; congruence). cbn [bind].
  rewrite (trapezoid_fin (Rvmul (Rvmul rs ws) vs) ws)
    by (rewrite !Rvmul_length; try congruence; rewrite Rvmul_length; congruence).
  cbn [bind]. rewrite (vmul_fin rs vs) by congruence. cbn [bind].
  rewrite trapezoid_fin by (rewrite Rvmul_length; congruence). cbn [bind].
  rewrite !Rvmul_assoc, (Rvmul_comm ws vs). reflexivity.
Qed.

Lemma Sorted_bounds l : Sorted Rle l -> Forall (fun x => hd 0 l <= x <= last l 0) l.
Proof.
  intros Hs. apply Forall_forall. intros x Hx.
  apply In_nth_error in Hx. destruct Hx as [k Hk].
  assert (Hkl : (k < length l)%nat) by (apply nth_error_Some; congruence).
  split.
  - destruct l as [|a l]; [destruct k; discriminate|]. eapply (Sorted_nth_le (a :: l) 0 k); [exact Hs|lia|reflexivity|exact Hk].
  - eapply (Sorted_nth_le l k (length l - 1)); [exact Hs|lia|exact Hk|].
    clear - Hkl. destruct l as [|a l]; [simpl in Hkl; lia|]. clear Hkl.
    replace (length (a :: l) - 1)%nat with (length l) by (simpl; lia).
    revert a. induction l as [|b l IH]; intros a; [reflexivity|]. cbn [length nth_error]. rewrite IH. reflexivity.
Qed.

(** the mean of the abscissae with any non-negative weights stays inside *)
Lemma mean_bounds us ws : length us = length ws -> Sorted Rle ws ->
  Forall (fun x => 0 <= x) us -> 0 < Rtrapz us ws ->
  hd 0 ws <= Rtrapz (Rvmul us ws) ws / Rtrapz us ws <= last ws 0.
Proof.
  intros Hl Hs Hn Hp.
  pose proof (Rtrapz_weighted_bounds (hd 0 ws) (last ws 0) ws us ws (eq_sym Hl) Hs Hn (Sorted_bounds _ Hs)) as [H1 H2].
  rewrite Rvmul_comm in H1, H2. split.
  - apply Rmult_le_reg_r with (Rtrapz us ws); auto. unfold Rdiv. rewrite Rmult_assoc, Rinv_l by lra. lra.
  - apply Rmult_le_reg_r with (Rtrapz us ws); auto. unfold Rdiv. rewrite Rmult_assoc, Rinv_l by lra. lra.
Qed.

Lemma central_bounds : forall ws rs, length rs = length ws -> Sorted Rle ws ->
  Forall (fun r => 0 <= r) rs -> 0 < Rtrapz rs ws ->
  exists c, get_central_wave (N := XRN) (map Fin ws) (map Fin rs) (WScalar n1) = Ok (Fin c) /\
            hd 0 ws <= c <= last ws 0.
Proof.
  intros ws rs Hl Hs Hn Hp. exists (Rtrapz (Rvmul rs ws) ws / Rtrapz rs ws). split.
  - rewrite (central_fin ws rs Hl). rewrite xdiv_fin by lra. reflexivity.
  - apply mean_bounds; auto.
Qed.

(** any array of non-negative weights *)
Lemma central_weighted_bounds : forall ws rs vs, length rs = length ws -> length vs = length ws ->
  Sorted Rle ws -> Forall (fun r => 0 <= r) rs -> Forall (fun r => 0 <= r) vs ->
  0 < Rtrapz (Rvmul rs vs) ws ->
  exists c, get_central_wave (N := XRN) (map Fin ws) (map Fin rs) (WArray (map Fin vs)) = Ok (Fin c) /\
            hd 0 ws <= c <= last ws 0.
Proof.
  intros ws rs vs Hl Hv Hs Hn Hnv Hp. exists (Rtrapz (Rvmul (Rvmul rs vs) ws) ws / Rtrapz (Rvmul rs vs) ws). split.
  - rewrite central_warr by auto. rewrite xdiv_fin by lra. reflexivity.
  - apply mean_bounds; auto; [rewrite Rvmul_length; congruence|apply Rvmul_nonneg; auto].
Qed.

Lemma Rvmul_Exists a : forall b, length a = length b -> Exists (fun x => 0 < x) a -> Forall (fun x => 0 < x) b -> Exists (fun x => 0 < x) (Rvmul a b).
Proof.
  unfold Rvmul. induction a as [|x a IH]; intros [|y b] Hl He Hb; try discriminate; [inversion He|].
  inversion Hb; subst. inversion He; subst; simpl.
  - left. simpl. apply Rmult_lt_0_compat; auto.
  - right. apply IH; auto.
Qed.

(** the Rayleigh weighting of rayleigh.py:290 *)
Lemma central_rayleigh : forall ws rs, length rs = length ws -> (2 <= length ws)%nat -> Sorted Rlt ws ->
  Forall (fun w => 0 < w) ws -> Forall (fun r => 0 <= r) rs -> Exists (fun r => 0 < r) rs ->
  exists c, get_central_wave (N := XRN) (map Fin ws) (map Fin rs)
              (WArray (map (fun w => ndiv XRN (nlit XRN 1 1) (npow w 4)) (map Fin ws))) = Ok (Fin c) /\
            hd 0 ws <= c <= last ws 0.
Proof.
  intros ws rs Hl H2 Hs Hw Hn He.
  assert (E : map (fun w => ndiv XRN (nlit XRN 1 1) (@npow XRN w 4)) (map Fin ws) = map Fin (map (fun w => 1 / w ^ 4) ws)).
  { rewrite !map_map. apply map_ext_in. intros w Hin. rewrite npow_fin. cbn [nlit XRN ndiv]. rewrite xlit_eq.
    rewrite Forall_forall in Hw. specialize (Hw _ Hin).
    assert (0 < w ^ 4) by (apply pow_lt; auto).
    rewrite xdiv_fin by lra. f_equal. lra. }
  rewrite E.
  assert (Hv : Forall (fun v => 0 < v) (map (fun w => 1 / w ^ 4) ws)).
  { apply Forall_forall. intros x Hx. apply in_map_iff in Hx. destruct Hx as (w & <- & Hin).
    rewrite Forall_forall in Hw. specialize (Hw _ Hin). apply Rdiv_lt_0_compat; [lra|]. apply pow_lt; auto. }
  apply central_weighted_bounds; auto.
  - rewrite map_length; auto.
  - apply Sorted_Rlt_Rle; auto.
  - eapply Forall_impl; [|exact Hv]. simpl. intros; lra.
  - apply Rtrapz_pos; auto.
    + rewrite Rvmul_length; rewrite ?map_length; auto.
    + rewrite Rvmul_length; rewrite ?map_length; lia.
    + apply Rvmul_nonneg; auto. eapply Forall_impl; [|exact Hv]. simpl. intros; lra.
    + apply Rvmul_Exists; auto. rewrite map_length; auto.
Qed.

Lemma central_scale : forall ws rs k, length rs = length ws -> k <> 0 -> Rtrapz rs ws <> 0 ->
  get_central_wave (N := XRN) (map Fin ws) (map Fin (map (Rmult k) rs)) (WScalar n1) =
  get_central_wave (N := XRN) (map Fin ws) (map Fin rs) (WScalar n1).
Proof.
  intros ws rs k Hl Hk Hne.
  rewrite !central_fin by (rewrite ?map_length; auto).
  rewrite Rvmul_scale_l, !Rtrapz_scale.
  rewrite !xdiv_fin by (auto; apply Rmult_integral_contrapositive; auto).
  f_equal. f_equal. field. auto.
Qed.

Lemma central_reverse : forall ws rs, length rs = length ws -> Rtrapz rs ws <> 0 ->
  get_central_wave (N := XRN) (map Fin (rev ws)) (map Fin (rev rs)) (WScalar n1) =
  get_central_wave (N := XRN) (map Fin ws) (map Fin rs) (WScalar n1).
Proof.
  intros ws rs Hl Hne.
  rewrite !central_fin by (rewrite ?rev_length; auto).
  rewrite Rvmul_rev by auto. rewrite !Rtrapz_rev by (auto; rewrite Rvmul_length; auto).
  rewrite !xdiv_fin by lra. f_equal. f_equal. field. auto.
Qed.

Lemma Rvmul_affine a b us : forall ws, length us = length ws ->
  Rvmul us (map (fun w => a * w + b) ws) =
  map (fun p => fst p + snd p) (combine (map (Rmult a) (Rvmul us ws)) (map (Rmult b) us)).
Proof.
  unfold Rvmul. induction us as [|u us IH]; intros [|w ws] H; try discriminate; auto.
  simpl. f_equal; [simpl; ring|]. apply IH. auto.
Qed.

Lemma Rtrapz_affine_x a b ys ws : Rtrapz ys (map (fun w => a * w + b) ws) = a * Rtrapz ys ws.
Proof.
  replace (map (fun w => a * w + b) ws) with (map (Rplus b) (map (Rmult a) ws))
    by (rewrite map_map; apply map_ext; intros; ring).
  now rewrite Rtrapz_shift_x, Rtrapz_scale_x.
Qed.

Lemma central_affine : forall ws rs a b c, length rs = length ws -> a <> 0 -> Rtrapz rs ws <> 0 ->
  get_central_wave (N := XRN) (map Fin ws) (map Fin rs) (WScalar n1) = Ok (Fin c) ->
  get_central_wave (N := XRN) (map Fin (map (fun w => a * w + b) ws)) (map Fin rs) (WScalar n1) = Ok (Fin (a * c + b)).
Proof.
  intros ws rs a b c Hl Ha Hne. rewrite !central_fin by (rewrite ?map_length; auto).
  rewrite !Rtrapz_affine_x, Rvmul_affine by auto.
  rewrite Rtrapz_add by (rewrite !map_length; unfold Rvmul; rewrite map_length, combine_length; lia).
  rewrite !Rtrapz_scale.
  rewrite !xdiv_fin by (auto; apply Rmult_integral_contrapositive; auto).
  intros [= <-]. f_equal. f_equal. field. auto.
Qed.

Lemma central_symmetric : forall ws rs m, length rs = length ws -> Rtrapz rs ws <> 0 ->
  rev rs = rs -> rev ws = map (fun w => 2 * m - w) ws ->
  get_central_wave (N := XRN) (map Fin ws) (map Fin rs) (WScalar n1) = Ok (Fin m).
Proof.
  intros ws rs m Hl Hne Hr Hw.
  rewrite central_fin by auto. rewrite xdiv_fin by auto. f_equal. f_equal.
  set (c := Rtrapz (Rvmul rs ws) ws / Rtrapz rs ws).
  assert (E1 : get_central_wave (N := XRN) (map Fin (rev ws)) (map Fin (rev rs)) (WScalar n1) = Ok (Fin c)).
  { rewrite central_reverse by auto. rewrite central_fin by auto. now rewrite xdiv_fin. }
  assert (E2 : get_central_wave (N := XRN) (map Fin (map (fun w => (-1) * w + 2 * m) ws)) (map Fin rs) (WScalar n1) = Ok (Fin (-1 * c + 2 * m))).
  { apply central_affine; auto; [lra|]. rewrite central_fin by auto. now rewrite xdiv_fin. }
  rewrite Hr, Hw in E1.
  replace (map (fun w => 2 * m - w) ws) with (map (fun w => (-1) * w + 2 * m) ws) in E1 by (apply map_ext; intros; ring).
  rewrite E1 in E2. injection E2 as E2. lra.
Qed.

(** ** C51: band name from wavelength *)
Local Open Scope string_scope.

Lemma bandname_loop sensor wl eps (rsr : rsrdata XRN) : NoDup (dkeys rsr) ->
  Forall (fun kb => first_cw (snd kb) <> None) rsr ->
  forall suf pre acc, rsr = (pre ++ suf)%list ->
  fold_left (fun acc0 channel =>
        found <- acc0 ;;
        b <- of_option KeyError (dget channel rsr) ;;
        d <- of_option KeyError (dget "det-1" b) ;;
        cw <- get_num "central_wavelength" d ;;
        let chdist := nabs (nsub XRN cw (Fin wl)) in
        if (nltb XRN chdist (nlit XRN 2 1) && nltb XRN chdist (Fin eps))%bool
        then Ok (found ++ [translate_band sensor channel])%list
        else Ok found) (dkeys suf) (Ok acc) =
  Ok (acc ++ map (fun kb => translate_band sensor (fst kb)) (filter (near wl eps) suf))%list.
Proof.
  intros Hnd Hall. induction suf as [|[k b] suf IH]; intros pre acc Hp.
  - simpl. now rewrite app_nil_r.
  - cbn [dkeys map fst fold_left bind].
    assert (Hk : dget k rsr = Some b).
    { apply dget_in_nodup; auto. rewrite Hp. apply in_or_app. right. now left. }
    rewrite Hk. cbn [of_option bind].
    assert (Hc : first_cw b <> None).
    { rewrite Forall_forall in Hall. apply (Hall (k, b)). rewrite Hp. apply in_or_app. right. now left. }
    cbn [filter]. unfold near at 1. cbn [snd].
    unfold first_cw in Hc |- *. destruct (dget "det-1" b) as [d|]; [|congruence]. cbn [of_option bind].
    unfold get_num. destruct (dget "central_wavelength" d) as [[l|[c| | |]|d']|]; try congruence.
    cbn [bind]. change (nsub XRN (Fin c) (Fin wl)) with (Fin (c - wl)). rewrite nabs_fin.
    cbn [nltb XRN xltb nlit xlit].
    replace (2 / 1)%R with 2%R by lra.
    rewrite andb_comm. destruct (Rltb (Rabs (c - wl)) eps && Rltb (Rabs (c - wl)) 2)%bool.
    + etransitivity; [apply (IH (pre ++ [(k, b)])%list)|].
      * rewrite Hp, <- app_assoc. reflexivity.
      * rewrite <- app_assoc. reflexivity.
    + apply (IH (pre ++ [(k, b)])%list). rewrite Hp, <- app_assoc. reflexivity.
Qed.

Lemma bandname_spec : forall sensor wl eps multiple (rsr : rsrdata XRN), NoDup (dkeys rsr) ->
  Forall (fun kb => first_cw (snd kb) <> None) rsr ->
  get_bandname_from_wavelength sensor (Fin wl) rsr (Fin eps) multiple =
  match map (fun kb => translate_band sensor (fst kb)) (filter (near wl eps) rsr) with
  | [] => Ok BNone
  | [b] => Ok (BName b)
  | l => if multiple then Ok (BNames l) else Err AttributeError
  end.
Proof.
  intros sensor wl eps multiple rsr Hnd Hall. unfold get_bandname_from_wavelength.
  pose proof (bandname_loop sensor wl eps rsr Hnd Hall rsr [] [] eq_refl) as H.
  cbn zeta in *. etransitivity; [apply (f_equal (fun x => bind x _)); exact H|].
  cbn [bind app]. destruct (map _ _) as [|? [|? ?]]; reflexivity.
Qed.
