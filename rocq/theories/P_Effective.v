(** Lemmas about the wavelength the Rayleigh correction uses. *)
From Coq Require Import Reals Lra ZArith String List Bool Lia Sorting.Sorted.
From Verif Require Import Base NumSig XR P_Trapz M_Tables M_Utils M_Rsr M_RadTb M_Nir M_Rayleigh
     S_Names S_Effective P_Utils P_Width P_Central P_Names P_Rsr.
Import ListNotations.
Local Open Scope R_scope.

Lemma ci_cons2 f w0 w1 wt r0 r1 rt : curve_integral f (w0 :: w1 :: wt) (r0 :: r1 :: rt) =
  (w1 - w0) * ((f w0 r0 + f w1 r1) / 2) + curve_integral f (w1 :: wt) (r1 :: rt).
Proof. reflexivity. Qed.
Lemma ci_trapz f ws : forall rs, List.length rs = List.length ws ->
  curve_integral f ws rs = Rtrapz (map (fun p => f (fst p) (snd p)) (combine ws rs)) ws.
Proof.
  induction ws as [|w0 wt IH]; intros [|r0 rt] L; try discriminate; [reflexivity|].
  injection L as L. destruct wt as [|w1 wt], rt as [|r1 rt]; try discriminate; [reflexivity|].
  rewrite ci_cons2. rewrite (IH (r1 :: rt)) by exact L. cbn [combine map fst snd].
  rewrite Rtrapz_cons2. lra.
Qed.

(** node weights of the trapezoidal rule *)
Fixpoint node_weights (c : R) (ws : list R) : list R :=
  match ws with
  | [] => []
  | w0 :: wt => match wt with
                | [] => [c]
                | w1 :: _ => (c + (w1 - w0) / 2) :: node_weights ((w1 - w0) / 2) wt
                end
  end.
Fixpoint dot (a b : list R) : R :=
  match a, b with x :: a, y :: b => x * y + dot a b | _, _ => 0 end.

Lemma trapz_dot ws : forall ys c, List.length ys = List.length ws ->
  dot (node_weights c ws) ys = Rtrapz ys ws + c * hd 0 ys.
Proof.
  induction ws as [|w0 wt IH]; intros [|y0 yt] c L; try discriminate; [cbn; lra|].
  injection L as L. destruct wt as [|w1 wt], yt as [|y1 yt]; try discriminate.
  - cbn. lra.
  - change (dot (node_weights c (w0 :: w1 :: wt)) (y0 :: y1 :: yt))
      with ((c + (w1 - w0) / 2) * y0 + dot (node_weights ((w1 - w0) / 2) (w1 :: wt)) (y1 :: yt)).
    rewrite (IH (y1 :: yt)) by exact L. rewrite Rtrapz_cons2. cbn [hd]. lra.
Qed.

Lemma node_weights_nonneg ws : forall c, 0 <= c -> Sorted Rlt ws -> Forall (fun x => 0 <= x) (node_weights c ws).
Proof.
  induction ws as [|w0 wt IH]; intros c Hc Hs; [constructor|].
  destruct wt as [|w1 wt]; [cbn; constructor; [auto|constructor]|].
  pose proof (Sorted_head2 _ _ _ _ Hs) as Hlt. pose proof (Sorted_tail _ _ _ Hs) as Hs2.
  change (node_weights c (w0 :: w1 :: wt)) with ((c + (w1 - w0) / 2) :: node_weights ((w1 - w0) / 2) (w1 :: wt)). constructor; [lra|]. apply IH; [lra|auto].
Qed.
Lemma node_weights_length ws : forall c, List.length (node_weights c ws) = List.length ws.
Proof.
  induction ws as [|w0 [|w1 wt] IH]; intros; auto.
  change (node_weights c (w0 :: w1 :: wt)) with ((c + (w1 - w0) / 2) :: node_weights ((w1 - w0) / 2) (w1 :: wt)).
  cbn [List.length]. f_equal. apply IH.
Qed.

(** Chebyshev: with larger abscissae carrying smaller factors *)
Definition ssum (f : R * R -> R) (l : list (R * R)) : R := fold_right (fun p a => f p + a) 0 l.
Lemma cheb_one (v : R -> R) (p0 x0 : R) l :
  (forall x y, 0 < x -> x <= y -> v y <= v x) -> 0 < x0 -> Forall (fun p => 0 <= fst p /\ x0 <= snd p) l ->
  x0 * v x0 * ssum fst l + ssum (fun p => fst p * (snd p * v (snd p))) l
  <= x0 * ssum (fun p => fst p * v (snd p)) l + v x0 * ssum (fun p => fst p * snd p) l.
Proof.
  intros Hv Hx. induction l as [|[p x] l IH]; intros F; [cbn; lra|].
  inversion F as [|? ? [H1 H2] F']; subst. specialize (IH F'). cbn [ssum fold_right fst snd] in *.
  fold (ssum fst l) (ssum (fun p => fst p * (snd p * v (snd p))) l) (ssum (fun p => fst p * v (snd p)) l) (ssum (fun p => fst p * snd p) l) in *.
  cbn [fst snd] in H1, H2.
  specialize (Hv x0 x Hx H2). assert (0 <= p * ((x - x0) * (v x0 - v x))) by (apply Rmult_le_pos; [lra|apply Rmult_le_pos; lra]). nra.
Qed.
Lemma cheb (v : R -> R) l :
  (forall x y, 0 < x -> x <= y -> v y <= v x) -> Sorted (fun a b => snd a <= snd b) l ->
  Forall (fun p => 0 <= fst p /\ 0 < snd p) l ->
  ssum (fun p => fst p * (snd p * v (snd p))) l * ssum fst l
  <= ssum (fun p => fst p * snd p) l * ssum (fun p => fst p * v (snd p)) l.
Proof.
  intros Hv. induction l as [|[p x] l IH]; intros S F; [cbn; lra|].
  assert (S' := S). apply Sorted_StronglySorted in S'; [|intros a b c; lra].
  inversion S; subst. inversion F as [|? ? [H3 H4] F']; subst. cbn [fst snd] in *.
  assert (G : Forall (fun q => 0 <= fst q /\ x <= snd q) l).
  { apply Forall_forall. intros q Hq. inversion S'; subst. rewrite Forall_forall in *. split; [apply (F' q Hq)|]. apply (H6 q Hq). }
  specialize (IH H1 F'). pose proof (cheb_one v p x l Hv H4 G) as O.
  cbn [ssum fold_right fst snd].
  fold (ssum fst l) (ssum (fun p => fst p * (snd p * v (snd p))) l) (ssum (fun p => fst p * v (snd p)) l) (ssum (fun p => fst p * snd p) l).
  apply (Rmult_le_compat_l p) in O; [|lra]. nra.
Qed.

Lemma dot_ssum c ws rs (g : R -> R -> R) : List.length rs = List.length ws -> List.length c = List.length ws ->
  Forall (fun w => 0 < w) ws -> forall v : R -> R, (forall w r, 0 < w -> g w r = r * v w) ->
  dot c (map (fun p => g (fst p) (snd p)) (combine ws rs)) =
  ssum (fun p => fst p * v (snd p)) (combine (map (fun q => fst q * snd q) (combine c rs)) ws).
Proof.
  intros L1 L2 Hw v Hg. revert c rs L1 L2. induction Hw as [|w ws Hw0 Hw IH]; intros [|c0 c] [|r rs] L1 L2; try discriminate; [reflexivity|].
  cbn [combine map dot ssum fold_right fst snd]. rewrite Hg by auto. injection L1 as L1. injection L2 as L2.
  rewrite (IH c rs L1 L2). unfold ssum. lra.
Qed.

Lemma ci_ssum ws rs (g : R -> R -> R) (v : R -> R) : List.length rs = List.length ws -> Forall (fun w => 0 < w) ws ->
  (forall w r, 0 < w -> g w r = r * v w) ->
  curve_integral g ws rs = ssum (fun p => fst p * v (snd p)) (combine (map (fun q => fst q * snd q) (combine (node_weights 0 ws) rs)) ws).
Proof.
  intros L Hw Hg. rewrite <- (dot_ssum (node_weights 0 ws) ws rs g); auto using node_weights_length.
  rewrite trapz_dot by (rewrite map_length, combine_length; lia).
  rewrite ci_trapz by auto. lra.
Qed.

Lemma ci_pos ws rs (v : R -> R) (g : R -> R -> R) : curve_ok ws rs -> (forall w, 0 < w -> 0 < v w) ->
  (forall w r, 0 < w -> g w r = r * v w) ->
  0 < curve_integral g ws rs.
Proof.
  intros (L & L2 & Hs & Hw & Hr & He) Hv Hg. rewrite ci_trapz by auto.
  apply Rtrapz_pos; auto.
  - rewrite map_length, combine_length. lia.
  - rewrite map_length, combine_length. lia.
  - clear - L Hw Hr Hv Hg. revert rs L Hr. induction ws as [|w ws IH]; intros [|r rs] L Hr; try discriminate; cbn; constructor.
    + cbn. inversion Hw; inversion Hr; subst. rewrite Hg by auto. specialize (Hv w H1). apply Rmult_le_pos; lra.
    + apply IH; [now inversion Hw|now injection L|now inversion Hr].
  - clear - L Hw He Hv Hg. revert rs L He. induction ws as [|w ws IH]; intros [|r rs] L He; try discriminate; [inversion He|].
    cbn. inversion Hw; subst. inversion He; subst.
    + left. cbn. rewrite Hg by auto. apply Rmult_lt_0_compat; auto.
    + right. apply IH; auto.
Qed.

Lemma inv4_decr : forall x y, 0 < x -> x <= y -> 1 / y ^ 4 <= 1 / x ^ 4.
Proof.
  intros x y Hx Hy. unfold Rdiv. rewrite !Rmult_1_l. apply Rinv_le_contravar; [apply pow_lt; auto|]. apply pow_incr. lra.
Qed.
Lemma inv3 w r : 0 < w -> r / w ^ 3 = r * (w * (1 / w ^ 4)).
Proof. intros. field. lra. Qed.

(** the terms of the sums *)
Definition terms (ws rs : list R) := combine (map (fun q => fst q * snd q) (combine (node_weights 0 ws) rs)) ws.
Lemma terms_ok ws rs : curve_ok ws rs ->
  Sorted (fun a b => snd a <= snd b) (terms ws rs) /\ Forall (fun p => 0 <= fst p /\ 0 < snd p) (terms ws rs).
Proof.
  intros (L & L2 & Hs & Hw & Hr & He). unfold terms.
  pose proof (node_weights_nonneg ws 0 (Rle_refl 0) Hs) as Hn. pose proof (node_weights_length ws 0) as Ln.
  revert Hn Ln. generalize (node_weights 0 ws). clear L2 He. revert rs L Hr.
  induction ws as [|w ws IH]; intros [|r rs] L Hr [|c cs] Hn Ln; try discriminate; cbn [combine map].
  - split; constructor.
  - injection L as L. injection Ln as Ln.
    inversion Hs as [|? ? Hs1 Hs2]; inversion Hw as [|? ? Hw1 Hw2]; inversion Hr as [|? ? Hr1 Hr2]; inversion Hn as [|? ? Hn1 Hn2]; subst.
    destruct (IH Hs1 Hw2 rs L Hr2 cs Hn2 Ln) as [S F]. split.
    + constructor; [exact S|]. destruct ws as [|w1 ws], rs as [|r1 rs], cs as [|c1 cs]; try discriminate; cbn; [constructor|].
      constructor. cbn. inversion Hs2; subst. lra.
    + constructor; [|exact F]. cbn. split; [apply Rmult_le_pos; auto|auto].
Qed.

Lemma p4_pos ws rs : curve_ok ws rs -> 0 < curve_integral (fun w r => r / w ^ 4) ws rs.
Proof.
  intros H. apply (ci_pos ws rs (fun w => 1 / w ^ 4)); auto.
  - intros. apply Rdiv_lt_0_compat; [lra|apply pow_lt; auto].
  - intros. unfold Rdiv. lra.
Qed.
Lemma p0_pos ws rs : curve_ok ws rs -> 0 < curve_integral (fun _ r => r) ws rs.
Proof. intros H. apply (ci_pos ws rs (fun _ => 1)); auto; intros; lra. Qed.

Lemma rayleigh_le_mean ws rs : curve_ok ws rs -> rayleigh_wavelength ws rs <= mean_wavelength ws rs.
Proof.
  intros H. destruct (terms_ok ws rs H) as [S F]. pose proof H as (L & _ & _ & Hw & _).
  pose proof (cheb (fun w => 1 / w ^ 4) (terms ws rs) inv4_decr S F) as C.
  pose proof (p0_pos _ _ H) as P0. pose proof (p4_pos _ _ H) as P4.
  unfold rayleigh_wavelength, mean_wavelength.
  rewrite (ci_ssum ws rs (fun w r => r / w ^ 4) (fun w => 1 / w ^ 4)) in P4 |- * by (auto; intros; unfold Rdiv; lra).
  rewrite (ci_ssum ws rs (fun w r => r / w ^ 3) (fun w => w * (1 / w ^ 4))) by (auto using inv3).
  rewrite (ci_ssum ws rs (fun w r => r * w) (fun w => w)) by auto.
  rewrite (ci_ssum ws rs (fun _ r => r) (fun _ => 1)) in P0 |- * by (auto; intros; lra).
  fold (terms ws rs) in *.
  assert (E : ssum (fun p => fst p * 1) (terms ws rs) = ssum fst (terms ws rs)).
  { clear. induction (terms ws rs) as [|[p x] l IH]; [reflexivity|]. unfold ssum in *. cbn [fold_right fst]. rewrite IH. lra. }
  rewrite E in *. cbn beta in *.
  set (A := ssum (fun p => fst p * (snd p * (1 / snd p ^ 4))) (terms ws rs)) in *.
  set (B := ssum (fun p => fst p * (1 / snd p ^ 4)) (terms ws rs)) in *.
  set (D := ssum (fun p => fst p * snd p) (terms ws rs)) in *. set (G := ssum fst (terms ws rs)) in *.
  apply Rmult_le_reg_r with (B * G); [apply Rmult_lt_0_compat; auto|].
  replace (A / B * (B * G)) with (A * G) by (field; lra). replace (D / G * (B * G)) with (D * B) by (field; lra). exact C.
Qed.

(** the same numbers from the model *)
Lemma ci_vmul2 ws rs (v : R -> R) : List.length rs = List.length ws ->
  Rtrapz (Rvmul rs (map v ws)) ws = curve_integral (fun w r => r * v w) ws rs.
Proof.
  intros L. rewrite ci_trapz by auto. f_equal. unfold Rvmul. clear - L.
  revert rs L. induction ws as [|w ws IH]; intros [|r rs] L; try discriminate; cbn; [reflexivity|]. f_equal. apply IH. now injection L.
Qed.
Lemma ci_ext f g ws : forall rs, Forall (fun w => 0 < w) ws -> (forall w r, 0 < w -> f w r = g w r) -> curve_integral f ws rs = curve_integral g ws rs.
Proof.
  induction ws as [|w0 wt IH]; intros [|r0 rt] Hw E; try reflexivity.
  inversion Hw as [|? ? H1 H2]; subst. destruct wt as [|w1 wt], rt as [|r1 rt]; try reflexivity.
  rewrite !ci_cons2.
  rewrite (IH (r1 :: rt) H2 E). inversion H2; subst. rewrite !E by auto. reflexivity.
Qed.

Lemma central_rayleigh_value ws rs : curve_ok ws rs ->
  get_central_wave (N := XRN) (map Fin ws) (map Fin rs)
    (WArray (map (fun w => ndiv XRN (nlit XRN 1 1) (@npow XRN w 4)) (map Fin ws))) = Ok (Fin (rayleigh_wavelength ws rs)).
Proof.
  intros H. pose proof H as (L & L2 & Hs & Hw & Hr & He).
  assert (E : map (fun w => ndiv XRN (nlit XRN 1 1) (@npow XRN w 4)) (map Fin ws) = map Fin (map (fun w => 1 / w ^ 4) ws)).
  { rewrite !map_map. apply map_ext_in. intros w Hin. rewrite npow_fin. cbn [nlit XRN ndiv]. rewrite xlit_eq.
    rewrite Forall_forall in Hw. specialize (Hw _ Hin).
    assert (0 < w ^ 4) by (apply pow_lt; auto).
    rewrite xdiv_fin by lra. f_equal. lra. }
  rewrite E. rewrite central_warr by (rewrite ?map_length; auto).
  pose proof (p4_pos _ _ H) as P4.
  assert (E4 : Rtrapz (Rvmul rs (map (fun w => 1 / w ^ 4) ws)) ws = curve_integral (fun w r => r / w ^ 4) ws rs).
  { rewrite ci_vmul2 by auto. apply ci_ext; auto. intros. unfold Rdiv. lra. }
  assert (E3 : Rtrapz (Rvmul (Rvmul rs (map (fun w => 1 / w ^ 4) ws)) ws) ws = curve_integral (fun w r => r / w ^ 3) ws rs).
  { rewrite Rvmul_assoc. transitivity (Rtrapz (Rvmul rs (map (fun w => 1 / w ^ 4 * w) ws)) ws).
    - do 2 f_equal. clear. unfold Rvmul. induction ws as [|w ws IH]; [reflexivity|]. cbn. now f_equal.
    - rewrite (ci_vmul2 ws rs (fun w => 1 / w ^ 4 * w)) by auto. apply ci_ext; auto. intros. rewrite inv3 by auto. lra. }
  rewrite E3, E4. rewrite xdiv_fin by lra. reflexivity.
Qed.
Lemma central_mean_value ws rs : curve_ok ws rs ->
  get_central_wave (map Fin ws) (map Fin rs) (WScalar (@n1 XRN)) = Ok (Fin (mean_wavelength ws rs)).
Proof.
  intros H. pose proof H as (L & L2 & Hs & Hw & Hr & He). pose proof (p0_pos _ _ H) as P0.
  rewrite central_fin by auto.
  assert (E0 : Rtrapz rs ws = curve_integral (fun _ r => r) ws rs).
  { rewrite ci_trapz by auto. f_equal. clear - L. revert rs L. induction ws as [|w ws IH]; intros [|r rs] L; try discriminate; [reflexivity|].
    cbn. f_equal. apply IH. now injection L. }
  assert (E1 : Rtrapz (Rvmul rs ws) ws = curve_integral (fun w r => r * w) ws rs).
  { transitivity (Rtrapz (Rvmul rs (map (fun w => w) ws)) ws); [now rewrite map_id|]. apply (ci_vmul2 ws rs (fun w => w)); auto. }
  rewrite E0, E1, xdiv_fin by lra. reflexivity.
Qed.
Lemma Sorted_lt_le l : Sorted Rlt l -> Sorted Rle l.
Proof. induction 1 as [|a l H IH Hd]; constructor; auto. destruct Hd; constructor. lra. Qed.
Lemma rayleigh_in_band ws rs : curve_ok ws rs -> hd 0 ws <= rayleigh_wavelength ws rs /\ mean_wavelength ws rs <= last ws 0.
Proof.
  intros H. pose proof H as (L & L2 & Hs & Hw & Hr & He). split.
  - destruct (central_rayleigh ws rs L L2 Hs Hw Hr He) as (c & E & B).
    pose proof (central_rayleigh_value ws rs H) as E'. change (num XRN) with XR in *. rewrite E' in E. injection E as <-. lra.
  - assert (P0 : 0 < Rtrapz rs ws) by (apply Rtrapz_pos; auto; lia).
    destruct (central_bounds ws rs L (Sorted_lt_le _ Hs) Hr P0) as (c & E & B).
    pose proof (central_mean_value ws rs H) as E'. rewrite E' in E. injection E as <-. lra.
Qed.

Lemma effective_number : forall load p s x, @effective_wavelength XRN load p s (BNumber (Fin x)) = Ok (Fin (1000 * x)).
Proof. intros. unfold effective_wavelength. cbn [bind nlit nmul XRN]. rewrite xlit_eq. cbn. do 2 f_equal. lra. Qed.
Lemma getitem_curve st name ws rs : band_curve st name ws rs ->
  exists bd d, rsr_getitem (RsrDict (rs_instrument st) (rs_rsr st)) name = Ok bd /\ dget "det-1"%string bd = Some d /\
    get_arr "wavelength"%string d = Ok (map Fin ws) /\ get_arr "response"%string d = Ok (map Fin rs).
Proof.
  intros (Hi & bd & d & Hb & Hd & Hw & Hr). exists bd, d. split.
  - cbn [rsr_getitem]. destruct (getitem_spec _ (rs_instrument st) (rs_rsr st) name Hi) as [G _]. apply G. exact Hb.
  - split; auto. unfold get_arr. now rewrite Hw, Hr.
Qed.
Lemma effective_name : forall load p s st name ws rs, load p s = Ok st -> band_curve st name ws rs -> curve_ok ws rs ->
  @effective_wavelength XRN load p s (BStr name) = Ok (Fin (1000 * rayleigh_wavelength ws rs)).
Proof.
  intros load p s st name ws rs El Hb Hc. destruct (getitem_curve _ _ _ _ Hb) as (bd & d & E1 & E2 & E3 & E4).
  unfold effective_wavelength, rsr_wavelength_from_band_name. rewrite El. cbn [bind]. rewrite E1. cbn [bind]. rewrite E2. cbn [bind of_option].
  rewrite E3. cbn [bind]. rewrite E4. cbn [bind]. pose proof (central_rayleigh_value ws rs Hc) as E'. rewrite E'. cbn [bind nmul nlit XRN].
  rewrite xlit_eq. cbn. do 2 f_equal. lra.
Qed.

Lemma reflectance_by_name : forall oob dask load p s lut sun sat azi st name red ws rs,
  load p s = Ok st -> band_curve st name ws rs -> curve_ok ws rs ->
  @get_reflectance XRN oob dask load p s lut sun sat azi (BStr name) red =
  @get_reflectance XRN oob dask load p s lut sun sat azi (BNumber (Fin (rayleigh_wavelength ws rs))) red.
Proof.
  intros. unfold get_reflectance. rewrite (effective_name load p s st name ws rs) by auto. now rewrite effective_number.
Qed.
Lemma rayleigh_wavelength_range : forall ws rs, curve_ok ws rs ->
  hd 0 ws <= rayleigh_wavelength ws rs <= mean_wavelength ws rs /\ mean_wavelength ws rs <= last ws 0 /\
  get_central_wave (map Fin ws) (map Fin rs) (WScalar (@n1 XRN)) = Ok (Fin (mean_wavelength ws rs)).
Proof.
  intros ws rs H. destruct (rayleigh_in_band ws rs H). pose proof (rayleigh_le_mean ws rs H).
  split; [lra|]. split; [lra|]. apply central_mean_value; auto.
Qed.

Lemma ci_scale k f ws : forall rs, (forall w r, f w (k * r) = k * f w r) -> curve_integral f ws (map (Rmult k) rs) = k * curve_integral f ws rs.
Proof.
  induction ws as [|w0 wt IH]; intros [|r0 rt] E; try (cbn; lra). { destruct wt; cbn; lra. }
  destruct wt as [|w1 wt], rt as [|r1 rt]; try (cbn; lra).
  cbn [map]. specialize (IH (r1 :: rt) E). cbn [map] in IH.
  rewrite !ci_cons2.
  rewrite IH, !E. lra.
Qed.
Lemma rayleigh_wavelength_scale : forall ws rs k, curve_ok ws rs -> 0 < k ->
  curve_ok ws (map (Rmult k) rs) /\ rayleigh_wavelength ws (map (Rmult k) rs) = rayleigh_wavelength ws rs.
Proof.
  intros ws rs k Hc Hk. split.
  - destruct Hc as (L & L2 & Hs & Hw & Hr & He). unfold curve_ok. rewrite map_length. repeat split; auto.
    + apply Forall_map. eapply Forall_impl; [|exact Hr]. cbn. intros. apply Rmult_le_pos; lra.
    + apply Exists_exists in He. destruct He as (r & Hin & Hp). apply Exists_exists. exists (k * r). split; [now apply in_map|apply Rmult_lt_0_compat; auto].
  - unfold rayleigh_wavelength. rewrite !ci_scale by (intros; unfold Rdiv; lra).
    pose proof (p4_pos _ _ Hc). field. lra.
Qed.

Lemma effective_unreadable : forall load p s b e, load p s = Err e -> (forall x, b <> BNumber x) ->
  @effective_wavelength XRN load p s b = Err (if is_oserror e then KeyError else e).
Proof.
  intros load p s b e E Hb. unfold effective_wavelength. destruct b as [n|x|]; [|exfalso; eapply Hb; eauto|];
    unfold rsr_wavelength_from_band_name; rewrite E; reflexivity.
Qed.
Lemma effective_unknown : forall load p s st name, load p s = Ok st -> (forall l, rs_instrument st <> Some (IList l)) ->
  dget name (rs_rsr st) = None -> (forall k, std_name (rs_instrument st) name k -> dget k (rs_rsr st) = None) ->
  @effective_wavelength XRN load p s (BStr name) = Err KeyError.
Proof.
  intros load p s st name E Hi Hn Hk. unfold effective_wavelength, rsr_wavelength_from_band_name. rewrite E. cbn [bind rsr_getitem].
  destruct (getitem_spec _ (rs_instrument st) (rs_rsr st) name Hi) as [G1 G2].
  destruct (RSRDict_getitem (rs_instrument st) (rs_rsr st) name) as [v|e] eqn:Eg.
  - exfalso. destruct (proj1 (G1 v) eq_refl) as [H|(_ & k & H1 & H2)]; [congruence|]. rewrite (Hk k H1) in H2. discriminate.
  - rewrite (G2 e eq_refl). reflexivity.
Qed.
Lemma reflectance_unreadable : forall oob dask load p s lut sun sat azi b red e, load p s = Err e -> (forall x, b <> BNumber x) ->
  @get_reflectance XRN oob dask load p s lut sun sat azi b red = Err (if is_oserror e then KeyError else e).
Proof. intros. unfold get_reflectance. now rewrite (effective_unreadable load p s b e). Qed.
Lemma reflectance_unreadable' : forall oob dask load p s lut sun sat azi b red e, load p s = Err e -> (forall x, b <> BNumber x) ->
  (In e [OSError; FileNotFoundError; HTTPError; NetworkError] ->
     @get_reflectance XRN oob dask load p s lut sun sat azi b red = Err KeyError) /\
  (~ In e [OSError; FileNotFoundError; HTTPError; NetworkError] ->
     @get_reflectance XRN oob dask load p s lut sun sat azi b red = Err e).
Proof.
  intros oob dask load p s lut sun sat azi b red e H Hb. rewrite (reflectance_unreadable oob dask load p s lut sun sat azi b red e H Hb).
  split; intros K.
  - cbn in K. destruct K as [<-|[<-|[<-|[<-|[]]]]]; reflexivity.
  - destruct e; try reflexivity; exfalso; apply K; cbn; tauto.
Qed.
Lemma reflectance_unknown : forall oob dask load p s lut sun sat azi st name red,
  load p s = Ok st -> (forall l, rs_instrument st <> Some (IList l)) ->
  dget name (rs_rsr st) = None -> (forall k, std_name (rs_instrument st) name k -> dget k (rs_rsr st) = None) ->
  @get_reflectance XRN oob dask load p s lut sun sat azi (BStr name) red = Err KeyError.
Proof. intros. unfold get_reflectance. now rewrite (effective_unknown load p s st name). Qed.
