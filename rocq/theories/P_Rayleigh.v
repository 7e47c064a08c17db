(** Lemmas for the Rayleigh correction. *)
From Coq Require Import Reals Lra ZArith String List Bool Lia Arith Psatz.
From Verif Require Import Base NumSig XR M_Tables M_Utils M_Rsr M_RadTb M_Nir M_Rayleigh S_Nir S_Rayleigh P_Arr.
Import ListNotations.
Local Open Scope R_scope.

(** ** Angles *)
Lemma max_angle_bounds m : 1 <= m -> 0 <= max_angle m < 90 /\ cos (max_angle m * PI / 180) = 1 / m.
Proof.
  intros Hm. unfold max_angle. pose proof PI_RGT_0 as HP.
  assert (H1 : 0 < 1 / m <= 1).
  { split; [apply Rdiv_lt_0_compat; lra|]. apply (Rmult_le_reg_r m); [lra|]. unfold Rdiv. rewrite Rmult_assoc, Rinv_l; lra. }
  replace (acos (1 / m) * 180 / PI * PI / 180) with (acos (1 / m)) by (field; lra).
  assert (C : cos (acos (1 / m)) = 1 / m) by (apply cos_acos; lra).
  pose proof (acos_bound (1 / m)) as [B1 B2].
  assert (B3 : acos (1 / m) < PI / 2).
  { destruct (Rlt_dec (acos (1 / m)) (PI / 2)) as [H|H]; [exact H|]. exfalso.
    assert (cos (acos (1 / m)) <= cos (PI / 2)) by (apply cos_decr_1; lra).
    rewrite cos_PI2, C in H0. lra. }
  repeat split.
  - apply Rmult_le_pos; [apply Rmult_le_pos; lra|]. left. now apply Rinv_0_lt_compat.
  - apply (Rmult_lt_reg_r PI); [lra|]. unfold Rdiv. rewrite Rmult_assoc, Rinv_l by lra. lra.
  - exact C.
Qed.

Lemma sec_range m a : 1 <= m -> 0 <= a <= max_angle m -> 0 < cos (a * PI / 180) /\ 1 <= sec_deg a <= m.
Proof.
  intros Hm [Ha Ha']. destruct (max_angle_bounds m Hm) as [[M0 M1] C]. pose proof PI_RGT_0 as HP.
  assert (0 <= a * PI / 180) by (apply Rmult_le_pos; [apply Rmult_le_pos; lra|lra]).
  assert (a * PI / 180 <= max_angle m * PI / 180) by (apply Rmult_le_compat_r; [lra|]; apply Rmult_le_compat_r; lra).
  assert (max_angle m * PI / 180 < PI / 2) by (assert (max_angle m * PI < 90 * PI) by (apply Rmult_lt_compat_r; lra); lra).
  assert (L : 1 / m <= cos (a * PI / 180)) by (rewrite <- C; apply cos_decr_1; lra).
  pose proof (COS_bound (a * PI / 180)) as [_ U].
  assert (0 < 1 / m) by (apply Rdiv_lt_0_compat; lra).
  unfold sec_deg. set (c := cos (a * PI / 180)) in *. clearbody c.
  split; [lra|]. split.
  - apply (Rmult_le_reg_r c); [lra|]. replace (1 / c * c) with 1 by (field; lra). lra.
  - apply (Rmult_le_reg_r c); [lra|]. replace (1 / c * c) with 1 by (field; lra).
    apply (Rmult_le_compat_l m) in L; [|lra]. replace (m * (1 / m)) with 1 in L by (field; lra). exact L.
Qed.

Lemma lit_fin m d : nlit XRN m d = Fin (IZR m / IZR (Zpos d)). Proof. reflexivity. Qed.
Lemma lit1 : nlit XRN 1 1 = Fin 1. Proof. rewrite lit_fin. f_equal. lra. Qed.

Lemma dbl_max_big : 180 <= IZR (2 ^ 1024 - 2 ^ 971).
Proof. apply IZR_le. vm_compute. discriminate. Qed.

Lemma clip_eq z m : 1 <= m ->
  @clip_angle XRN z (Fin m) = Fin (match z with Fin a => Rclip a 0 (max_angle m) | PInf => max_angle m | NInf | NaN => 0 end).
Proof.
  intros Hm. pose proof (max_angle_bounds m Hm) as [[M0 M1] _]. pose proof PI_RGT_0 as HP.
  assert (0 < 1 / m <= 1).
  { split; [apply Rdiv_lt_0_compat; lra|]. apply (Rmult_le_reg_r m); [lra|]. unfold Rdiv. rewrite Rmult_assoc, Rinv_l; lra. }
  unfold clip_angle. cbv zeta. rewrite lit1. cbn [ndiv XRN nacos]. rewrite xdiv_fin by lra. rewrite xacos_fin by lra.
  unfold rad2deg. cbn [npi XRN ndiv nmul]. rewrite nZ_fin. rewrite xdiv_fin by lra. cbn [xmul].
  replace (acos (1 / m) * (180 / PI)) with (max_angle m) by (unfold max_angle; field; lra).
  rewrite nan_to_num_fin, n0_fin. pose proof dbl_max_big as HB.
  assert (HD : @dbl_max XRN = Fin (IZR (2 ^ 1024 - 2 ^ 971))).
  { unfold dbl_max. rewrite lit_fin. f_equal. unfold Rdiv. rewrite Rinv_1. ring. }
  unfold nan_to_num. rewrite n0_fin, HD. clear HD. set (D := IZR (2 ^ 1024 - 2 ^ 971)) in *. clearbody D.
  destruct z as [a| | |]; cbn [nisnan nisinf nltb XRN xisnan xisinf xltb nneg xneg]; rewrite nclip_fin; f_equal; unfold Rclip.
  - rewrite Rmax_left by lra. rewrite Rmin_right; lra.
  - rewrite Rmax_right by lra. rewrite Rmin_left; lra.
  - rewrite Rmax_right by lra. rewrite Rmin_left; lra.
Qed.

Lemma Rclip_range x lo hi : lo <= hi -> lo <= Rclip x lo hi <= hi.
Proof.
  intros H. unfold Rclip. split.
  - apply Rmin_glb; [apply Rmax_r|exact H].
  - apply Rmin_r.
Qed.
Lemma Rclip_inside x lo hi : lo <= x <= hi -> Rclip x lo hi = x.
Proof. intros H. unfold Rclip. rewrite Rmax_left by lra. now rewrite Rmin_left by lra. Qed.
Lemma Rclip_mono x y lo hi : x <= y -> Rclip x lo hi <= Rclip y lo hi.
Proof. intros H. unfold Rclip, Rmin, Rmax. repeat destruct (Rle_dec _ _); lra. Qed.

(** C33 *)
Lemma clipping (m : R) : 1 <= m -> forall z : XR, exists a, @clip_angle XRN z (Fin m) = Fin a /\
  0 <= a <= max_angle m /\ 1 <= sec_deg a <= m /\
  (z = NaN -> a = 0) /\ (z = PInf -> a = max_angle m) /\ (z = NInf -> a = 0) /\
  (forall x, z = Fin x -> (0 <= x <= max_angle m -> a = x) /\ (x <= 0 -> a = 0) /\ (max_angle m <= x -> a = max_angle m)) /\
  clip_angle (Fin a) (Fin m) = Fin a /\
  (forall z' a', @clip_angle XRN z' (Fin m) = Fin a' -> nleb XRN z z' = true -> a <= a').
Proof.
  intros Hm z. pose proof (max_angle_bounds m Hm) as [[M0 M1] _]. rewrite clip_eq by exact Hm. eexists. split; [reflexivity|].
  match goal with |- 0 <= ?e <= _ /\ _ => assert (R : 0 <= e <= max_angle m) end.
  { destruct z; try lra. now apply Rclip_range. }
  split; [exact R|]. split; [now apply sec_range|].
  split; [now intros ->|]. split; [now intros ->|]. split; [now intros ->|]. split.
  { intros x ->. split; [|split]; intros H.
    - now apply Rclip_inside.
    - unfold Rclip. rewrite Rmax_right by lra. apply Rmin_left; lra.
    - unfold Rclip. rewrite Rmax_left by lra. apply Rmin_right; lra. }
  split.
  - rewrite clip_eq by exact Hm. f_equal. now apply Rclip_inside.
  - intros z' a' H H0. rewrite clip_eq in H by exact Hm. injection H as <-.
    destruct z as [x| | |], z' as [y| | |]; cbn in H0; try discriminate; try lra;
      first [apply Rclip_mono; now apply Rleb_iff | apply Rclip_range; lra].
Qed.

(** ** Searching an axis *)
Lemma np_lt_fin a b : @np_lt XRN (Fin a) (Fin b) = Rltb a b.
Proof. unfold np_lt. cbn. now rewrite orb_false_r. Qed.

Lemma bisect_spec ws v : increasing ws -> forall fuel lo hi, (lo <= hi <= List.length ws)%nat -> (hi - lo < fuel)%nat ->
  (forall i x, (i < lo)%nat -> nth_error ws i = Some x -> x < v) ->
  (forall i x, (hi <= i)%nat -> nth_error ws i = Some x -> v <= x) ->
  let r := @bisect XRN fuel (map Fin ws) (Fin v) lo hi in (lo <= r <= hi)%nat /\
  (forall i x, (i < r)%nat -> nth_error ws i = Some x -> x < v) /\
  (forall i x, (r <= i)%nat -> nth_error ws i = Some x -> v <= x).
Proof.
  intros Hinc. induction fuel as [|fuel IH]; intros lo hi Hle Hf H1 H2; [lia|]. cbn [bisect].
  destruct (Nat.ltb_spec lo hi) as [Hlt|Hge].
  - set (mid := (lo + Nat.div2 (hi - lo))%nat).
    assert (Hm : (lo <= mid < hi)%nat) by (unfold mid; pose proof (Nat.div2_decr (hi - lo) (hi - lo - 1)); pose proof (Nat.lt_div2 (hi - lo)); lia).
    cbv zeta. rewrite nth_error_map. destruct (nth_error ws mid) as [x|] eqn:E; [|apply nth_error_None in E; lia].
    cbn [option_map]. rewrite np_lt_fin. unfold Rltb. destruct (Rlt_dec x v) as [Hx|Hx].
    + destruct (IH (S mid) hi) as (A & B & C); [lia|lia| |exact H2|].
      * intros i y Hi Hy. destruct (Nat.eq_dec i mid) as [->|Hn]; [congruence|].
        assert (y < x) by (apply (Hinc i mid y x); [lia|exact Hy|exact E]). lra.
      * split; [lia|]. split; [exact B|exact C].
    + destruct (IH lo mid) as (A & B & C); [lia|lia|exact H1| |].
      * intros i y Hi Hy. destruct (Nat.eq_dec i mid) as [->|Hn]; [assert (x = y) as -> by congruence; lra|].
        assert (x < y) by (apply (Hinc mid i x y); [lia|exact E|exact Hy]). lra.
      * split; [lia|]. split; [exact B|exact C].
  - split; [lia|]. assert (lo = hi) by lia. subst hi. auto.
Qed.

Lemma searchsorted_spec ws v : increasing ws -> let r := @searchsorted XRN (map Fin ws) (Fin v) in (r <= List.length ws)%nat /\
  (forall i x, (i < r)%nat -> nth_error ws i = Some x -> x < v) /\
  (forall i x, (r <= i)%nat -> nth_error ws i = Some x -> v <= x).
Proof.
  intros H. unfold searchsorted. rewrite map_length.
  destruct (bisect_spec ws v H (S (List.length ws)) 0 (List.length ws)) as (A & B & C); [lia|lia|intros; lia| |].
  - intros i x Hi E. assert (nth_error ws i <> None) by congruence. apply nth_error_Some in H0. lia.
  - split; [lia|]. auto.
Qed.

Lemma fold_min_fin l : forall x, exists m, fold_left (@nmin XRN) (map Fin l) (Fin x) = Fin m /\ In m (x :: l) /\ (forall y, In y (x :: l) -> m <= y).
Proof.
  induction l as [|a l IH]; intros x; cbn [map fold_left].
  - exists x. split; [reflexivity|]. split; [now left|]. intros y [<-|[]]. lra.
  - rewrite nmin_fin. destruct (IH (Rmin x a)) as (m & E & I & M). exists m. split; [exact E|]. split.
    + destruct I as [<-|I]; [|right; now right]. unfold Rmin. destruct (Rle_dec x a); [now left|right; now left].
    + intros y [<-|[<-|Hy]].
      * apply Rle_trans with (Rmin x a); [apply M; now left|apply Rmin_l].
      * apply Rle_trans with (Rmin x a); [apply M; now left|apply Rmin_r].
      * apply M. now right.
Qed.
Lemma fold_max_fin l : forall x, exists m, fold_left (@nmax XRN) (map Fin l) (Fin x) = Fin m /\ In m (x :: l) /\ (forall y, In y (x :: l) -> y <= m).
Proof.
  induction l as [|a l IH]; intros x; cbn [map fold_left].
  - exists x. split; [reflexivity|]. split; [now left|]. intros y [<-|[]]. lra.
  - rewrite nmax_fin. destruct (IH (Rmax x a)) as (m & E & I & M). exists m. split; [exact E|]. split.
    + destruct I as [<-|I]; [|right; now right]. unfold Rmax. destruct (Rle_dec x a); [right; now left|now left].
    + intros y [<-|[<-|Hy]].
      * apply Rle_trans with (Rmax x a); [apply Rmax_l|apply M; now left].
      * apply Rle_trans with (Rmax x a); [apply Rmax_r|apply M; now left].
      * apply M. now right.
Qed.
Lemma amin_fin l : l <> [] -> exists m, @amin XRN (map Fin l) = Ok (Fin m) /\ In m l /\ (forall y, In y l -> m <= y).
Proof. destruct l as [|x l]; [congruence|]. intros _. cbn [map amin]. destruct (fold_min_fin l x) as (m & -> & H). eauto. Qed.
Lemma amax_fin l : l <> [] -> exists m, @amax XRN (map Fin l) = Ok (Fin m) /\ In m l /\ (forall y, In y l -> y <= m).
Proof. destruct l as [|x l]; [congruence|]. intros _. cbn [map amax]. destruct (fold_max_fin l x) as (m & -> & H). eauto. Qed.

Lemma axis_ne l lo hi : axis l lo hi -> l <> [].
Proof. intros (_ & H & _) ->. cbn in H. lia. Qed.
Lemma axis_in l lo hi x : axis l lo hi -> In x l -> lo <= x <= hi.
Proof.
  intros (Hi & Hl & _ & H0 & H1) Hx. apply In_nth_error in Hx as [n Hn].
  assert (n < List.length l)%nat by (apply nth_error_Some; congruence). split.
  - destruct n; [assert (x = lo) by congruence; lra|]. left. apply (Hi 0%nat (S n) lo x); [lia|exact H0|exact Hn].
  - destruct (Nat.eq_dec n (List.length l - 1)) as [->|]; [assert (x = hi) by congruence; lra|].
    left. apply (Hi n (List.length l - 1)%nat x hi); [lia|exact Hn|exact H1].
Qed.
Lemma axis_max l lo hi : axis l lo hi -> @amax XRN (map Fin l) = Ok (Fin hi).
Proof.
  intros H. destruct (amax_fin l (axis_ne _ _ _ H)) as (m & E & I & M). rewrite E.
  assert (In hi l) by (destruct H as (_ & _ & _ & _ & H); eapply nth_error_In, H).
  pose proof (axis_in _ _ _ _ H I). pose proof (M hi H0). do 2 f_equal. lra.
Qed.
Lemma axis_first l lo hi : axis l lo hi -> @first XRN (map Fin l) = Ok (Fin lo).
Proof. intros (_ & _ & _ & H & _). unfold first, idx. rewrite nth_error_map, H. reflexivity. Qed.
Lemma axis_last l lo hi : axis l lo hi -> @lastof XRN (map Fin l) = Ok (Fin hi).
Proof.
  intros (_ & Hl & _ & _ & H). unfold lastof, pyidx. cbn [Z.ltb Z.compare]. rewrite map_length.
  destruct (Z.ltb_spec (-1 + Z.of_nat (List.length l)) 0); [lia|]. unfold idx.
  replace (Z.to_nat (-1 + Z.of_nat (List.length l))) with (List.length l - 1)%nat by lia.
  now rewrite nth_error_map, H.
Qed.
Lemma axis_lt l lo hi : axis l lo hi -> lo < hi.
Proof. intros (Hi & Hl & _ & H0 & H1). apply (Hi 0%nat (List.length l - 1)%nat); [lia|exact H0|exact H1]. Qed.

(** C34 *)
Lemma wavelength_index ws w : increasing ws -> inside ws w ->
  exists i w1 w2 f, @get_wavelength_index_and_factor XRN (map Fin ws) (Fin w) = Ok (S i, Fin f) /\
    nth_error ws i = Some w1 /\ nth_error ws (S i) = Some w2 /\ w1 < w <= w2 /\
    0 <= f < 1 /\ f * w1 + (1 - f) * w2 = w.
Proof.
  intros Hinc [(a & Ha & Haw) (b & Hb & Hbw)]. destruct (searchsorted_spec ws w Hinc) as (HR & HA & HB).
  unfold get_wavelength_index_and_factor. cbv zeta. set (r := @searchsorted XRN (map Fin ws) (Fin w)) in *. clearbody r.
  apply In_nth_error in Ha as [ia Ea]. apply In_nth_error in Hb as [ib Eb].
  assert (ia < r)%nat. { destruct (Nat.lt_ge_cases ia r); [auto|]. pose proof (HB ia a H Ea). lra. }
  assert (r <= ib)%nat. { destruct (Nat.lt_ge_cases ib r); [|auto]. pose proof (HA ib b H0 Eb). lra. }
  assert (ib < List.length ws)%nat by (apply nth_error_Some; congruence).
  destruct r as [|i]; [lia|].
  destruct (nth_error ws i) as [w1|] eqn:E1; [|apply nth_error_None in E1; lia].
  destruct (nth_error ws (S i)) as [w2|] eqn:E2; [|apply nth_error_None in E2; lia].
  pose proof (HA i w1 ltac:(lia) E1) as L1. pose proof (HB (S i) w2 ltac:(lia) E2) as L2.
  unfold pyidx. destruct (Z.ltb_spec (Z.of_nat (S i) - 1) 0); [lia|]. unfold idx.
  replace (Z.to_nat (Z.of_nat (S i) - 1)) with i by lia. rewrite !nth_error_map, E1, E2. cbn [option_map of_option bind nsub ndiv XRN xsub].
  rewrite xdiv_fin by lra. exists i, w1, w2, ((w2 - w) / (w2 - w1)). split; [reflexivity|].
  repeat (split; [solve [auto]|]). split.
  - split; [apply Rmult_le_pos; [lra|left; apply Rinv_0_lt_compat; lra]|].
    apply (Rmult_lt_reg_r (w2 - w1)); [lra|]. unfold Rdiv. rewrite Rmult_assoc, Rinv_l by lra. lra.
  - field. lra.
Qed.
