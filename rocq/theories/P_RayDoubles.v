(** The Rayleigh correction in doubles (C111). *)
From Coq Require Import Reals Lra ZArith String List Bool Arith Lia SpecFloat.
From Flocq Require Import Core BinarySingleNaN.
From Verif Require Import Base NumSig B64 M_Tables M_Utils M_Rsr M_RadTb M_Nir M_Rayleigh S_B64 S_Nir S_RayDoubles
     P_Arr P_Nir P_B64 P_B64ops P_NirDoubles.
Import ListNotations.
Local Open Scope R_scope.

(** ** Operations whose exact result is not huge *)
Definition val_is (x : b64) (r : R) : Prop := is_double x /\ to_R x = rnd64 r.
Lemma small_ok r : Rabs r <= 10 ^ 300 -> Rabs (rnd64 r) < bpow radix2 1024.
Proof. intros H. apply big_fin. pose proof big_value. lra. Qed.
Lemma v_mul x y : is_double x -> is_double y -> Rabs (to_R x * to_R y) <= 10 ^ 300 -> val_is (SFmul 53 1024 x y) (to_R x * to_R y).
Proof.
  intros (Vx & Fx) (Vy & Fy) H. destruct (mul_R x y Vx Vy Fx Fy (small_ok _ H)) as [E F]. split; [split; [now apply mul_dbl|exact F]|exact E].
Qed.
Lemma v_sub x y : is_double x -> is_double y -> Rabs (to_R x - to_R y) <= 10 ^ 300 -> val_is (SFsub 53 1024 x y) (to_R x - to_R y).
Proof.
  intros (Vx & Fx) (Vy & Fy) H. destruct (sub_R x y Vx Vy Fx Fy (small_ok _ H)) as [E F]. split; [split; [now apply sub_dbl|exact F]|exact E].
Qed.
Lemma v_div x y : is_double x -> is_double y -> to_R y <> 0 -> Rabs (to_R x / to_R y) <= 10 ^ 300 -> val_is (SFdiv 53 1024 x y) (to_R x / to_R y).
Proof.
  intros (Vx & Fx) (Vy & Fy) Hy H. destruct (div_R x y Vx Vy Fx Hy (small_ok _ H)) as [E F]. split; [split; [now apply div_dbl|exact F]|exact E].
Qed.
Lemma v_add x y : is_double x -> is_double y -> Rabs (to_R x + to_R y) <= 10 ^ 300 -> val_is (SFadd 53 1024 x y) (to_R x + to_R y).
Proof.
  intros (Vx & Fx) (Vy & Fy) H. destruct (add_R x y Vx Vy Fx Fy (small_ok _ H)) as [E F]. split; [split; [now apply add_dbl|exact F]|exact E].
Qed.
Lemma lt_R x y : is_double x -> is_double y -> SFltb x y = Rlt_bool (to_R x) (to_R y).
Proof. intros (Vx & Fx) (Vy & Fy). now apply ltb_R. Qed.
Lemma int_R z : (Z.abs z <= 2 ^ 53)%Z -> is_double (b64_ratio z 1) /\ to_R (b64_ratio z 1) = IZR z.
Proof. intros H. destruct (ratio_int z H) as (A & B & C). split; [split|]; assumption. Qed.
Lemma one_double : is_double (b64_ratio 1 1) /\ to_R (b64_ratio 1 1) = 1.
Proof. apply int_R. cbn. lia. Qed.
Lemma zero_double : is_double (b64_ratio 0 1) /\ to_R (b64_ratio 0 1) = 0.
Proof. apply int_R. cbn. lia. Qed.

(** clipping *)
Definition clampR (lo hi x : R) : R := Rmin (Rmax x lo) hi.
Lemma not_nan x : is_double x -> b64_nan x = false.
Proof. intros (_ & F). destruct x; auto; discriminate. Qed.
Lemma clip_R lib x lo hi : is_double x -> is_double lo -> is_double hi -> to_R lo <= to_R hi ->
  is_double (@nclip (B64N lib) x lo hi) /\ to_R (@nclip (B64N lib) x lo hi) = clampR (to_R lo) (to_R hi) (to_R x).
Proof.
  intros Dx Dl Dh H. unfold nclip, nmin, nmax, clampR. change (nisnan (B64N lib)) with b64_nan. change (nltb (B64N lib)) with SFltb.
  rewrite (not_nan x Dx), (not_nan lo Dl), (lt_R x lo Dx Dl).
  destruct (Rlt_bool_spec (to_R x) (to_R lo)) as [L|L].
  - rewrite (not_nan lo Dl), (not_nan hi Dh), (lt_R hi lo Dh Dl). destruct (Rlt_bool_spec (to_R hi) (to_R lo)); [lra|]. split; auto. rewrite Rmax_right, Rmin_left; lra.
  - rewrite (not_nan x Dx), (not_nan hi Dh), (lt_R hi x Dh Dx). rewrite Rmax_left by lra. destruct (Rlt_bool_spec (to_R hi) (to_R x)); split; auto; [rewrite Rmin_right|rewrite Rmin_left]; lra.
Qed.

(** ** High zenith angles *)
Definition factor64 (th mx st z : R) : R :=
  clampR 0 1 (rnd64 (1 - rnd64 (st * (if Rlt_bool z th then 0 else rnd64 (rnd64 (z - th) / rnd64 (mx - th)))))).
Lemma rnd_between a b x : a <= x <= b -> rnd64 a <= rnd64 x <= rnd64 b.
Proof. intros [A B]. split; apply rnd_le; lra. Qed.
Lemma rnd_1 : rnd64 1 = 1.
Proof. apply (rnd_IZR 1). cbn. lia. Qed.
Lemma rnd_big x n : (Z.abs n <= 2 ^ 53)%Z -> Rabs x <= IZR n -> Rabs (rnd64 x) <= IZR n.
Proof.
  intros Hn H. apply Rabs_le_inv in H. apply Rabs_le. rewrite <- (rnd_IZR n Hn) at 2. 
  assert (E : - IZR n = rnd64 (- IZR n)) by (rewrite <- opp_IZR, rnd_IZR; [reflexivity|lia]). rewrite E. apply rnd_between. lra.
Qed.
Lemma diff_pos d : 1 / 1000 <= d -> 1 / 1024 <= rnd64 d.
Proof.
  intros H. assert (E : rnd64 (/ IZR (2 ^ 10)) = / IZR (2 ^ 10)).
  { change (/ IZR (2 ^ 10)) with (bpow radix2 (-10)). apply round_generic; [apply valid_rnd_N|]. apply generic_format_bpow. cbn. lia. }
  replace (1 / 1024) with (/ IZR (2 ^ 10)) by (cbn; lra). rewrite <- E. apply rnd_le. cbn. lra.
Qed.
Lemma factor_R lib th mx st z : thresholds th mx st -> an_angle z ->
  is_double (@zenith_factor (B64N lib) z th mx st) /\ to_R (@zenith_factor (B64N lib) z th mx st) = factor64 (to_R th) (to_R mx) (to_R st) (to_R z).
Proof.
  intros ((Dt & Rt) & (Dm & Rm) & Hd & (Ds & Rs)) (Dz & Rz). destruct one_double as [D1 R1]. destruct zero_double as [D0 R0].
  change (@zenith_factor (B64N lib) z th mx st) with (@nclip (B64N lib) (SFsub 53 1024 (b64_ratio 1 1) (SFmul 53 1024 st
    (if SFltb z th then b64_ratio 0 1 else SFdiv 53 1024 (SFsub 53 1024 z th) (SFsub 53 1024 mx th)))) (b64_ratio 0 1) (b64_ratio 1 1)).
  rewrite (lt_R z th Dz Dt).
  assert (B : 10 ^ 300 = 10 ^ 20 * 10 ^ 280) by (rewrite <- pow_add; reflexivity). assert (B' : 1 <= 10 ^ 280) by (apply pow_R1_Rle; lra).
  match goal with |- context [SFmul 53 1024 st ?t] => assert (G : exists g, t = g /\ is_double g /\
     to_R g = (if Rlt_bool (to_R z) (to_R th) then 0 else rnd64 (rnd64 (to_R z - to_R th) / rnd64 (to_R mx - to_R th))) /\ Rabs (to_R g) <= IZR 4000000000) end.
  { destruct (Rlt_bool_spec (to_R z) (to_R th)) as [L|L].
    - exists (b64_ratio 0 1). rewrite R0, Rabs_R0. repeat split; try apply D0; try lra.
    - destruct (v_sub z th Dz Dt) as [DA EA]; [apply Rabs_le; nra|]. destruct (v_sub mx th Dm Dt) as [DB EB]; [apply Rabs_le; nra|].
      assert (PB : 1 / 1024 <= rnd64 (to_R mx - to_R th)) by (apply diff_pos; lra).
      assert (PA : Rabs (rnd64 (to_R z - to_R th)) <= IZR 2000000) by (apply rnd_big; [cbn; lia|apply Rabs_le; lra]).
      assert (Q : Rabs (rnd64 (to_R z - to_R th) / rnd64 (to_R mx - to_R th)) <= IZR 4000000000).
      { unfold Rdiv. rewrite Rabs_mult, (Rabs_pos_eq (/ _)) by (left; apply Rinv_0_lt_compat; lra).
        assert (I : / rnd64 (to_R mx - to_R th) <= 1024) by (replace 1024 with (/ (1 / 1024)) by lra; apply Rinv_le; lra).
        assert (0 <= / rnd64 (to_R mx - to_R th)) by (left; apply Rinv_0_lt_compat; lra). pose proof (Rabs_pos (rnd64 (to_R z - to_R th))). nra. }
      destruct (v_div _ _ DA DB) as [DQ EQ]; [rewrite EB; lra|rewrite EA, EB; lra|]. rewrite EA, EB in EQ.
      exists (SFdiv 53 1024 (SFsub 53 1024 z th) (SFsub 53 1024 mx th)). repeat split; try apply DQ; try exact EQ. rewrite EQ. apply rnd_big; [cbn; lia|exact Q]. }
  destruct G as (g & -> & Dg & Eg & Bg). fold (factor64 (to_R th) (to_R mx) (to_R st) (to_R z)).
  assert (P : Rabs (to_R st * to_R g) <= 10 ^ 6 * IZR 4000000000) by (rewrite Rabs_mult, (Rabs_pos_eq (to_R st)) by lra; pose proof (Rabs_pos (to_R g)); nra).
  destruct (v_mul st g Ds Dg) as [DP EP]; [lra|].
  assert (P' : Rabs (rnd64 (to_R st * to_R g)) <= IZR 4000000000000000) by (apply rnd_big; [cbn; lia|lra]).
  destruct (v_sub (b64_ratio 1 1) _ D1 DP) as [DS ES]; [rewrite R1, EP; apply Rabs_le; apply Rabs_le_inv in P'; lra|].
  destruct (clip_R lib _ (b64_ratio 0 1) (b64_ratio 1 1) DS D0 D1) as [DC EC]; [lra|]. split; [exact DC|]. rewrite EC, ES, EP, R0, R1. unfold factor64. now rewrite <- Eg.
Qed.

Lemma clamp_range x : 0 <= clampR 0 1 x <= 1.
Proof. unfold clampR, Rmin, Rmax. destruct (Rle_dec x 0); destruct (Rle_dec _ 1); lra. Qed.
Lemma clamp_mono x y : x <= y -> clampR 0 1 x <= clampR 0 1 y.
Proof. intros H. unfold clampR. apply Rle_min_compat_r, Rle_max_compat_r, H. Qed.
Lemma pos_quot a b : 0 <= a -> 0 < b -> 0 <= a / b.
Proof. intros A B. apply Rmult_le_pos; [exact A|left; now apply Rinv_0_lt_compat]. Qed.
Definition grow (th mx z : R) : R := if Rlt_bool z th then 0 else rnd64 (rnd64 (z - th) / rnd64 (mx - th)).
Lemma grow_nonneg th mx z : th + 1 / 1000 <= mx -> 0 <= grow th mx z.
Proof.
  intros H. unfold grow. destruct (Rlt_bool_spec z th); [lra|]. apply rnd_nonneg, pos_quot; [apply rnd_nonneg; lra|]. pose proof (diff_pos (mx - th)). lra.
Qed.
Lemma grow_mono th mx z z' : th + 1 / 1000 <= mx -> z <= z' -> grow th mx z <= grow th mx z'.
Proof.
  intros H Hz. pose proof (grow_nonneg th mx z' H) as G. unfold grow in *. destruct (Rlt_bool_spec z th); [exact G|]. destruct (Rlt_bool_spec z' th); [lra|].
  apply rnd_le. apply Rmult_le_compat_r; [left; apply Rinv_0_lt_compat; pose proof (diff_pos (mx - th)); lra|]. apply rnd_le. lra.
Qed.
Lemma factor_mono th mx st z z' : th + 1 / 1000 <= mx -> 0 <= st -> z <= z' -> factor64 th mx st z' <= factor64 th mx st z.
Proof.
  intros H Hs Hz. unfold factor64. apply clamp_mono, rnd_le. apply Rplus_le_compat_l, Ropp_le_contravar, rnd_le, Rmult_le_compat_l; [exact Hs|].
  exact (grow_mono th mx z z' H Hz).
Qed.
Lemma factor_below th mx st z : z <= th -> factor64 th mx st z = 1.
Proof.
  intros H. unfold factor64. assert (E : (if Rlt_bool z th then 0 else rnd64 (rnd64 (z - th) / rnd64 (mx - th))) = 0).
  { destruct (Rlt_bool_spec z th); [reflexivity|]. replace (z - th) with 0 by lra. rewrite rnd_0. unfold Rdiv. rewrite Rmult_0_l. apply rnd_0. }
  rewrite E, Rmult_0_r, rnd_0, Rminus_0_r, rnd_1. unfold clampR. rewrite Rmax_left, Rmin_left; lra.
Qed.
Lemma factor_beyond th mx st z : th + 1 / 1000 <= mx -> mx <= z -> 1 <= st -> factor64 th mx st z = 0.
Proof.
  intros H Hz Hs. unfold factor64. rewrite Rlt_bool_false by lra. pose proof (diff_pos (mx - th) ltac:(lra)) as D.
  assert (Q : 1 <= rnd64 (rnd64 (z - th) / rnd64 (mx - th))).
  { rewrite <- rnd_1. apply rnd_le. assert (rnd64 (mx - th) <= rnd64 (z - th)) by (apply rnd_le; lra). apply Rmult_le_reg_r with (rnd64 (mx - th)); [lra|]. unfold Rdiv. rewrite Rmult_assoc, Rinv_l; lra. }
  set (q := rnd64 (rnd64 (z - th) / rnd64 (mx - th))) in *. assert (P : 1 <= rnd64 (st * q)) by (rewrite <- rnd_1; apply rnd_le; nra).
  assert (S : rnd64 (1 - rnd64 (st * q)) <= 0) by (rewrite <- rnd_0; apply rnd_le; lra). unfold clampR. rewrite Rmax_right, Rmin_left; lra.
Qed.

(** accuracy *)
Lemma clamp_lip x y : Rabs (clampR 0 1 x - clampR 0 1 y) <= Rabs (x - y).
Proof.
  unfold clampR, Rmin, Rmax. destruct (Rle_dec x 0), (Rle_dec y 0); repeat destruct (Rle_dec _ 1); unfold Rabs; repeat destruct (Rcase_abs _); lra.
Qed.
Lemma kept_clamp th mx st z : 0 <= st -> kept th mx st z = clampR 0 1 (1 - st * Rmax 0 ((z - th) / (mx - th))).
Proof.
  intros H. unfold kept, clampR. pose proof (Rmax_l 0 ((z - th) / (mx - th))) as M. assert (0 <= st * Rmax 0 ((z - th) / (mx - th))) by (apply Rmult_le_pos; lra).
  rewrite (Rmax_comm 0), (Rmin_left (Rmax _ 0) 1); [reflexivity|]. apply Rmax_lub; lra.
Qed.
Lemma quot_err a b A B : 0 <= a -> 1 / 1000 <= b -> Rabs (A - a) <= u * a + eta -> Rabs (B - b) <= u * b + eta ->
  Rabs (A / B - a / b) <= 31 / 10 * u * (a / b) + 1100 * eta.
Proof.
  intros Ha Hb HA HB. pose proof u_val as [U0 U1]. pose proof eta_tiny' as [E0 E1]. pose proof tiny_val as [T0 T1].
  assert (E2 : eta <= u / 10 ^ 10). { eapply Rle_trans; [exact E1|]. unfold u. assert (tiny <= / 10 ^ 40) by lra. apply Rle_trans with (/ 10 ^ 40 / 10 ^ 20); [apply Rmult_le_compat_r; lra|lra]. }
  assert (HB' : Rabs (B - b) <= 2 * u * b) by nra. apply Rabs_le_inv in HB' as HB2.
  assert (PB : (1 - 2 * u) * b <= B) by lra. assert (P : 0 < B) by nra.
  replace (A / B - a / b) with (((A - a) * b - a * (B - b)) / (b * B)) by (field; lra).
  assert (N : Rabs ((A - a) * b - a * (B - b)) <= (3 * u * a + eta) * b).
  { eapply Rle_trans; [apply Rabs_triang|]. rewrite Rabs_Ropp, !Rabs_mult, (Rabs_pos_eq b), (Rabs_pos_eq a) by lra. nra. }
  unfold Rdiv at 1. rewrite Rabs_mult, (Rabs_pos_eq (/ (b * B))) by (left; apply Rinv_0_lt_compat; nra).
  apply Rle_trans with ((3 * u * a + eta) * b * / (b * B)); [apply Rmult_le_compat_r; [left; apply Rinv_0_lt_compat; nra|exact N]|].
  replace ((3 * u * a + eta) * b * / (b * B)) with ((3 * u * a + eta) * / B) by (field; lra).
  assert (IB : / B <= / ((1 - 2 * u) * b)) by (apply Rinv_le; nra).
  assert (IB2 : / ((1 - 2 * u) * b) <= (1 + 3 * u) * / b).
  { rewrite Rinv_mult. apply Rmult_le_compat_r; [left; apply Rinv_0_lt_compat; lra|]. apply Rmult_le_reg_l with (1 - 2 * u); [lra|]. rewrite Rinv_r by lra. nra. }
  assert (Ib : / b <= 1000) by (replace 1000 with (/ (1 / 1000)) by lra; apply Rinv_le; lra). assert (Ib0 : 0 < / b) by (apply Rinv_0_lt_compat; lra).
  apply Rle_trans with ((3 * u * a + eta) * ((1 + 3 * u) * / b)); [apply Rmult_le_compat_l; nra|].
  replace (a / b) with (a * / b) by reflexivity. set (w := a * / b). assert (Hw : 0 <= w) by (unfold w; nra).
  replace ((3 * u * a + eta) * ((1 + 3 * u) * / b)) with (3 * u * (1 + 3 * u) * w + eta * ((1 + 3 * u) * / b)) by (unfold w; ring).
  assert (eta * ((1 + 3 * u) * / b) <= eta * 1100) by (apply Rmult_le_compat_l; [lra|]; apply Rle_trans with (11 / 10 * 1000); [apply Rmult_le_compat; lra|lra]).
  assert (3 * u * (1 + 3 * u) * w <= 31 / 10 * u * w) by (apply Rmult_le_compat_r; [exact Hw|]; nra). lra.
Qed.
Lemma factor_accuracy th mx st z : th + 1 / 1000 <= mx -> 0 <= st <= 10 ^ 6 -> Rabs (factor64 th mx st z - kept th mx st z) <= 4 / 10 ^ 15.
Proof.
  intros H Hs. rewrite kept_clamp by lra. destruct (Rlt_le_dec z th) as [L|L].
  { rewrite factor_below by lra. rewrite Rmax_left by (apply Rmult_le_reg_r with (mx - th); [lra|]; unfold Rdiv; rewrite Rmult_assoc, Rinv_l; lra).
    rewrite Rmult_0_r, Rminus_0_r. unfold clampR. rewrite Rmax_left, Rmin_left by lra. rewrite Rminus_diag_eq by reflexivity. rewrite Rabs_R0. lra. }
  unfold factor64. rewrite Rlt_bool_false by lra. pose proof u_val as [U0 U1]. pose proof eta_tiny' as [E0 E1]. pose proof tiny_val as [T0 T1].
  assert (E2 : eta <= u / 10 ^ 20). { eapply Rle_trans; [exact E1|]. unfold u. apply Rle_trans with (/ 10 ^ 40 / 10 ^ 20); [apply Rmult_le_compat_r; lra|lra]. }
  set (a := z - th). set (b := mx - th). set (q := a / b). assert (Hq : 0 <= q) by (apply pos_quot; unfold a, b; lra). rewrite Rmax_right by exact Hq.
  pose proof (quot_err a b (rnd64 a) (rnd64 b) ltac:(unfold a; lra) ltac:(unfold b; lra)) as Q.
  assert (HA : Rabs (rnd64 a - a) <= u * a + eta) by (pose proof (rnd_err a) as R; rewrite (Rabs_pos_eq a) in R by (unfold a; lra); exact R).
  assert (HB : Rabs (rnd64 b - b) <= u * b + eta) by (pose proof (rnd_err b) as R; rewrite (Rabs_pos_eq b) in R by (unfold b; lra); exact R).
  specialize (Q HA HB). fold q in Q. set (q1 := rnd64 a / rnd64 b) in *.
  pose proof (rnd_err q1) as R1. set (q2 := rnd64 q1) in *.
  assert (Hq1 : Rabs q1 <= 2 * q + 1100 * eta). { replace q1 with ((q1 - q) + q) by ring. eapply Rle_trans; [apply Rabs_triang|]. rewrite (Rabs_pos_eq q) by exact Hq. nra. }
  assert (Hq1' : Rabs q1 <= q + 31 / 10 * u * q + 1100 * eta). { replace q1 with ((q1 - q) + q) by ring. eapply Rle_trans; [apply Rabs_triang|]. rewrite (Rabs_pos_eq q) by exact Hq. nra. }
  assert (Q2 : Rabs (q2 - q) <= 42 / 10 * u * q + 1200 * eta).
  { replace (q2 - q) with ((q2 - q1) + (q1 - q)) by ring. eapply Rle_trans; [apply Rabs_triang|]. assert (u * Rabs q1 <= u * (q + 31 / 10 * u * q + 1100 * eta)) by (apply Rmult_le_compat_l; lra).
    assert (0 <= u * q) by (apply Rmult_le_pos; lra). assert (u * (u * q) <= 1 / 100 * (u * q)) by (apply Rmult_le_compat_r; [apply Rmult_le_pos|]; lra). assert (u * eta <= 1 / 100 * eta) by (apply Rmult_le_compat_r; lra). lra. }
  set (p := st * q). set (p1 := st * q2). assert (Hp : 0 <= p) by (unfold p; nra).
  assert (P1 : Rabs (p1 - p) <= 42 / 10 * u * p + 10 ^ 10 * eta).
  { unfold p1, p. replace (st * q2 - st * q) with (st * (q2 - q)) by ring. rewrite Rabs_mult, (Rabs_pos_eq st) by lra. apply Rle_trans with (st * (42 / 10 * u * q + 1200 * eta)); [apply Rmult_le_compat_l; lra|].
    assert (st * eta <= 10 ^ 6 * eta) by (apply Rmult_le_compat_r; lra). lra. }
  pose proof (rnd_err p1) as R2. set (p2 := rnd64 p1) in *.
  assert (Hp1 : Rabs p1 <= p + 42 / 10 * u * p + 10 ^ 10 * eta). { replace p1 with ((p1 - p) + p) by ring. eapply Rle_trans; [apply Rabs_triang|]. rewrite (Rabs_pos_eq p) by exact Hp. lra. }
  assert (P2 : Rabs (p2 - p) <= 53 / 10 * u * p + 10 ^ 11 * eta).
  { replace (p2 - p) with ((p2 - p1) + (p1 - p)) by ring. eapply Rle_trans; [apply Rabs_triang|]. assert (u * Rabs p1 <= u * (p + 42 / 10 * u * p + 10 ^ 10 * eta)) by (apply Rmult_le_compat_l; lra).
    assert (0 <= u * p) by (apply Rmult_le_pos; lra). assert (u * (u * p) <= 1 / 100 * (u * p)) by (apply Rmult_le_compat_r; [apply Rmult_le_pos|]; lra). assert (u * eta <= 1 / 100 * eta) by (apply Rmult_le_compat_r; lra). lra. }
  assert (P3 : Rabs (p2 - p) <= 53 / 10 * u * p + u) by nra. apply Rabs_le_inv in P3 as P4.
  destruct (Rle_lt_dec p 2) as [S|S].
  - eapply Rle_trans; [apply clamp_lip|]. pose proof (rnd_err (1 - p2)) as R3.
    replace (rnd64 (1 - p2) - (1 - p)) with ((rnd64 (1 - p2) - (1 - p2)) + (p - p2)) by ring. eapply Rle_trans; [apply Rabs_triang|]. rewrite (Rabs_minus_sym p p2).
    assert (Rabs (1 - p2) <= 4) by (apply Rabs_le; nra). nra.
  - assert (1 <= p2) by nra. assert (Z1 : rnd64 (1 - p2) <= 0) by (rewrite <- rnd_0; apply rnd_le; lra).
    assert (C1 : clampR 0 1 (rnd64 (1 - p2)) = 0) by (unfold clampR; rewrite Rmax_right, Rmin_left; lra).
    assert (C2 : clampR 0 1 (1 - p) = 0) by (unfold clampR; rewrite Rmax_right, Rmin_left; lra).
    rewrite C1, C2, Rminus_diag_eq, Rabs_R0 by reflexivity. lra.
Qed.

(** ** The product *)
Lemma rnd_within x y : is_double x -> Rabs y <= Rabs (to_R x) -> Rabs (rnd64 y) <= Rabs (to_R x).
Proof.
  intros [Vx Fx] H. apply abs_round_le_generic; try typeclasses eauto; [apply generic_format_abs; now apply dbl_format|exact H].
Qed.
Lemma times_factor x f : is_double x -> is_double f -> 0 <= to_R f <= 1 -> val_is (SFmul 53 1024 x f) (to_R x * to_R f) /\ Rabs (to_R (SFmul 53 1024 x f)) <= Rabs (to_R x).
Proof.
  intros Dx Df Hf. assert (B : Rabs (to_R x * to_R f) <= Rabs (to_R x)) by (rewrite Rabs_mult, (Rabs_pos_eq (to_R f)) by lra; pose proof (Rabs_pos (to_R x)); nra).
  pose proof (rnd_within x _ Dx B) as W.
  assert (V : val_is (SFmul 53 1024 x f) (to_R x * to_R f)).
  { destruct Dx as [Vx Fx], Df as [Vf Ff]. destruct (mul_R x f Vx Vf Fx Ff) as [E F].
    - apply Rle_lt_trans with (Rabs (to_R x)); [exact W|now apply fin_bound].
    - split; [split; [now apply mul_dbl|exact F]|exact E]. }
  split; [exact V|]. destruct V as [_ ->]. exact W.
Qed.

Lemma reduce_pix lib s (zen ray r : arr (B64N lib)) th mx st k z x : fits s zen -> fits s ray -> reduce_rayleigh_highzenith zen ray th mx st = Ok r ->
  (k < size s)%nat -> pix k zen = Some z -> pix k ray = Some x -> pix k r = Some (SFmul 53 1024 x (@zenith_factor (B64N lib) z th mx st)).
Proof.
  intros Fz Fr E Hk Pz Px. unfold reduce_rayleigh_highzenith in E.
  exact (bmap2_pix _ s ray _ r k x _ Fr (fits_map _ s zen Fz) E Hk Px ltac:(rewrite pix_map, Pz; reflexivity)).
Qed.
Lemma reduce_succeeds lib s (zen ray : arr (B64N lib)) th mx st : fits s zen -> fits s ray -> exists r, reduce_rayleigh_highzenith zen ray th mx st = Ok r /\ fits s r.
Proof. intros Fz Fr. unfold reduce_rayleigh_highzenith. apply bmap2_shape; [exact Fr|now apply fits_map]. Qed.

Lemma high_zenith : forall lib s (zen ray : arr (B64N lib)) th mx st, thresholds th mx st -> fits s zen -> fits s ray ->
  exists r, reduce_rayleigh_highzenith zen ray th mx st = Ok r /\ fits s r /\
  forall k z x, (k < size s)%nat -> pix k zen = Some (z : B64N lib) -> pix k ray = Some (x : B64N lib) -> an_angle z -> is_double x ->
  exists y : b64, pix k r = Some (y : B64N lib) /\ is_double y /\ Rabs (to_R y) <= Rabs (to_R x) /\ 0 <= to_R x * to_R y /\
    (to_R z <= to_R th -> to_R y = to_R x) /\ (to_R mx <= to_R z -> 1 <= to_R st -> to_R y = 0) /\
    Rabs (to_R y - to_R x * kept (to_R th) (to_R mx) (to_R st) (to_R z)) <= 1 / 10 ^ 14 * Rabs (to_R x) + / 10 ^ 300.
Proof.
  intros lib s zen ray th mx st T Fz Fr. destruct (reduce_succeeds lib s zen ray th mx st Fz Fr) as (r & E & F). exists r. split; [exact E|]. split; [exact F|].
  intros k z x Hk Pz Px Hz Dx. destruct (factor_R lib th mx st z T Hz) as [Df Rf]. set (f := @zenith_factor (B64N lib) z th mx st) in *.
  assert (Hf : 0 <= to_R f <= 1) by (rewrite Rf; apply clamp_range). destruct (times_factor x f Dx Df Hf) as [[Dy Ry] By].
  exists (SFmul 53 1024 x f). split; [exact (reduce_pix lib s zen ray r th mx st k z x Fz Fr E Hk Pz Px)|]. split; [exact Dy|]. split; [exact By|].
  destruct T as ((Dt & Rt) & (Dm & Rm) & Hd & (Ds & Rs)). rewrite Ry. split; [|split; [|split]].
  - destruct (Rle_lt_dec 0 (to_R x)) as [P|P].
    + apply Rmult_le_pos; [exact P|apply rnd_nonneg; nra].
    + assert (rnd64 (to_R x * to_R f) <= 0) by (rewrite <- rnd_0; apply rnd_le; nra). nra.
  - intros L. rewrite Rf, factor_below, Rmult_1_r by exact L. destruct Dx. now apply rnd_dbl.
  - intros L1 L2. rewrite Rf, factor_beyond, Rmult_0_r by assumption. apply rnd_0.
  - pose proof (factor_accuracy (to_R th) (to_R mx) (to_R st) (to_R z) Hd Rs) as A. rewrite <- Rf in A. set (kk := kept (to_R th) (to_R mx) (to_R st) (to_R z)) in *.
    pose proof (rnd_err (to_R x * to_R f)) as R. pose proof u_val as [U0 U1]. pose proof eta_tiny as [E0 E1].
    replace (rnd64 (to_R x * to_R f) - to_R x * kk) with ((rnd64 (to_R x * to_R f) - to_R x * to_R f) + to_R x * (to_R f - kk)) by ring.
    eapply Rle_trans; [apply Rabs_triang|]. rewrite (Rabs_mult (to_R x) (to_R f - kk)). rewrite Rabs_mult, (Rabs_pos_eq (to_R f)) in R by lra. pose proof (Rabs_pos (to_R x)) as Px0.
    assert (Rabs (to_R x) * Rabs (to_R f - kk) <= Rabs (to_R x) * (4 / 10 ^ 15)) by (apply Rmult_le_compat_l; lra).
    assert (u * (Rabs (to_R x) * to_R f) <= 12 / 10 ^ 17 * Rabs (to_R x)). { apply Rmult_le_compat; try lra; [apply Rmult_le_pos; lra|]. rewrite <- (Rmult_1_r (Rabs (to_R x))) at 2. apply Rmult_le_compat_l; lra. }
    lra.
Qed.
(** a higher angle never leaves more *)
Lemma high_zenith_order : forall lib s s' (zen ray zen' ray' r r' : arr (B64N lib)) th mx st k k' z z' x y y', thresholds th mx st ->
  fits s zen -> fits s ray -> fits s' zen' -> fits s' ray' ->
  reduce_rayleigh_highzenith zen ray th mx st = Ok r -> reduce_rayleigh_highzenith zen' ray' th mx st = Ok r' -> (k < size s)%nat -> (k' < size s')%nat ->
  pix k zen = Some (z : B64N lib) -> pix k ray = Some (x : B64N lib) -> pix k' zen' = Some (z' : B64N lib) -> pix k' ray' = Some (x : B64N lib) ->
  an_angle z -> an_angle z' -> is_double x -> to_R z <= to_R z' -> pix k r = Some (y : B64N lib) -> pix k' r' = Some (y' : B64N lib) ->
  Rabs (to_R y') <= Rabs (to_R y).
Proof.
  intros lib s s' zen ray zen' ray' r r' th mx st k k' z z' x y y' T F1 F2 F1' F2' E E' Hk Hk' Pz Px Pz' Px' Az Az' Dx Hz Py Py'.
  pose proof (reduce_pix lib s zen ray r th mx st k z x F1 F2 E Hk Pz Px) as Q. pose proof (reduce_pix lib s' zen' ray' r' th mx st k' z' x F1' F2' E' Hk' Pz' Px') as Q'.
  assert (y = SFmul 53 1024 x (@zenith_factor (B64N lib) z th mx st)) as -> by congruence.
  assert (y' = SFmul 53 1024 x (@zenith_factor (B64N lib) z' th mx st)) as -> by congruence.
  destruct (factor_R lib th mx st z T Az) as [Df Rf]. destruct (factor_R lib th mx st z' T Az') as [Df' Rf'].
  set (f := @zenith_factor (B64N lib) z th mx st) in *. set (f' := @zenith_factor (B64N lib) z' th mx st) in *.
  assert (Hf : 0 <= to_R f <= 1) by (rewrite Rf; apply clamp_range). assert (Hf' : 0 <= to_R f' <= 1) by (rewrite Rf'; apply clamp_range).
  destruct (times_factor x f Dx Df Hf) as [[Dy Ry] _]. destruct (times_factor x f' Dx Df' Hf') as [[Dy' Ry'] _].
  destruct T as ((Dt & Rt) & (Dm & Rm) & Hd & (Ds & Rs)).
  assert (M : to_R f' <= to_R f) by (rewrite Rf, Rf'; apply factor_mono; lra). rewrite Ry, Ry'.
  destruct (Rle_lt_dec 0 (to_R x)) as [P|P].
  - rewrite !Rabs_pos_eq by (apply rnd_nonneg; nra). apply rnd_le. nra.
  - assert (A1 : rnd64 (to_R x * to_R f) <= 0) by (rewrite <- rnd_0; apply rnd_le; nra). assert (A2 : rnd64 (to_R x * to_R f') <= 0) by (rewrite <- rnd_0; apply rnd_le; nra).
    rewrite !Rabs_left1 by assumption. apply Ropp_le_contravar, rnd_le. nra.
Qed.

(** ** Percent *)
Definition clip100 (x : b64) : b64 := if b64_nan x then x else
  let y := if SFltb x (b64_ratio 0 1) then b64_ratio 0 1 else x in if SFltb (b64_ratio 100 1) y then b64_ratio 100 1 else y.
Lemma clip100_is lib x : @nclip (B64N lib) x n0 (nlit (B64N lib) 100 1) = clip100 x.
Proof.
  unfold nclip, nmin, nmax, clip100. change (nisnan (B64N lib)) with b64_nan. change (nltb (B64N lib)) with SFltb.
  change (@n0 (B64N lib)) with (b64_ratio 0 1). change (nlit (B64N lib) 100 1) with (b64_ratio 100 1).
  destruct (b64_nan x) eqn:E; [now rewrite E|]. change (b64_nan (b64_ratio 0 1)) with false. cbn iota. destruct (SFltb x (b64_ratio 0 1)); [reflexivity|].
  rewrite E. reflexivity.
Qed.
Lemma swap_le x y : b64_nan x = false -> b64_nan y = false -> SFltb x y = false -> SFleb y x = true.
Proof.
  intros X Y. unfold SFltb, SFleb. destruct x as [s|s| |s m e], y as [s'|s'| |s' m' e']; try discriminate; try (destruct s); try (destruct s'); cbn; auto; try discriminate;
  try change (Pos.compare_cont Eq m m') with (m ?= m')%positive; try change (Pos.compare_cont Eq m' m) with (m' ?= m)%positive;
  rewrite (Z.compare_antisym e e'); destruct (e ?= e')%Z; cbn; auto; rewrite (Pos.compare_antisym m m'); destruct (m ?= m')%positive; cbn; auto.
Qed.
Lemma clip100_range x : b64_nan (clip100 x) = true \/ (le_double (b64_ratio 0 1) (clip100 x) /\ le_double (clip100 x) (b64_ratio 100 1)).
Proof.
  unfold clip100. destruct (b64_nan x) eqn:E; [now left|]. right. cbv zeta. unfold le_double.
  destruct (SFltb x (b64_ratio 0 1)) eqn:L.
  - change (SFltb (b64_ratio 100 1) (b64_ratio 0 1)) with false. split; reflexivity.
  - destruct (SFltb (b64_ratio 100 1) x) eqn:H; [split; reflexivity|]. split; apply swap_le; auto.
Qed.
Lemma clip100_inner v x : x = clip100 v -> is_double x -> 0 < to_R x < 100 -> v = x.
Proof.
  intros -> D H. destruct (int_R 100 ltac:(cbn; lia)) as [_ R100]. destruct zero_double as [_ R0]. revert D H. unfold clip100. destruct (b64_nan v); [reflexivity|]. cbv zeta.
  destruct (SFltb v (b64_ratio 0 1)).
  - change (SFltb (b64_ratio 100 1) (b64_ratio 0 1)) with false. cbv iota. intros _. rewrite R0. lra.
  - destruct (SFltb (b64_ratio 100 1) v); [|reflexivity]. intros _. rewrite R100. lra.
Qed.
Lemma clip100_R v : is_double v -> is_double (clip100 v) /\ to_R (clip100 v) = clampR 0 100 (to_R v).
Proof.
  intros D. destruct (int_R 100 ltac:(cbn; lia)) as [D100 R100]. destruct zero_double as [D0 R0].
  destruct (clip_R (Build_libm (fun x => x) (fun x => x) (fun x => x) (fun x => x) (fun x _ => x)) v _ _ D D0 D100) as [A B]; [lra|].
  rewrite R0, R100 in B. rewrite <- B. 
  match type of A with is_double ?t => assert (E : t = clip100 v) by apply clip100_is end. rewrite E in *. split; auto.
Qed.

Lemma bind_ok {A C} (m : res A) (k : A -> res C) c : bind m k = Ok c -> exists a, m = Ok a /\ k a = Ok c.
Proof. destruct m as [a|e]; cbn; [eauto|discriminate]. Qed.
Lemma percent_range : forall lib oob dask load platform sensor lut sun sat azi band red r x,
  @get_reflectance (B64N lib) oob dask load platform sensor lut sun sat azi band red = Ok r -> In (x : b64) (a_data r) ->
  b64_nan x = true \/ (le_double (b64_ratio 0 1) x /\ le_double x (b64_ratio 100 1)).
Proof.
  intros lib oob dask load platform sensor lut sun sat azi band red r x. unfold get_reflectance. cbv zeta. intros E Hx.
  apply bind_ok in E as (w & _ & E). apply bind_ok in E as ([k a] & _ & E). apply bind_ok in E as ([k' a'] & _ & E).
  assert (r = arr_map (fun x => nclip x n0 (nlit (B64N lib) 100 1)) a') as ->.
  { destruct (dask && _)%bool; [destruct k'|]; congruence. }
  cbn in Hx. apply in_map_iff in Hx as (y & <- & _). rewrite clip100_is. apply clip100_range.
Qed.

(** ** Red band *)
Lemma interp_length lib oob l refl sun sat azi v n : @interp_by_angles (B64N lib) oob l refl sun sat azi = Ok v -> List.length sun = n -> List.length v = n.
Proof.
  unfold interp_by_angles. intros E L. repeat (apply bind_ok in E as (? & _ & E)).
  destruct (negb _) eqn:B; [discriminate|]. apply negb_false_iff, andb_prop in B as [B1 B2]. apply Nat.eqb_eq in B1, B2.
  apply Base.mapM_length in E. rewrite E, !combine_length, !map_length. change (num (B64N lib)) with b64 in *. lia.
Qed.
Lemma without_red lib oob dask load platform sensor lut sun sat azi band r0 s k x0 : is_image s (r_arr sun) ->
  @get_reflectance (B64N lib) oob dask load platform sensor lut sun sat azi band None = Ok r0 -> (k < size s)%nat ->
  pix k r0 = Some (x0 : B64N lib) -> is_double x0 -> 0 < to_R x0 < 100 ->
  exists a : arr (B64N lib), fits s a /\ pix k a = Some (x0 : B64N lib) /\
  forall red, fits s (r_arr red) -> a_dtype (r_arr red) = Float64 ->
    @get_reflectance (B64N lib) oob dask load platform sensor lut sun sat azi band (Some red) =
    bind (bmap2 relax (r_arr red) a) (fun c => Ok (arr_map (fun x => nclip x n0 (nlit (B64N lib) 100 1)) c)).
Proof.
  intros I E Hk P D H. unfold get_reflectance in *. cbv zeta in *. apply bind_ok in E as (w & Ew & E). rewrite Ew. cbn [bind].
  apply bind_ok in E as ([kk a] & Ea & E). cbn [bind] in E.
  assert (Er : r0 = arr_map (fun x => nclip x n0 (nlit (B64N lib) 100 1)) a) by (destruct (dask && _)%bool; [destruct kk|]; congruence). subst r0.
  rewrite pix_map in P. destruct (pix k a) as [v|] eqn:Pv; [|discriminate]. cbn [option_map] in P. injection P as P. rewrite clip100_is in P.
  assert (v = x0) as -> by (apply clip100_inner; auto).
  destruct (wavelength_adjusted_lut lut w) as [refl|e].
  - destruct lut as [l|]; [|discriminate]. destruct (a_dtype (r_arr sun)); [|discriminate]. apply bind_ok in Ea as (vv & Ei & Ea). injection Ea as <- <-.
    exists {| a_dtype := Float64; a_shape := a_shape (r_arr sun); a_data := vv |}. split; [|split; [exact Pv|]].
    + left. destruct I as [I1 I2]. split; [exact I1|]. exact (interp_length lib oob l refl _ _ _ vv _ Ei I2).
    + intros red F T. rewrite T. rewrite Ei. cbn [bind]. destruct (bmap2 relax (r_arr red) _) as [c|e]; cbn [bind]; [|reflexivity]. destruct dask, (r_kind sun); reflexivity.
  - exfalso. destruct e; try discriminate. destruct (r_kind sun), dask; try discriminate; injection Ea as <- <-; rewrite pix_map in Pv; destruct (pix k (r_arr sun)); try discriminate; injection Pv as <-; 
    revert H; change (0 < to_R (b64_ratio 0 1) < 100 -> False); rewrite (proj2 zero_double); lra.
Qed.

(** the factor of the red band *)
Definition cloud64 (b : R) : R := rnd64 (1 - rnd64 (rnd64 (b - 20) / 80)).
Lemma relax_R lib b v : double_between (- 10 ^ 6) (10 ^ 6) b -> is_double v -> 0 < to_R v < 100 ->
  is_double (@relax (B64N lib) b v) /\
  (to_R b < 20 -> @relax (B64N lib) b v = v) /\ (20 <= to_R b -> to_R (@relax (B64N lib) b v) = rnd64 (cloud64 (to_R b) * to_R v)).
Proof.
  intros (Db & Rb) Dv Hv. destruct (int_R 20 ltac:(cbn; lia)) as [D20 R20]. destruct (int_R 80 ltac:(cbn; lia)) as [D80 R80]. destruct one_double as [D1 R1].
  change (@relax (B64N lib) b v) with (if SFltb b (b64_ratio 20 1) then v else SFmul 53 1024 (SFsub 53 1024 (b64_ratio 1 1) (SFdiv 53 1024 (SFsub 53 1024 b (b64_ratio 20 1)) (b64_ratio 80 1))) v).
  rewrite (lt_R b _ Db D20), R20.
  assert (B : 10 ^ 300 = 10 ^ 20 * 10 ^ 280) by (rewrite <- pow_add; reflexivity). assert (B' : 1 <= 10 ^ 280) by (apply pow_R1_Rle; lra).
  destruct (Rlt_bool_spec (to_R b) 20) as [L|L]; [repeat split; auto; try apply Dv; lra|].
  destruct (v_sub b _ Db D20) as [DA EA]; [rewrite R20; apply Rabs_le; lra|]. rewrite R20 in EA.
  assert (PA : Rabs (rnd64 (to_R b - 20)) <= IZR 2000000) by (apply rnd_big; [cbn; lia|apply Rabs_le; lra]).
  assert (PQ : Rabs (rnd64 (to_R b - 20) / 80) <= IZR 2000000) by (unfold Rdiv; rewrite Rabs_mult, (Rabs_pos_eq (/ 80)) by lra; lra).
  destruct (v_div _ _ DA D80) as [DQ EQ]; [rewrite R80; lra|rewrite EA, R80; lra|]. rewrite EA, R80 in EQ.
  assert (PQ' : Rabs (rnd64 (rnd64 (to_R b - 20) / 80)) <= IZR 2000000) by (apply rnd_big; [cbn; lia|exact PQ]).
  destruct (v_sub _ _ D1 DQ) as [DS ES]; [rewrite R1, EQ; apply Rabs_le_inv in PQ'; apply Rabs_le; lra|]. rewrite R1, EQ in ES. fold (cloud64 (to_R b)) in ES.
  assert (PS : Rabs (cloud64 (to_R b)) <= IZR 3000000) by (apply rnd_big; [cbn; lia|apply Rabs_le_inv in PQ'; apply Rabs_le; lra]).
  destruct (v_mul _ v DS Dv) as [DM EM]; [rewrite ES, Rabs_mult, (Rabs_pos_eq (to_R v)) by lra; pose proof (Rabs_pos (cloud64 (to_R b))); nra|]. rewrite ES in EM.
  split; [exact DM|]. split; [lra|auto].
Qed.
Lemma rnd_80 : rnd64 80 = 80.
Proof. apply (rnd_IZR 80). cbn. lia. Qed.
Lemma cloud64_mono b b' : b <= b' -> cloud64 b' <= cloud64 b.
Proof.
  intros H. unfold cloud64. apply rnd_le. assert (rnd64 (rnd64 (b - 20) / 80) <= rnd64 (rnd64 (b' - 20) / 80)); [|lra].
  apply rnd_le. assert (rnd64 (b - 20) <= rnd64 (b' - 20)) by (apply rnd_le; lra). lra.
Qed.
Lemma cloud64_20 : cloud64 20 = 1.
Proof. unfold cloud64. replace (20 - 20) with 0 by lra. rewrite rnd_0. replace (0 / 80) with 0 by lra. rewrite rnd_0. replace (1 - 0) with 1 by lra. apply rnd_1. Qed.
Lemma cloud64_100 : cloud64 100 = 0.
Proof. unfold cloud64. replace (100 - 20) with 80 by lra. rewrite rnd_80. replace (80 / 80) with 1 by lra. rewrite rnd_1. replace (1 - 1) with 0 by lra. apply rnd_0. Qed.
Lemma cloud64_range b : 20 <= b -> cloud64 b <= 1.
Proof. intros H. rewrite <- cloud64_20. now apply cloud64_mono. Qed.
Lemma cloud64_accuracy b : 20 <= b <= 100 -> Rabs (cloud64 b - (100 - b) / 80) <= 4 / 10 ^ 16.
Proof.
  intros H. unfold cloud64. pose proof u_val as [U0 U1]. pose proof eta_tiny as [E0 E1].
  assert (T : / 10 ^ 300 <= / 10 ^ 30) by (apply Rinv_le; [apply pow_lt; lra|apply Rle_pow; [lra|lia]]).
  pose proof (rnd_err (b - 20)) as A. rewrite (Rabs_pos_eq (b - 20)) in A by lra. set (t := rnd64 (b - 20)) in *.
  assert (u * (b - 20) <= 12 / 10 ^ 17 * 80) by (apply Rmult_le_compat; lra).
  assert (0 <= t <= 80). { split; [apply rnd_nonneg; lra|rewrite <- rnd_80; apply rnd_le; lra]. }
  pose proof (rnd_err (t / 80)) as Q. rewrite (Rabs_pos_eq (t / 80)) in Q by lra. set (q := rnd64 (t / 80)) in *.
  assert (u * (t / 80) <= 12 / 10 ^ 17 * 1) by (apply Rmult_le_compat; lra).
  assert (0 <= q <= 1). { split; [apply rnd_nonneg; lra|rewrite <- rnd_1; apply rnd_le; lra]. }
  pose proof (rnd_err (1 - q)) as G. rewrite (Rabs_pos_eq (1 - q)) in G by lra.
  assert (u * (1 - q) <= 12 / 10 ^ 17 * 1) by (apply Rmult_le_compat; lra).
  apply Rabs_le_inv in A, Q, G. apply Rabs_le. lra.
Qed.
Definition cloudy64 (b x0 : R) : R := clampR 0 100 (if Rlt_bool b 20 then x0 else rnd64 (cloud64 b * x0)).
Lemma with_red lib oob dask load platform sensor lut sun sat azi band r0 s k x0 red : is_image s (r_arr sun) -> fits s (r_arr red) -> a_dtype (r_arr red) = Float64 ->
  @get_reflectance (B64N lib) oob dask load platform sensor lut sun sat azi band None = Ok r0 -> (k < size s)%nat ->
  pix k r0 = Some (x0 : B64N lib) -> is_double x0 -> 0 < to_R x0 < 100 ->
  exists r, @get_reflectance (B64N lib) oob dask load platform sensor lut sun sat azi band (Some red) = Ok r /\
  forall b, pix k (r_arr red) = Some (b : B64N lib) -> double_between (- 10 ^ 6) (10 ^ 6) b ->
  exists x : b64, pix k r = Some (x : B64N lib) /\ is_double x /\ (to_R b < 20 -> x = x0) /\ to_R x = cloudy64 (to_R b) (to_R x0).
Proof.
  intros I F T E Hk P D H. destruct (without_red lib oob dask load platform sensor lut sun sat azi band r0 s k x0 I E Hk P D H) as (a & Fa & Pa & G).
  rewrite (G red F T). destruct (bmap2_shape relax s (r_arr red) a F Fa) as (c & Ec & Fc). rewrite Ec. cbn [bind]. eexists. split; [reflexivity|].
  intros b Pb Db. rewrite pix_map, (bmap2_pix relax s _ _ c k b x0 F Fa Ec Hk Pb Pa). cbn [option_map]. rewrite clip100_is.
  destruct (relax_R lib b x0 Db D H) as (Dr & L1 & L2). destruct (clip100_R _ Dr) as [Dc Rc]. eexists. split; [reflexivity|]. split; [exact Dc|]. split.
  - intros L. rewrite (L1 L). destruct (int_R 100 ltac:(cbn; lia)) as [D100 R100]. destruct zero_double as [D0 R0]. unfold clip100. rewrite (not_nan x0 D), (lt_R x0 _ D D0), R0. cbv zeta.
    rewrite Rlt_bool_false by lra. rewrite (lt_R _ x0 D100 D), R100. now rewrite Rlt_bool_false by lra.
  - rewrite Rc. unfold cloudy64. destruct (Rlt_bool_spec (to_R b) 20) as [L|L]; [now rewrite (L1 L)|now rewrite (L2 L)].
Qed.
Lemma cloudy_facts b x0 x : is_double x -> to_R x = x0 -> 0 < x0 < 100 -> let y := cloudy64 b x0 in
  (b < 20 -> y = x0) /\ 0 <= y <= x0 /\ (100 <= b -> y = 0) /\ (20 <= b <= 100 -> Rabs (y - (100 - b) / 80 * x0) <= 1 / 10 ^ 15 * x0 + / 10 ^ 300).
Proof.
  intros [Vx Fx] Rx H y. subst y. unfold cloudy64.
  assert (Cl : forall t, 0 <= t <= 100 -> clampR 0 100 t = t) by (intros t Ht; unfold clampR; rewrite Rmax_left, Rmin_left; lra).
  assert (Cn : forall t, t <= 0 -> clampR 0 100 t = 0) by (intros t Ht; unfold clampR; rewrite Rmax_right, Rmin_left; lra).
  assert (E : rnd64 x0 = x0) by (rewrite <- Rx; now apply rnd_dbl).
  destruct (Rlt_bool_spec b 20) as [L|L]; [rewrite (Cl x0) by lra; repeat split; try intros; lra|].
  pose proof (cloud64_range b L) as U. split; [lra|].
  assert (M : rnd64 (cloud64 b * x0) <= x0) by (rewrite <- E at 2; apply rnd_le; nra).
  split; [|split].
  - destruct (Rle_lt_dec 0 (cloud64 b)) as [P|P].
    + rewrite Cl; [split; [apply rnd_nonneg; nra|exact M]|split; [apply rnd_nonneg; nra|lra]].
    + rewrite Cn; [lra|]. rewrite <- rnd_0. apply rnd_le. nra.
  - intros G. apply Cn. rewrite <- rnd_0. apply rnd_le. pose proof (cloud64_mono 100 b G). rewrite cloud64_100 in *. nra.
  - intros G. pose proof (cloud64_mono b 100 (proj2 G)) as P. rewrite cloud64_100 in P. assert (P' : 0 <= rnd64 (cloud64 b * x0)) by (apply rnd_nonneg; nra).
    rewrite Cl by lra. pose proof (cloud64_accuracy b G) as A. pose proof (rnd_err (cloud64 b * x0)) as R. rewrite (Rabs_pos_eq (cloud64 b * x0)) in R by nra.
    pose proof u_val as [U0 U1]. pose proof eta_tiny as [E0 E1].
    assert (u * (cloud64 b * x0) <= 12 / 10 ^ 17 * x0) by (apply Rmult_le_compat; try lra; nra).
    replace (rnd64 (cloud64 b * x0) - (100 - b) / 80 * x0) with ((rnd64 (cloud64 b * x0) - cloud64 b * x0) + (cloud64 b - (100 - b) / 80) * x0) by ring.
    eapply Rle_trans; [apply Rabs_triang|]. rewrite (Rabs_mult _ x0), (Rabs_pos_eq x0) by lra.
    assert (Rabs (cloud64 b - (100 - b) / 80) * x0 <= 4 / 10 ^ 16 * x0) by (apply Rmult_le_compat_r; lra). lra.
Qed.
Lemma red_band : forall lib oob dask load platform sensor lut sun sat azi band r0 s k x0 red, one_image s sun sat azi red -> a_dtype (r_arr red) = Float64 ->
  @get_reflectance (B64N lib) oob dask load platform sensor lut sun sat azi band None = Ok r0 -> (k < size s)%nat ->
  pix k r0 = Some (x0 : B64N lib) -> is_double x0 -> 0 < to_R x0 < 100 ->
  exists r, @get_reflectance (B64N lib) oob dask load platform sensor lut sun sat azi band (Some red) = Ok r /\
  forall b, pix k (r_arr red) = Some (b : B64N lib) -> double_between (- 10 ^ 6) (10 ^ 6) b ->
  exists x : b64, pix k r = Some (x : B64N lib) /\ is_double x /\ (to_R b < 20 -> x = x0) /\ 0 <= to_R x <= to_R x0 /\ (100 <= to_R b -> to_R x = 0) /\
    (20 <= to_R b <= 100 -> Rabs (to_R x - (100 - to_R b) / 80 * to_R x0) <= 1 / 10 ^ 15 * to_R x0 + / 10 ^ 300).
Proof.
  intros lib oob dask load platform sensor lut sun sat azi band r0 s k x0 red (I & _ & _ & F) T E Hk P D H.
  destruct (with_red lib oob dask load platform sensor lut sun sat azi band r0 s k x0 red I F T E Hk P D H) as (r & Er & Q). exists r. split; [exact Er|].
  intros b Pb Db. destruct (Q b Pb Db) as (x & Px & Dx & L & Rx). exists x. split; [exact Px|]. split; [exact Dx|]. split; [exact L|].
  destruct (cloudy_facts (to_R b) (to_R x0) x0 D eq_refl H) as (_ & A & B & C). rewrite Rx. auto.
Qed.
Lemma red_band_order : forall lib oob dask load platform sensor lut sun sat azi band r0 s k x0 red red' r r' b b' x x',
  one_image s sun sat azi red -> one_image s sun sat azi red' -> a_dtype (r_arr red) = Float64 -> a_dtype (r_arr red') = Float64 ->
  @get_reflectance (B64N lib) oob dask load platform sensor lut sun sat azi band None = Ok r0 -> (k < size s)%nat ->
  pix k r0 = Some (x0 : B64N lib) -> is_double x0 -> 0 < to_R x0 < 100 ->
  @get_reflectance (B64N lib) oob dask load platform sensor lut sun sat azi band (Some red) = Ok r ->
  @get_reflectance (B64N lib) oob dask load platform sensor lut sun sat azi band (Some red') = Ok r' ->
  pix k (r_arr red) = Some (b : B64N lib) -> double_between (- 10 ^ 6) (10 ^ 6) b -> pix k (r_arr red') = Some (b' : B64N lib) -> double_between (- 10 ^ 6) (10 ^ 6) b' ->
  pix k r = Some (x : B64N lib) -> pix k r' = Some (x' : B64N lib) -> to_R b <= to_R b' -> to_R x' <= to_R x.
Proof.
  intros lib oob dask load platform sensor lut sun sat azi band r0 s k x0 red red' r r' b b' x x' (I & _ & _ & F) (_ & _ & _ & F') T T' E Hk P D H Er Er' Pb Db Pb' Db' Px Px' L.
  destruct (with_red lib oob dask load platform sensor lut sun sat azi band r0 s k x0 red I F T E Hk P D H) as (q & Eq & Q).
  destruct (with_red lib oob dask load platform sensor lut sun sat azi band r0 s k x0 red' I F' T' E Hk P D H) as (q' & Eq' & Q').
  assert (q = r) as -> by congruence. assert (q' = r') as -> by congruence.
  destruct (Q b Pb Db) as (y & Py & _ & _ & Ry). destruct (Q' b' Pb' Db') as (y' & Py' & _ & _ & Ry').
  assert (y = x) as -> by congruence. assert (y' = x') as -> by congruence. rewrite Ry, Ry'.
  destruct (cloudy_facts (to_R b) (to_R x0) x0 D eq_refl H) as (A1 & A2 & _ & _). destruct (cloudy_facts (to_R b') (to_R x0) x0 D eq_refl H) as (B1 & B2 & _ & _). cbv zeta in *.
  destruct (Rlt_le_dec (to_R b) 20) as [S1|S1]; [rewrite (A1 S1); lra|]. unfold cloudy64. rewrite !Rlt_bool_false by lra.
  unfold clampR. apply Rle_min_compat_r, Rle_max_compat_r, rnd_le. pose proof (cloud64_mono (to_R b) (to_R b') L). nra.
Qed.
