From Coq Require Import Reals Lra ZArith List Lia.
From Verif Require Import Base NumSig XR M_Blackbody S_Planck.
Import ListNotations.
Open Scope R_scope.

(** ** Constants *)
Lemma h_pos : 0 < h_planck.
Proof. unfold h_planck. apply Rdiv_lt_0_compat; [lra|]. apply pow_lt; lra. Qed.
Lemma k_pos : 0 < k_boltz.
Proof. unfold k_boltz. apply Rdiv_lt_0_compat; [lra|]. apply pow_lt; lra. Qed.
Lemma c_pos : 0 < c_light.
Proof. unfold c_light; lra. Qed.

Lemma IZR_pos_pow p n : IZR (Z.pos (p ^ n)) = IZR (Z.pos p) ^ (Pos.to_nat n).
Proof.
  rewrite Pos2Z.inj_pow. rewrite <- (positive_nat_Z n) at 1. now rewrite <- pow_IZR.
Qed.

Lemma H_eq : @H_PLANCK XRN = Fin h_planck.
Proof.
  unfold H_PLANCK, h_planck. simpl nlit. unfold xlit. cbn [nmul XRN xmul num].
  f_equal. rewrite IZR_pos_pow. change (Pos.to_nat 34) with 34%nat. field.
Qed.
Lemma K_eq : @K_BOLTZMANN XRN = Fin k_boltz.
Proof.
  unfold K_BOLTZMANN, k_boltz. simpl nlit. unfold xlit. cbn [nmul XRN xmul num].
  f_equal. rewrite IZR_pos_pow. change (Pos.to_nat 23) with 23%nat. field.
Qed.
Lemma C_eq : @C_SPEED XRN = Fin c_light.
Proof.
  unfold C_SPEED, c_light. simpl nlit. unfold xlit. cbn [nmul XRN xmul num]. f_equal. lra.
Qed.

Definition c1 : R := h_planck * c_light / k_boltz.
Definition c2 : R := 2 * h_planck * c_light ^ 2.
Lemma c1_pos : 0 < c1.
Proof. unfold c1. pose proof h_pos; pose proof k_pos; pose proof c_pos.
  apply Rdiv_lt_0_compat; auto. apply Rmult_lt_0_compat; auto. Qed.
Lemma c2_pos : 0 < c2.
Proof. unfold c2. pose proof h_pos; pose proof c_pos.
  apply Rmult_lt_0_compat; [lra|]. apply pow_lt; auto. Qed.

Lemma C1_eq : @PLANCK_C1 XRN = Fin c1.
Proof.
  unfold PLANCK_C1. rewrite H_eq, C_eq, K_eq. cbn [nmul ndiv XRN xmul].
  rewrite xdiv_fin by (pose proof k_pos; lra). reflexivity.
Qed.
Lemma C2_eq : @PLANCK_C2 XRN = Fin c2.
Proof.
  unfold PLANCK_C2. rewrite H_eq, C_eq, nZ_fin, npow_fin. reflexivity.
Qed.
Lemma EPS_eq : @BB_EPSILON XRN = Fin T_cut.
Proof. unfold BB_EPSILON, T_cut. simpl nlit. unfold xlit. f_equal. lra. Qed.
Lemma T_cut_pos : 0 < T_cut.
Proof. unfold T_cut. lra. Qed.

Opaque H_PLANCK K_BOLTZMANN C_SPEED PLANCK_C1 PLANCK_C2 BB_EPSILON.

(** ** The model computes Planck's law *)
Lemma exp_m1_pos x : 0 < x -> 0 < exp x - 1.
Proof. intros H. pose proof (exp_ineq1 x). lra. Qed.

Lemma planck_arg2_ok t : T_cut < Rabs t -> @planck_arg2 XRN (Fin t) = Fin (1 / t).
Proof.
  intros H. pose proof T_cut_pos.
  assert (t <> 0) by (intros ->; rewrite Rabs_R0 in H; lra).
  unfold planck_arg2. rewrite EPS_eq, nabs_fin, nZ_fin. cbn [nltb XRN xltb ndiv].
  rewrite Rltb_true by auto. now rewrite xdiv_fin.
Qed.

Lemma planck_arg2_nan t : Rabs t <= T_cut -> @planck_arg2 XRN (Fin t) = NaN.
Proof.
  intros H. unfold planck_arg2. rewrite EPS_eq, nabs_fin. cbn [nltb XRN xltb].
  rewrite Rltb_false; auto.
Qed.

Lemma pow5_pos l : 0 < l -> 0 < l ^ 5. Proof. intros; apply pow_lt; auto. Qed.
Lemma pow3_pos l : 0 < l -> 0 < l ^ 3. Proof. intros; apply pow_lt; auto. Qed.

Lemma planck1_wl_raw l t : 0 < l -> T_cut < t ->
  @planck1 XRN true (Fin l) (Fin t) = Fin (c2 / l ^ 5 / (exp (c1 / l * (1 / t)) - 1)).
Proof.
  intros Hl Ht. pose proof T_cut_pos. pose proof (pow5_pos l Hl). pose proof c1_pos.
  unfold planck1, planck_nom, planck_arg1.
  rewrite planck_arg2_ok by (rewrite Rabs_right; lra).
  rewrite C1_eq, C2_eq, npow_fin, nZ_fin. cbn [ndiv XRN nmul nexp nsub].
  rewrite !xdiv_fin by lra. cbn [xmul xexp xsub].
  rewrite xdiv_fin; [reflexivity|].
  assert (0 < c1 / l * (1 / t)).
  { apply Rmult_lt_0_compat; apply Rdiv_lt_0_compat; lra. }
  pose proof (exp_m1_pos _ H2). lra.
Qed.

Lemma planck1_wn_raw n t : 0 < n -> T_cut < t ->
  @planck1 XRN false (Fin n) (Fin t) = Fin (c2 * n ^ 3 / (exp (c1 * n * (1 / t)) - 1)).
Proof.
  intros Hl Ht. pose proof T_cut_pos. pose proof (pow3_pos n Hl). pose proof c1_pos.
  unfold planck1, planck_nom, planck_arg1.
  rewrite planck_arg2_ok by (rewrite Rabs_right; lra).
  rewrite C1_eq, C2_eq, npow_fin, nZ_fin. cbn [ndiv XRN nmul nexp nsub].
  cbn [xmul xexp xsub].
  rewrite xdiv_fin; [reflexivity|].
  assert (0 < c1 * n * (1 / t)).
  { apply Rmult_lt_0_compat. apply Rmult_lt_0_compat; lra. apply Rdiv_lt_0_compat; lra. }
  pose proof (exp_m1_pos _ H2). lra.
Qed.

Lemma planck1_wl l t : 0 < l -> T_cut < t ->
  @planck1 XRN true (Fin l) (Fin t) = Fin (B_lambda l t).
Proof.
  intros Hl Ht. rewrite planck1_wl_raw by auto. f_equal. unfold B_lambda, c1, c2.
  pose proof T_cut_pos. pose proof k_pos.
  do 3 f_equal. field. lra.
Qed.

Lemma planck1_wn n t : 0 < n -> T_cut < t ->
  @planck1 XRN false (Fin n) (Fin t) = Fin (B_nu n t).
Proof.
  intros Hl Ht. rewrite planck1_wn_raw by auto. f_equal. unfold B_nu, c1, c2.
  pose proof T_cut_pos. pose proof k_pos.
  do 3 f_equal. field. lra.
Qed.

Lemma rad2temp_raw l b : 0 < l -> 0 < b ->
  @rad2temp XRN (Fin l) (Fin b) = Fin (c1 / (l * ln (c2 / (b * l ^ 5) + 1))).
Proof.
  intros Hl Hb. pose proof (pow5_pos l Hl). pose proof c2_pos.
  assert (0 < b * l ^ 5) by (apply Rmult_lt_0_compat; auto).
  assert (0 < c2 / (b * l ^ 5)) by (apply Rdiv_lt_0_compat; auto).
  assert (0 < ln (c2 / (b * l ^ 5) + 1)) by (rewrite <- ln_1; apply ln_increasing; lra).
  unfold rad2temp. rewrite C1_eq, C2_eq, npow_fin, nZ_fin. cbn [nmul XRN ndiv nadd nlog xmul].
  rewrite xdiv_fin by lra. cbn [xadd]. rewrite xlog_pos by lra. cbn [xmul].
  apply xdiv_fin. apply Rgt_not_eq. apply Rmult_lt_0_compat; auto.
Qed.

Lemma wn_rad2temp_raw n b : 0 < n -> 0 < b ->
  @wn_rad2temp XRN (Fin n) (Fin b) = Fin (c1 * n / ln (c2 * n ^ 3 / b + 1)).
Proof.
  intros Hl Hb. pose proof (pow3_pos n Hl). pose proof c2_pos.
  assert (0 < c2 * n ^ 3) by (apply Rmult_lt_0_compat; auto).
  assert (0 < c2 * n ^ 3 / b) by (apply Rdiv_lt_0_compat; auto).
  assert (0 < ln (c2 * n ^ 3 / b + 1)) by (rewrite <- ln_1; apply ln_increasing; lra).
  unfold wn_rad2temp. rewrite C1_eq, C2_eq, npow_fin, nZ_fin. cbn [nmul XRN ndiv nadd nlog xmul].
  rewrite xdiv_fin by lra. cbn [xadd]. rewrite xlog_pos by lra.
  apply xdiv_fin. lra.
Qed.

Lemma rad2temp_eq l b : 0 < l -> 0 < b -> @rad2temp XRN (Fin l) (Fin b) = Fin (T_lambda l b).
Proof.
  intros Hl Hb. rewrite rad2temp_raw by auto. f_equal. unfold T_lambda, c1, c2.
  pose proof (pow5_pos l Hl). pose proof c2_pos. pose proof k_pos.
  assert (0 < b * l ^ 5) by (apply Rmult_lt_0_compat; auto).
  assert (0 < c2 / (b * l ^ 5)) by (apply Rdiv_lt_0_compat; auto).
  assert (0 < ln (c2 / (b * l ^ 5) + 1)) by (rewrite <- ln_1; apply ln_increasing; lra).
  unfold c2 in *. set (L := ln _) in *. field. lra.
Qed.

Lemma wn_rad2temp_eq n b : 0 < n -> 0 < b -> @wn_rad2temp XRN (Fin n) (Fin b) = Fin (T_nu n b).
Proof.
  intros Hl Hb. rewrite wn_rad2temp_raw by auto. f_equal. unfold T_nu, c1, c2.
  pose proof (pow3_pos n Hl). pose proof c2_pos. pose proof k_pos.
  assert (0 < c2 * n ^ 3) by (apply Rmult_lt_0_compat; auto).
  assert (0 < c2 * n ^ 3 / b) by (apply Rdiv_lt_0_compat; auto).
  assert (0 < ln (c2 * n ^ 3 / b + 1)) by (rewrite <- ln_1; apply ln_increasing; lra).
  unfold c2 in *. set (L := ln _) in *. field. lra.
Qed.

(** ** Facts about the law itself *)
Lemma B_lambda_raw l t : 0 < l -> 0 < t -> B_lambda l t = c2 / l ^ 5 / (exp (c1 / (l * t)) - 1).
Proof.
  intros. unfold B_lambda, c1, c2. pose proof k_pos. do 3 f_equal. field. lra.
Qed.
Lemma B_nu_raw n t : 0 < n -> 0 < t -> B_nu n t = c2 * n ^ 3 / (exp (c1 * n / t) - 1).
Proof.
  intros. unfold B_nu, c1, c2. pose proof k_pos. do 3 f_equal. field. lra.
Qed.
Lemma T_lambda_raw l b : 0 < l -> 0 < b -> T_lambda l b = c1 / (l * ln (c2 / (b * l ^ 5) + 1)).
Proof.
  intros. assert (H1 := rad2temp_eq l b H H0). rewrite rad2temp_raw in H1 by auto. now injection H1.
Qed.
Lemma T_nu_raw n b : 0 < n -> 0 < b -> T_nu n b = c1 * n / ln (c2 * n ^ 3 / b + 1).
Proof.
  intros. assert (H1 := wn_rad2temp_eq n b H H0). rewrite wn_rad2temp_raw in H1 by auto. now injection H1.
Qed.

Lemma arg_pos l t : 0 < l -> 0 < t -> 0 < c1 / (l * t).
Proof. intros. pose proof c1_pos. apply Rdiv_lt_0_compat; auto. apply Rmult_lt_0_compat; auto. Qed.
Lemma argn_pos n t : 0 < n -> 0 < t -> 0 < c1 * n / t.
Proof. intros. pose proof c1_pos. apply Rdiv_lt_0_compat; auto. apply Rmult_lt_0_compat; auto. Qed.

Lemma B_lambda_pos l t : 0 < l -> 0 < t -> 0 < B_lambda l t.
Proof.
  intros Hl Ht. rewrite B_lambda_raw by auto. pose proof (exp_m1_pos _ (arg_pos l t Hl Ht)).
  pose proof c2_pos. pose proof (pow5_pos l Hl).
  apply Rdiv_lt_0_compat; auto. apply Rdiv_lt_0_compat; auto.
Qed.
Lemma B_nu_pos n t : 0 < n -> 0 < t -> 0 < B_nu n t.
Proof.
  intros Hl Ht. rewrite B_nu_raw by auto. pose proof (exp_m1_pos _ (argn_pos n t Hl Ht)).
  pose proof c2_pos. pose proof (pow3_pos n Hl).
  apply Rdiv_lt_0_compat; auto. apply Rmult_lt_0_compat; auto.
Qed.

Lemma B_lambda_incr l t t' : 0 < l -> 0 < t -> t < t' -> B_lambda l t < B_lambda l t'.
Proof.
  intros Hl Ht Htt. rewrite !B_lambda_raw by lra.
  pose proof (exp_m1_pos _ (arg_pos l t Hl Ht)).
  assert (0 < t') by lra. pose proof (exp_m1_pos _ (arg_pos l t' Hl H0)).
  pose proof c2_pos. pose proof (pow5_pos l Hl). pose proof c1_pos.
  unfold Rdiv at 1 3. apply Rmult_lt_compat_l.
  - apply Rdiv_lt_0_compat; auto.
  - apply Rinv_lt_contravar. apply Rmult_lt_0_compat; auto.
    apply Rplus_lt_compat_r. apply exp_increasing.
    unfold Rdiv. apply Rmult_lt_compat_l; auto. apply Rinv_lt_contravar.
    + apply Rmult_lt_0_compat; apply Rmult_lt_0_compat; lra.
    + apply Rmult_lt_compat_l; lra.
Qed.

Lemma B_nu_incr n t t' : 0 < n -> 0 < t -> t < t' -> B_nu n t < B_nu n t'.
Proof.
  intros Hl Ht Htt. rewrite !B_nu_raw by lra.
  pose proof (exp_m1_pos _ (argn_pos n t Hl Ht)).
  assert (0 < t') by lra. pose proof (exp_m1_pos _ (argn_pos n t' Hl H0)).
  pose proof c2_pos. pose proof (pow3_pos n Hl). pose proof c1_pos.
  unfold Rdiv at 1 3. apply Rmult_lt_compat_l.
  - apply Rmult_lt_0_compat; auto.
  - apply Rinv_lt_contravar. apply Rmult_lt_0_compat; auto.
    apply Rplus_lt_compat_r. apply exp_increasing.
    unfold Rdiv. apply Rmult_lt_compat_l; auto. apply Rmult_lt_0_compat; auto.
    apply Rinv_lt_contravar; auto.
    apply Rmult_lt_0_compat; lra.
Qed.

Lemma T_of_B_lambda l t : 0 < l -> 0 < t -> T_lambda l (B_lambda l t) = t.
Proof.
  intros Hl Ht. pose proof (B_lambda_pos l t Hl Ht) as HB.
  rewrite T_lambda_raw by auto. rewrite B_lambda_raw by auto.
  pose proof (arg_pos l t Hl Ht). pose proof (exp_m1_pos _ H).
  pose proof c2_pos. pose proof c1_pos. pose proof (pow5_pos l Hl).
  set (x := c1 / (l * t)) in *.
  replace (c2 / (c2 / l ^ 5 / (exp x - 1) * l ^ 5) + 1) with (exp x) by (field; lra).
  rewrite ln_exp. unfold x. field. lra.
Qed.

Lemma T_of_B_nu n t : 0 < n -> 0 < t -> T_nu n (B_nu n t) = t.
Proof.
  intros Hl Ht. pose proof (B_nu_pos n t Hl Ht) as HB.
  rewrite T_nu_raw by auto. rewrite B_nu_raw by auto.
  pose proof (argn_pos n t Hl Ht). pose proof (exp_m1_pos _ H).
  pose proof c2_pos. pose proof c1_pos. pose proof (pow3_pos n Hl).
  set (x := c1 * n / t) in *.
  replace (c2 * n ^ 3 / (c2 * n ^ 3 / (exp x - 1)) + 1) with (exp x) by (field; lra).
  rewrite ln_exp. unfold x. field. lra.
Qed.

Lemma ln_p1_pos x : 0 < x -> 0 < ln (x + 1).
Proof. intros. rewrite <- ln_1. apply ln_increasing; lra. Qed.

Lemma T_lambda_arg l b : 0 < l -> 0 < b -> 0 < c2 / (b * l ^ 5).
Proof.
  intros. pose proof c2_pos. pose proof (pow5_pos l H). apply Rdiv_lt_0_compat; auto.
  apply Rmult_lt_0_compat; auto.
Qed.
Lemma T_nu_arg n b : 0 < n -> 0 < b -> 0 < c2 * n ^ 3 / b.
Proof.
  intros. pose proof c2_pos. pose proof (pow3_pos n H). apply Rdiv_lt_0_compat; auto.
  apply Rmult_lt_0_compat; auto.
Qed.

Lemma T_lambda_pos l b : 0 < l -> 0 < b -> 0 < T_lambda l b.
Proof.
  intros. rewrite T_lambda_raw by auto. pose proof c1_pos.
  pose proof (ln_p1_pos _ (T_lambda_arg l b H H0)).
  apply Rdiv_lt_0_compat; auto. apply Rmult_lt_0_compat; auto.
Qed.
Lemma T_nu_pos n b : 0 < n -> 0 < b -> 0 < T_nu n b.
Proof.
  intros. rewrite T_nu_raw by auto. pose proof c1_pos.
  pose proof (ln_p1_pos _ (T_nu_arg n b H H0)).
  apply Rdiv_lt_0_compat; auto. apply Rmult_lt_0_compat; auto.
Qed.

Lemma B_of_T_lambda l b : 0 < l -> 0 < b -> B_lambda l (T_lambda l b) = b.
Proof.
  intros Hl Hb. pose proof (T_lambda_pos l b Hl Hb) as HT.
  rewrite B_lambda_raw by auto. rewrite T_lambda_raw in * by auto.
  pose proof c2_pos. pose proof c1_pos. pose proof (pow5_pos l Hl).
  pose proof (T_lambda_arg l b Hl Hb) as Ha. pose proof (ln_p1_pos _ Ha).
  set (L := ln (c2 / (b * l ^ 5) + 1)) in *.
  replace (c1 / (l * (c1 / (l * L)))) with L by (field; lra).
  unfold L. rewrite exp_ln by lra. field. lra.
Qed.
Lemma B_of_T_nu n b : 0 < n -> 0 < b -> B_nu n (T_nu n b) = b.
Proof.
  intros Hl Hb. pose proof (T_nu_pos n b Hl Hb) as HT.
  rewrite B_nu_raw by auto. rewrite T_nu_raw in * by auto.
  pose proof c2_pos. pose proof c1_pos. pose proof (pow3_pos n Hl).
  pose proof (T_nu_arg n b Hl Hb) as Ha. pose proof (ln_p1_pos _ Ha).
  set (L := ln (c2 * n ^ 3 / b + 1)) in *.
  replace (c1 * n / (c1 * n / L)) with L by (field; lra).
  unfold L. rewrite exp_ln by lra. assert (0 < c2 * n ^ 3) by (apply Rmult_lt_0_compat; auto). field. lra.
Qed.

Lemma T_lambda_incr l b b' : 0 < l -> 0 < b -> b < b' -> T_lambda l b < T_lambda l b'.
Proof.
  intros Hl Hb Hbb. destruct (Rlt_le_dec (T_lambda l b) (T_lambda l b')) as [|Hge]; auto.
  exfalso. assert (Hb' : 0 < b') by lra.
  pose proof (T_lambda_pos l b' Hl Hb') as HT'.
  assert (b' <= b); [|lra].
  rewrite <- (B_of_T_lambda l b Hl Hb), <- (B_of_T_lambda l b' Hl Hb').
  destruct Hge as [Hlt|Heq].
  - left. apply B_lambda_incr; auto.
  - rewrite Heq. lra.
Qed.
Lemma T_nu_incr n b b' : 0 < n -> 0 < b -> b < b' -> T_nu n b < T_nu n b'.
Proof.
  intros Hl Hb Hbb. destruct (Rlt_le_dec (T_nu n b) (T_nu n b')) as [|Hge]; auto.
  exfalso. assert (Hb' : 0 < b') by lra.
  pose proof (T_nu_pos n b' Hl Hb') as HT'.
  assert (b' <= b); [|lra].
  rewrite <- (B_of_T_nu n b Hl Hb), <- (B_of_T_nu n b' Hl Hb').
  destruct Hge as [Hlt|Heq].
  - left. apply B_nu_incr; auto.
  - rewrite Heq. lra.
Qed.

(** Rayleigh-Jeans upper bound *)
Lemma B_lambda_RJ l t : 0 < l -> 0 < t -> B_lambda l t < 2 * c_light * k_boltz * t / l ^ 4.
Proof.
  intros Hl Ht. rewrite B_lambda_raw by auto.
  pose proof (arg_pos l t Hl Ht) as Hx. pose proof (exp_m1_pos _ Hx).
  pose proof c2_pos. pose proof c1_pos. pose proof (pow5_pos l Hl). pose proof k_pos. pose proof h_pos.
  pose proof c_pos.
  assert (Hx1 : c1 / (l * t) < exp (c1 / (l * t)) - 1) by (pose proof (exp_ineq1 (c1 / (l * t))); lra).
  apply Rlt_le_trans with (c2 / l ^ 5 / (c1 / (l * t))).
  - unfold Rdiv at 1 3. apply Rmult_lt_compat_l; [apply Rdiv_lt_0_compat; auto|].
    apply Rinv_lt_contravar; auto. apply Rmult_lt_0_compat; auto.
  - right. unfold c1, c2. field. repeat split; try lra.
Qed.
Lemma B_nu_RJ n t : 0 < n -> 0 < t -> B_nu n t < 2 * c_light * k_boltz * t * n ^ 2.
Proof.
  intros Hl Ht. rewrite B_nu_raw by auto.
  pose proof (argn_pos n t Hl Ht) as Hx. pose proof (exp_m1_pos _ Hx).
  pose proof c2_pos. pose proof c1_pos. pose proof (pow3_pos n Hl). pose proof k_pos. pose proof h_pos.
  pose proof c_pos.
  assert (Hx1 : c1 * n / t < exp (c1 * n / t) - 1) by (pose proof (exp_ineq1 (c1 * n / t)); lra).
  apply Rlt_le_trans with (c2 * n ^ 3 / (c1 * n / t)).
  - unfold Rdiv at 1 3. apply Rmult_lt_compat_l; [apply Rmult_lt_0_compat; auto|].
    apply Rinv_lt_contravar; auto. apply Rmult_lt_0_compat; auto.
  - right. unfold c1, c2. field. repeat split; try lra.
Qed.

(** same energy in both spaces *)
Lemma B_equiv n t : 0 < n -> 0 < t -> B_lambda (1 / n) t = n ^ 2 * B_nu n t.
Proof.
  intros Hn Ht. assert (0 < 1 / n) by (apply Rdiv_lt_0_compat; lra).
  rewrite B_lambda_raw, B_nu_raw by auto.
  pose proof (exp_m1_pos _ (argn_pos n t Hn Ht)).
  replace (c1 / (1 / n * t)) with (c1 * n / t) by (field; lra).
  field. split; lra.
Qed.
Lemma T_equiv n b : 0 < n -> 0 < b -> T_lambda (1 / n) (n ^ 2 * b) = T_nu n b.
Proof.
  intros Hn Hb. assert (0 < 1 / n) by (apply Rdiv_lt_0_compat; lra).
  assert (0 < n ^ 2 * b) by (apply Rmult_lt_0_compat; auto; apply pow_lt; auto).
  rewrite T_lambda_raw, T_nu_raw by auto.
  pose proof (ln_p1_pos _ (T_nu_arg n b Hn Hb)).
  replace (c2 / (n ^ 2 * b * (1 / n) ^ 5) + 1) with (c2 * n ^ 3 / b + 1) by (field; split; lra).
  field. lra.
Qed.
