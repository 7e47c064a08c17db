(** The limb-cooling correction in doubles (C113). *)
From Coq Require Import Reals Lra Lia ZArith String List Bool Arith SpecFloat.
From Flocq Require Import Core BinarySingleNaN.
From Verif Require Import Base NumSig XR B64 M_AtmIR S_B64 S_AtmIR S_AtmDoubles P_AtmIR P_B64 P_B64ops P_B64mono P_B64lib P_NirDoubles P_RayDoubles.
Import ListNotations.
Local Open Scope R_scope.

(** ** Powers *)
Lemma exp_near d : Rabs d <= 1 / 100 -> Rabs (exp d - 1) <= 102 / 100 * Rabs d.
Proof.
  intros H. apply Rabs_le_inv in H. pose proof (exp_ineq1_le d) as A. pose proof (exp_ineq1_le (- d)) as B. rewrite exp_Ropp in B. pose proof (exp_pos d) as P.
  assert (C : exp d * (1 - d) <= 1). { apply Rmult_le_compat_r with (r := exp d) in B; [|lra]. rewrite Rinv_l in B by lra. lra. }
  assert (M : exp d <= 101 / 99). { apply Rmult_le_reg_r with (1 - d); [lra|]. eapply Rle_trans; [exact C|]. nra. }
  unfold Rabs at 2. destruct (Rcase_abs d); apply Rabs_le; split; try nra.
Qed.
Lemma ln_near a b : 1 <= a -> 1 <= b -> Rabs (ln a - ln b) <= Rabs (a - b).
Proof.
  assert (K : forall a b, 1 <= a -> 1 <= b -> ln a - ln b <= Rabs (a - b)).
  { intros x y Hx Hy. destruct (Rle_dec x y) as [L|L].
    - assert (ln x <= ln y). { destruct L as [L|L]; [left; apply ln_increasing; lra|rewrite L; lra]. } pose proof (Rabs_pos (x - y)). lra.
    - rewrite Rabs_pos_eq by lra. assert (E : ln x = ln y + ln (x / y)). { rewrite <- ln_mult by (try apply Rdiv_lt_0_compat; lra). f_equal. field. lra. }
      rewrite E. assert (Q : ln (x / y) <= x / y - 1). { pose proof (exp_ineq1_le (ln (x / y))) as I. rewrite exp_ln in I by (apply Rdiv_lt_0_compat; lra). lra. }
      assert (x / y - 1 <= x - y). { replace (x / y - 1) with ((x - y) / y) by (field; lra). apply Rmult_le_reg_r with y; [lra|]. unfold Rdiv. rewrite Rmult_assoc, Rinv_l by lra. nra. }
      lra. }
  intros Ha Hb. apply Rabs_le. pose proof (K a b Ha Hb). pose proof (K b a Hb Ha) as K2. rewrite Rabs_minus_sym in K2. lra.
Qed.
Lemma Rpower_square B y : 1 < B -> y <= 2 -> 0 < Rpower B y <= B * B.
Proof.
  intros H Hy. split; [apply exp_pos|]. replace (B * B) with (Rpower B 2).
  - apply Rle_Rpower; lra.
  - replace 2 with (INR 2) by (cbn; lra). rewrite Rpower_pow by lra. cbn. ring.
Qed.
Lemma pow_near lib B b y y' : good_pow (1 / 10 ^ 15) (m_pow lib) -> 7 <= B <= 11 -> is_double b -> Rabs (to_R b - B) <= 1 / 10 ^ 15 ->
  is_double y' -> Rabs y <= 2 -> Rabs (to_R y' - y) <= 45 / 10 ^ 17 ->
  double_between 1 100 b /\ double_between (-10) 10 y' /\ is_double (m_pow lib b y') /\ Rabs (to_R (m_pow lib b y') - Rpower B y) <= 8 / 10 ^ 15 * Rpower B y.
Proof.
  intros G HB Db Hb Dy Hy Hy'. apply Rabs_le_inv in Hb as Hb'. apply Rabs_le_inv in Hy as Hy2. apply Rabs_le_inv in Hy' as Hy3.
  assert (B1 : double_between 1 100 b) by (split; [auto|lra]). assert (B2 : double_between (-10) 10 y') by (split; [auto|lra]).
  split; [exact B1|]. split; [exact B2|]. destruct (pow_accurate _ _ G b y' B1 B2) as [D A]. split; [exact D|].
  set (p := to_R (m_pow lib b y')) in *. set (P := Rpower B y). set (Q := Rpower (to_R b) (to_R y')) in *.
  assert (PP : 0 < P) by apply exp_pos.
  set (d := to_R y' * ln (to_R b) - y * ln B).
  assert (E : Q = P * exp d). { unfold Q, P, Rpower. rewrite <- exp_plus. f_equal. unfold d. ring. }
  assert (Ld : Rabs d <= 66 / 10 ^ 16).
  { unfold d. replace (to_R y' * ln (to_R b) - y * ln B) with ((to_R y' - y) * ln (to_R b) + y * (ln (to_R b) - ln B)) by ring.
    eapply Rle_trans; [apply Rabs_triang|]. rewrite !Rabs_mult.
    pose proof (ln_near (to_R b) B ltac:(lra) ltac:(lra)) as L1.
    assert (L2 : 0 <= ln (to_R b) <= 101 / 10).
    { split; [rewrite <- ln_1; left; apply ln_increasing; lra|]. pose proof (ln_near (to_R b) 1 ltac:(lra) ltac:(lra)) as L. rewrite ln_1 in L.
      rewrite (Rabs_pos_eq (to_R b - 1)) in L by lra. apply Rabs_le_inv in L. lra. }
    rewrite (Rabs_pos_eq (ln (to_R b))) by lra.
    assert (Rabs (to_R y' - y) * ln (to_R b) <= 45 / 10 ^ 17 * (101 / 10)) by (apply Rmult_le_compat; try lra; apply Rabs_pos).
    assert (Rabs y * Rabs (ln (to_R b) - ln B) <= 2 * (1 / 10 ^ 15)) by (apply Rmult_le_compat; try apply Rabs_pos; lra).
    lra. }
  pose proof (exp_near d ltac:(lra)) as X.
  assert (X1 : Rabs (Q - P) <= 7 / 10 ^ 15 * P * (97 / 100)).
  { rewrite E. replace (P * exp d - P) with (P * (exp d - 1)) by ring. rewrite Rabs_mult, (Rabs_pos_eq P) by lra.
    assert (Rabs (exp d - 1) <= 7 / 10 ^ 15 * (97 / 100)) by lra. nra. }
  apply Rabs_le_inv in X1. apply Rabs_le_inv in A. apply Rabs_le. nra.
Qed.

(** ** The two bases *)
Lemma base_10 : is_double (SFadd 53 1024 (b64_ratio 1 1) (b64_ratio 985 100)) /\ Rabs (to_R (SFadd 53 1024 (b64_ratio 1 1) (b64_ratio 985 100)) - 1085 / 100) <= 1 / 10 ^ 15.
Proof.
  split; [split; vm_compute; reflexivity|]. let x := eval vm_compute in (SFadd 53 1024 (b64_ratio 1 1) (b64_ratio 985 100)) in change (SFadd 53 1024 (b64_ratio 1 1) (b64_ratio 985 100)) with x.
  cbn [SF2R cond_Zopp]. unfold F2R. cbn -[IZR]. apply Rabs_le. lra.
Qed.
Lemma base_7 : is_double (SFadd 53 1024 (b64_ratio 1 1) (b64_ratio 62 10)) /\ Rabs (to_R (SFadd 53 1024 (b64_ratio 1 1) (b64_ratio 62 10)) - 72 / 10) <= 1 / 10 ^ 15.
Proof.
  split; [split; vm_compute; reflexivity|]. let x := eval vm_compute in (SFadd 53 1024 (b64_ratio 1 1) (b64_ratio 62 10)) in change (SFadd 53 1024 (b64_ratio 1 1) (b64_ratio 62 10)) with x.
  cbn [SF2R cond_Zopp]. unfold F2R. cbn -[IZR]. apply Rabs_le. lra.
Qed.
Lemma small300 x : Rabs x <= 10 ^ 10 -> Rabs x <= 10 ^ 300.
Proof. intros H. eapply Rle_trans; [exact H|]. apply Rle_pow; [lra|lia]. Qed.

(** ** The quotients *)
Lemma ratio_64 lib x a b : is_double x -> Rabs (to_R x) <= 1000 -> (0 <= a < b)%Z -> (b <= 1000)%Z ->
  val_is (ratio (N := B64N lib) x (nZ a) (nZ b)) (rnd64 (to_R x - IZR a) / (IZR b - IZR a)).
Proof.
  intros Dx Hx Ha Hb. unfold ratio, nZ. change (nlit (B64N lib)) with b64_ratio. change (nsub (B64N lib)) with (SFsub 53 1024). change (ndiv (B64N lib)) with (SFdiv 53 1024).
  destruct (int_R a) as [Da Ea]; [lia|]. destruct (int_R b) as [Db Eb]; [lia|].
  assert (Ia : 0 <= IZR a) by (apply IZR_le; lia). assert (Iab : IZR a + 1 <= IZR b) by (rewrite <- plus_IZR; apply IZR_le; lia). assert (Ib : IZR b <= 1000) by (apply IZR_le; lia).
  apply Rabs_le_inv in Hx.
  destruct (v_sub x (b64_ratio a 1) Dx Da) as [D1 E1]. { rewrite Ea. apply small300, Rabs_le. lra. }
  destruct (v_sub (b64_ratio b 1) (b64_ratio a 1) Db Da) as [D2 E2]. { rewrite Ea, Eb. apply small300, Rabs_le. lra. }
  rewrite Ea in E1. rewrite Ea, Eb, <- minus_IZR, rnd_IZR, minus_IZR in E2 by lia. rewrite <- E1, <- E2.
  apply v_div; auto; [rewrite E2; lra|]. apply small300. rewrite E1, E2.
  assert (Q : Rabs (rnd64 (to_R x - IZR a)) <= 2000) by (apply rnd_big; [lia|apply Rabs_le; lra]).
  unfold Rdiv. rewrite Rabs_mult. rewrite (Rabs_pos_eq (/ _)) by (left; apply Rinv_0_lt_compat; lra).
  assert (/ (IZR b - IZR a) <= 1). { rewrite <- Rinv_1. apply Rinv_le; lra. }
  assert (0 < / (IZR b - IZR a)) by (apply Rinv_0_lt_compat; lra). pose proof (Rabs_pos (rnd64 (to_R x - IZR a))). nra.
Qed.
Lemma eta_20 : 0 < eta <= / 10 ^ 20.
Proof. destruct eta_tiny as [A B]. split; [exact A|]. eapply Rle_trans; [exact B|]. apply Rinv_le; [apply pow_lt; lra|]. apply Rle_pow; [lra|lia]. Qed.
Lemma ratio_err x a b M : 70 <= b - a -> Rabs (x - a) <= M * (b - a) -> 0 <= M <= 174 / 100 -> Rabs (rnd64 (rnd64 (x - a) / (b - a)) - (x - a) / (b - a)) <= 45 / 10 ^ 17.
Proof.
  intros Hd Hx HM. pose proof (rnd_err (x - a)) as E1. set (s := rnd64 (x - a)) in *. pose proof (rnd_err (s / (b - a))) as E2. set (q := rnd64 (s / (b - a))) in *.
  pose proof u_val as U. pose proof eta_20 as T. set (D := b - a) in *. 
  assert (I : 0 < / D <= / 70). { split; [apply Rinv_0_lt_compat; lra|apply Rinv_le; lra]. }
  assert (S1 : Rabs (s / D - (x - a) / D) <= 209 / 10 ^ 18).
  { replace (s / D - (x - a) / D) with ((s - (x - a)) * / D) by (field; lra). rewrite Rabs_mult, (Rabs_pos_eq (/ D)) by lra.
    assert (Rabs (s - (x - a)) <= 12 / 10 ^ 17 * (174 / 100 * D) + / 10 ^ 20).
    { eapply Rle_trans; [exact E1|]. assert (u * Rabs (x - a) <= 12 / 10 ^ 17 * (174 / 100 * D)). { apply Rmult_le_compat; try lra; [apply Rabs_pos|]. eapply Rle_trans; [exact Hx|]. apply Rmult_le_compat_r; lra. } lra. }
    assert (Rabs (s - (x - a)) * / D <= (12 / 10 ^ 17 * (174 / 100 * D) + / 10 ^ 20) * / D) by (apply Rmult_le_compat_r; lra).
    replace ((12 / 10 ^ 17 * (174 / 100 * D) + / 10 ^ 20) * / D) with (12 / 10 ^ 17 * (174 / 100) + / 10 ^ 20 * / D) in H0 by (field; lra). assert (/ 10 ^ 20 * / D <= / 10 ^ 20 * / 70) by (apply Rmult_le_compat_l; lra). lra. }
  assert (S2 : Rabs (s / D) <= 175 / 100).
  { replace (s / D) with ((s / D - (x - a) / D) + (x - a) / D) by ring. eapply Rle_trans; [apply Rabs_triang|].
    assert (Rabs ((x - a) / D) <= M). { unfold Rdiv. rewrite Rabs_mult, (Rabs_pos_eq (/ D)) by lra. apply Rmult_le_reg_r with D; [lra|]. rewrite Rmult_assoc, Rinv_l by lra. lra. }
    lra. }
  replace (q - (x - a) / D) with ((q - s / D) + (s / D - (x - a) / D)) by ring. eapply Rle_trans; [apply Rabs_triang|].
  assert (u * Rabs (s / D) <= 12 / 10 ^ 17 * (175 / 100)) by (apply Rmult_le_compat; try lra; apply Rabs_pos). lra.
Qed.

(** ** The three factors.  At nadir: *)
Lemma kelvin_abs t : kelvin t -> Rabs (to_R t) <= 1000.
Proof. intros [_ H]. apply Rabs_le. lra. Qed.
Lemma shift_1 p : is_double p -> Rabs (to_R p) <= 1000 -> val_is (SFsub 53 1024 p (b64_ratio 1 1)) (to_R p - 1).
Proof.
  intros D H. destruct one_double as [D1 E1]. rewrite <- E1. apply v_sub; auto. rewrite E1. apply small300. apply Rabs_le_inv in H. apply Rabs_le. lra.
Qed.
Lemma nadir_exponent lib t : kelvin t -> exists y, ratio (N := B64N lib) t (nZ 210) (nZ 320) = y /\ is_double y /\ to_R y = rnd64 (rnd64 (to_R t - 210) / 110) /\
  Rabs ((to_R t - 210) / 110) <= 2 /\ Rabs (to_R y - (to_R t - 210) / 110) <= 45 / 10 ^ 17.
Proof.
  intros K. pose proof (kelvin_abs t K) as KA. destruct K as [D R]. destruct (ratio_64 lib t 210 320 D KA ltac:(lia) ltac:(lia)) as [Dy Ey]. eexists. split; [reflexivity|]. split; [exact Dy|].
  replace (320 - 210) with 110 in Ey by lra. split; [exact Ey|]. split; [apply Rabs_le; lra|]. rewrite Ey.
  pose proof (ratio_err (to_R t) 210 320 (174 / 100)) as E. replace (320 - 210) with 110 in E by lra. apply E; try lra. apply Rabs_le. lra.
Qed.
Lemma nadir_ok lib t : good_pow (1 / 10 ^ 15) (m_pow lib) -> kelvin t ->
  is_double (tau0 (N := B64N lib) t) /\ Rabs (to_R (tau0 (N := B64N lib) t) - nadir_inc (to_R t)) <= 2 / 10 ^ 12 /\ Rabs (to_R (tau0 (N := B64N lib) t)) <= 200 /\
  (210 <= to_R t -> 0 <= to_R (tau0 (N := B64N lib) t)) /\ (to_R t <= 210 -> to_R (tau0 (N := B64N lib) t) <= 0).
Proof.
  intros G K. destruct (nadir_exponent lib t K) as (y & Ey & Dy & Vy & By & Ry). destruct base_10 as [Db Eb]. unfold tau0. rewrite Ey.
  change (npowr (B64N lib)) with (m_pow lib). change (nsub (B64N lib)) with (SFsub 53 1024). unfold n1. change (nlit (B64N lib)) with b64_ratio. change (nadd (B64N lib)) with (SFadd 53 1024).
  destruct (pow_near lib (1085 / 100) _ ((to_R t - 210) / 110) y G ltac:(lra) Db Eb Dy By Ry) as (B1 & B2 & Dp & Ep).
  set (p := m_pow lib _ y) in *. fold (nadir_inc (to_R t)) in *. apply Rabs_le_inv in By as By'.
  destruct (Rpower_square (1085 / 100) ((to_R t - 210) / 110) ltac:(lra) ltac:(lra)) as [P0 P1]. set (P := Rpower _ _) in *.
  assert (Ep2 : Rabs (to_R p - P) <= 1 / 10 ^ 12). { eapply Rle_trans; [exact Ep|]. nra. }
  apply Rabs_le_inv in Ep2 as Ep3. destruct (shift_1 p Dp) as [Ds Es]; [apply Rabs_le; lra|].
  split; [exact Ds|]. rewrite Es. pose proof (rnd_err (to_R p - 1)) as E. pose proof u_val as U. pose proof eta_20 as T.
  assert (N : nadir_inc (to_R t) = P - 1) by reflexivity. rewrite N.
  assert (A : Rabs (to_R p - 1) <= 120) by (apply Rabs_le; lra).
  assert (UA : u * Rabs (to_R p - 1) <= 12 / 10 ^ 17 * 120) by (apply Rmult_le_compat; try lra; apply Rabs_pos).
  apply Rabs_le_inv in E. split; [apply Rabs_le; lra|]. split; [apply (rnd_big _ 200); [lia|lra]|].
  assert (Z : double_between (-10) 10 (b64_ratio 0 1)) by (destruct P_RayDoubles.zero_double as [Z1 Z2]; split; [exact Z1|rewrite Z2; lra]).
  assert (Zp : to_R (m_pow lib (SFadd 53 1024 (b64_ratio 1 1) (b64_ratio 985 100)) (b64_ratio 0 1)) = 1) by (apply (pow_zeroth _ _ G); [exact B1|apply P_RayDoubles.zero_double|apply P_RayDoubles.zero_double]).
  destruct P_RayDoubles.zero_double as [Z1 Z2].
  split; intros H.
  - apply rnd_nonneg. pose proof (pow_order _ _ G _ _ _ B1 Z B2) as O. rewrite Z2, Zp in O. fold p in O.
    assert (0 <= to_R y). { rewrite Vy. apply rnd_nonneg. apply Rmult_le_pos; [apply rnd_nonneg; lra|lra]. } specialize (O H0). lra.
  - rewrite <- rnd_0. apply rnd_le. pose proof (pow_order _ _ G _ _ _ B1 B2 Z) as O. rewrite Z2, Zp in O. fold p in O.
    assert (to_R y <= 0). { rewrite Vy. rewrite <- rnd_0. apply rnd_le. assert (rnd64 (to_R t - 210) <= 0) by (rewrite <- rnd_0; apply rnd_le; lra). lra. } specialize (O H0). lra.
Qed.
Lemma nadir_mono lib t t' : good_pow (1 / 10 ^ 15) (m_pow lib) -> kelvin t -> kelvin t' -> to_R t <= to_R t' -> to_R (tau0 (N := B64N lib) t) <= to_R (tau0 (N := B64N lib) t').
Proof.
  intros G K K' L. destruct (nadir_exponent lib t K) as (y & Ey & Dy & Vy & By & Ry). destruct (nadir_exponent lib t' K') as (y' & Ey' & Dy' & Vy' & By' & Ry').
  destruct base_10 as [Db Eb]. unfold tau0. rewrite Ey, Ey'.
  change (npowr (B64N lib)) with (m_pow lib). change (nsub (B64N lib)) with (SFsub 53 1024). unfold n1. change (nlit (B64N lib)) with b64_ratio. change (nadd (B64N lib)) with (SFadd 53 1024).
  destruct (pow_near lib (1085 / 100) _ ((to_R t - 210) / 110) y G ltac:(lra) Db Eb Dy By Ry) as (B1 & B2 & Dp & Ep).
  destruct (pow_near lib (1085 / 100) _ ((to_R t' - 210) / 110) y' G ltac:(lra) Db Eb Dy' By' Ry') as (_ & B2' & Dp' & Ep').
  assert (O := pow_order _ _ G _ _ _ B1 B2 B2'). apply Rabs_le_inv in By, By'.
  set (p := m_pow lib _ y) in *. set (p' := m_pow lib _ y') in *.
  assert (Hy : to_R y <= to_R y'). { rewrite Vy, Vy'. apply rnd_le. assert (rnd64 (to_R t - 210) <= rnd64 (to_R t' - 210)) by (apply rnd_le; lra). lra. }
  specialize (O Hy).
  destruct (Rpower_square (1085 / 100) ((to_R t - 210) / 110) ltac:(lra) ltac:(lra)) as [P0 P1]. destruct (Rpower_square (1085 / 100) ((to_R t' - 210) / 110) ltac:(lra) ltac:(lra)) as [P0' P1'].
  apply Rabs_le_inv in Ep, Ep'.
  destruct (shift_1 p Dp) as [Ds Es]; [apply Rabs_le; nra|]. destruct (shift_1 p' Dp') as [Ds' Es']; [apply Rabs_le; nra|].
  rewrite Es, Es'. apply rnd_le. lra.
Qed.

(** The angle: *)
Definition slant_angle (z : b64) : Prop := is_double z /\ 0 < to_R z < 90.
Lemma slant_exponent lib z : slant_angle z -> exists y, ratio (N := B64N lib) z n0 (nZ 70) = y /\ is_double y /\ to_R y = rnd64 (to_R z / 70) /\
  Rabs (to_R z / 70) <= 2 /\ Rabs (to_R y - to_R z / 70) <= 45 / 10 ^ 17.
Proof.
  intros [D R]. destruct (ratio_64 lib z 0 70 D) as [Dy Ey]; [apply Rabs_le; lra|lia|lia|]. change (@n0 (B64N lib)) with (@nZ (B64N lib) 0). eexists. split; [reflexivity|]. split; [exact Dy|].
  rewrite !Rminus_0_r in Ey. rewrite rnd_dbl in Ey by apply D. split; [exact Ey|]. split; [apply Rabs_le; lra|]. rewrite Ey.
  pose proof (ratio_err (to_R z) 0 70 (174 / 100)) as E. rewrite !Rminus_0_r in E. rewrite rnd_dbl in E by apply D. apply E; try lra. apply Rabs_le. lra.
Qed.
Lemma slant_ok lib z : good_pow (1 / 10 ^ 15) (m_pow lib) -> slant_angle z ->
  is_double (delta (N := B64N lib) z) /\ Rabs (to_R (delta (N := B64N lib) z) - (Rpower (72 / 10) (to_R z / 70) - 1)) <= 43 / 10 ^ 14 /\ 0 <= to_R (delta (N := B64N lib) z) <= 51.
Proof.
  intros G K. destruct (slant_exponent lib z K) as (y & Ey & Dy & Vy & By & Ry). destruct base_7 as [Db Eb]. unfold delta. rewrite Ey.
  change (npowr (B64N lib)) with (m_pow lib). change (nsub (B64N lib)) with (SFsub 53 1024). unfold n1. change (nlit (B64N lib)) with b64_ratio. change (nadd (B64N lib)) with (SFadd 53 1024).
  destruct (pow_near lib (72 / 10) _ (to_R z / 70) y G ltac:(lra) Db Eb Dy By Ry) as (B1 & B2 & Dp & Ep).
  set (p := m_pow lib _ y) in *. apply Rabs_le_inv in By as By'.
  destruct (Rpower_square (72 / 10) (to_R z / 70) ltac:(lra) ltac:(lra)) as [P0 P1]. set (P := Rpower _ _) in *.
  assert (Ep2 : Rabs (to_R p - P) <= 8 / 10 ^ 15 * (5184 / 100)). { eapply Rle_trans; [exact Ep|]. apply Rmult_le_compat_l; lra. }
  apply Rabs_le_inv in Ep2 as Ep3. destruct (shift_1 p Dp) as [Ds Es]; [apply Rabs_le; lra|].
  split; [exact Ds|]. rewrite Es. pose proof (rnd_err (to_R p - 1)) as E. pose proof u_val as U. pose proof eta_20 as T.
  assert (A : Rabs (to_R p - 1) <= 509 / 10) by (apply Rabs_le; lra).
  assert (UA : u * Rabs (to_R p - 1) <= 12 / 10 ^ 17 * (509 / 10)) by (apply Rmult_le_compat; try lra; apply Rabs_pos).
  apply Rabs_le_inv in E. split; [apply Rabs_le; lra|].
  destruct P_RayDoubles.zero_double as [Z1 Z2].
  assert (Z : double_between (-10) 10 (b64_ratio 0 1)) by (split; [exact Z1|rewrite Z2; lra]).
  assert (Zp := pow_zeroth _ _ G _ _ B1 Z1 Z2).
  assert (O := pow_order _ _ G _ _ _ B1 Z B2). rewrite Z2, Zp in O. fold p in O.
  assert (Hy : 0 <= to_R y). { rewrite Vy. apply rnd_nonneg. destruct K. lra. } specialize (O Hy).
  split; [apply rnd_nonneg; lra|]. assert (Q := rnd_big (to_R p - 1) 51 ltac:(lia)). apply Rabs_le_inv in A. assert (Rabs (to_R p - 1) <= 51) by (apply Rabs_le; lra). specialize (Q H). apply Rabs_le_inv in Q. lra.
Qed.
Lemma slant_mono lib z z' : good_pow (1 / 10 ^ 15) (m_pow lib) -> slant_angle z -> slant_angle z' -> to_R z <= to_R z' -> to_R (delta (N := B64N lib) z) <= to_R (delta (N := B64N lib) z').
Proof.
  intros G K K' L. destruct (slant_exponent lib z K) as (y & Ey & Dy & Vy & By & Ry). destruct (slant_exponent lib z' K') as (y' & Ey' & Dy' & Vy' & By' & Ry').
  destruct base_7 as [Db Eb]. unfold delta. rewrite Ey, Ey'.
  change (npowr (B64N lib)) with (m_pow lib). change (nsub (B64N lib)) with (SFsub 53 1024). unfold n1. change (nlit (B64N lib)) with b64_ratio. change (nadd (B64N lib)) with (SFadd 53 1024).
  destruct (pow_near lib (72 / 10) _ (to_R z / 70) y G ltac:(lra) Db Eb Dy By Ry) as (B1 & B2 & Dp & Ep).
  destruct (pow_near lib (72 / 10) _ (to_R z' / 70) y' G ltac:(lra) Db Eb Dy' By' Ry') as (_ & B2' & Dp' & Ep').
  assert (O := pow_order _ _ G _ _ _ B1 B2 B2'). apply Rabs_le_inv in By, By'.
  set (p := m_pow lib _ y) in *. set (p' := m_pow lib _ y') in *.
  assert (Hy : to_R y <= to_R y'). { rewrite Vy, Vy'. apply rnd_le. lra. }
  specialize (O Hy).
  destruct (Rpower_square (72 / 10) (to_R z / 70) ltac:(lra) ltac:(lra)) as [P0 P1]. destruct (Rpower_square (72 / 10) (to_R z' / 70) ltac:(lra) ltac:(lra)) as [P0' P1'].
  apply Rabs_le_inv in Ep, Ep'.
  destruct (shift_1 p Dp) as [Ds Es]; [apply Rabs_le; nra|]. destruct (shift_1 p' Dp') as [Ds' Es']; [apply Rabs_le; nra|].
  rewrite Es, Es'. apply rnd_le. lra.
Qed.

(** The temperature: *)
Lemma mul_err a' b' a b ea eb A B : Rabs (a' - a) <= ea -> Rabs (b' - b) <= eb -> Rabs a' <= A -> Rabs b' <= B -> Rabs b <= B ->
  Rabs (rnd64 (a' * b') - a * b) <= A * eb + B * ea + 12 / 10 ^ 17 * (A * B) + / 10 ^ 20.
Proof.
  intros Ha Hb HA HB HB'. pose proof (rnd_err (a' * b')) as E. pose proof u_val as U. pose proof eta_20 as T.
  replace (rnd64 (a' * b') - a * b) with ((rnd64 (a' * b') - a' * b') + (a' * (b' - b) + b * (a' - a))) by ring.
  eapply Rle_trans; [apply Rabs_triang|]. assert (X1 : Rabs (a' * b') <= A * B) by (rewrite Rabs_mult; apply Rmult_le_compat; try apply Rabs_pos; lra).
  assert (X2 : u * Rabs (a' * b') <= 12 / 10 ^ 17 * (A * B)) by (apply Rmult_le_compat; try lra; apply Rabs_pos).
  assert (X3 : Rabs (a' * (b' - b) + b * (a' - a)) <= A * eb + B * ea).
  { eapply Rle_trans; [apply Rabs_triang|]. rewrite !Rabs_mult. apply Rplus_le_compat; apply Rmult_le_compat; try apply Rabs_pos; lra. }
  lra.
Qed.
Lemma warm_ratio lib t : kelvin t -> exists x, ratio (N := B64N lib) t (nZ 170) (nZ 295) = x /\ is_double x /\ to_R x = rnd64 (rnd64 (to_R t - 170) / 125) /\
  Rabs ((to_R t - 170) / 125) <= 184 / 100 /\ Rabs (to_R x - (to_R t - 170) / 125) <= 45 / 10 ^ 17.
Proof.
  intros K. pose proof (kelvin_abs t K) as KA. destruct K as [D R]. destruct (ratio_64 lib t 170 295 D KA ltac:(lia) ltac:(lia)) as [Dy Ey]. eexists. split; [reflexivity|]. split; [exact Dy|].
  replace (295 - 170) with 125 in Ey by lra. split; [exact Ey|]. split; [apply Rabs_le; lra|]. rewrite Ey.
  pose proof (rnd_err (to_R t - 170)) as E1. set (s := rnd64 (to_R t - 170)) in *. pose proof (rnd_err (s / 125)) as E2. pose proof u_val as U. pose proof eta_20 as T.
  assert (A1 : u * Rabs (to_R t - 170) <= 12 / 10 ^ 17 * 230) by (apply Rmult_le_compat; try lra; [apply Rabs_pos|apply Rabs_le; lra]).
  apply Rabs_le_inv in E1. assert (A2 : u * Rabs (s / 125) <= 12 / 10 ^ 17 * (185 / 100)) by (apply Rmult_le_compat; try lra; [apply Rabs_pos|apply Rabs_le; lra]).
  apply Rabs_le_inv in E2. apply Rabs_le. lra.
Qed.
Definition sq (x : R) : R := rnd64 (rnd64 (rnd64 (x * x) * x) * x).
Lemma abs_mul_le a b A B : Rabs a <= A -> Rabs b <= B -> Rabs (a * b) <= A * B.
Proof. intros. rewrite Rabs_mult. apply Rmult_le_compat; try apply Rabs_pos; lra. Qed.
Lemma abs_near a b A e : Rabs (a - b) <= e -> Rabs b <= A -> Rabs a <= A + e.
Proof. intros H1 H2. apply Rabs_le_inv in H1, H2. apply Rabs_le. lra. Qed.
Lemma sq_err x y : Rabs y <= 184 / 100 -> Rabs (x - y) <= 45 / 10 ^ 17 ->
  Rabs (sq x - y ^ 4) <= 16 / 10 ^ 15 /\ Rabs (x * x) <= 4 /\ Rabs (rnd64 (x * x) * x) <= 8 /\ Rabs (rnd64 (rnd64 (x * x) * x) * x) <= 1149 / 100.
Proof.
  intros Hy Hx. pose proof (abs_near _ _ _ _ Hx Hy) as Hx2. assert (Hx3 : Rabs x <= 1841 / 1000) by lra. assert (Hy3 : Rabs y <= 1841 / 1000) by lra.
  pose proof (mul_err x x y y _ _ _ _ Hx Hx Hx3 Hx3 Hy3) as S1. set (s := rnd64 (x * x)) in *.
  assert (Y2 : Rabs (y * y) <= 33856 / 10000). { eapply Rle_trans; [exact (abs_mul_le _ _ _ _ Hy Hy)|]. lra. }
  assert (S1' : Rabs (s - y * y) <= 21 / 10 ^ 16) by lra. pose proof (abs_near _ _ _ _ S1' Y2) as S2. assert (S3 : Rabs s <= 3386 / 1000) by lra.
  pose proof (mul_err s x (y * y) y _ _ _ _ S1' Hx S3 Hx3 Hy3) as C1. set (c := rnd64 (s * x)) in *.
  assert (Y3 : Rabs (y * y * y) <= 622951 / 100000). { eapply Rle_trans; [exact (abs_mul_le _ _ _ _ Y2 Hy)|]. lra. }
  assert (C1' : Rabs (c - y * y * y) <= 62 / 10 ^ 16) by lra. pose proof (abs_near _ _ _ _ C1' Y3) as C2. assert (C3 : Rabs c <= 623 / 100) by lra.
  pose proof (mul_err c x (y * y * y) y _ _ _ _ C1' Hx C3 Hx3 Hy3) as F1. unfold sq. fold s. fold c.
  split; [|split; [|split]].
  - replace (y ^ 4) with (y * y * y * y) by ring. lra.
  - eapply Rle_trans; [exact (abs_mul_le _ _ _ _ Hx3 Hx3)|]. lra.
  - eapply Rle_trans; [exact (abs_mul_le _ _ _ _ S3 Hx3)|]. lra.
  - eapply Rle_trans; [exact (abs_mul_le _ _ _ _ C3 Hx3)|]. lra.
Qed.
Lemma warm_val lib t : kelvin t -> is_double (tau (N := B64N lib) t) /\ to_R (tau (N := B64N lib) t) = sq (rnd64 (rnd64 (to_R t - 170) / 125)) /\
  Rabs (to_R (tau (N := B64N lib) t) - ((to_R t - 170) / 125) ^ 4) <= 16 / 10 ^ 15.
Proof.
  intros K. destruct (warm_ratio lib t K) as (x & Ex & Dx & Vx & By & Ry). unfold tau. rewrite Ex. cbn [npow].
  change (nmul (B64N lib)) with (SFmul 53 1024). unfold n1. change (nlit (B64N lib)) with b64_ratio.
  destruct (sq_err (to_R x) _ By Ry) as (E & M1 & M2 & M3).
  destruct (v_mul x x Dx Dx) as [D1 E1]; [apply small300; lra|].
  destruct (v_mul _ x D1 Dx) as [D2 E2]; [rewrite E1; apply small300; lra|]. rewrite E1 in E2.
  destruct (v_mul _ x D2 Dx) as [D3 E3]; [rewrite E2; apply small300; lra|]. rewrite E2 in E3. fold (sq (to_R x)) in E3.
  destruct one_double as [O1 O2].
  destruct (v_mul (b64_ratio 1 1) _ O1 D3) as [D4 E4].
  { rewrite O2, Rmult_1_l, E3. apply small300. assert (Q := rnd_big (rnd64 (rnd64 (to_R x * to_R x) * to_R x) * to_R x) 12 ltac:(lia) ltac:(lra)). unfold sq. lra. }
  rewrite O2, Rmult_1_l, E3 in E4. unfold sq in E4 at 1. rewrite rnd_rnd in E4. fold (sq (to_R x)) in E4.
  split; [exact D4|]. rewrite E4, <- Vx. split; [reflexivity|exact E].
Qed.
Lemma warm_ok lib t : kelvin t -> is_double (tau (N := B64N lib) t) /\ Rabs (to_R (tau (N := B64N lib) t) - ((to_R t - 170) / 125) ^ 4) <= 16 / 10 ^ 15 /\
  0 <= to_R (tau (N := B64N lib) t) <= 115 / 10.
Proof.
  intros K. destruct (warm_val lib t K) as (D & V & E). split; [exact D|]. split; [exact E|]. split.
  - rewrite V. unfold sq. set (x := rnd64 (rnd64 (to_R t - 170) / 125)). apply rnd_nonneg.
    assert (S : 0 <= rnd64 (x * x)) by (apply rnd_nonneg; nra).
    destruct (Rle_dec 0 x) as [P|P].
    + apply Rmult_le_pos; auto. apply rnd_nonneg. now apply Rmult_le_pos.
    + assert (rnd64 (rnd64 (x * x) * x) <= 0) by (rewrite <- rnd_0; apply rnd_le; nra). nra.
  - apply Rabs_le_inv in E. destruct K as [_ K]. set (y := (to_R t - 170) / 125) in *.
    assert (Y : Rabs y <= 184 / 100) by (unfold y; apply Rabs_le; lra).
    assert (Y2 : Rabs (y * y) <= 33856 / 10000). { eapply Rle_trans; [apply abs_mul_le; eassumption|]. lra. }
    assert (Y4 := abs_mul_le _ _ _ _ Y2 Y2). replace (y * y * (y * y)) with (y ^ 4) in Y4 by ring. apply Rabs_le_inv in Y4. lra.
Qed.
Lemma warm_mono lib t t' : kelvin t -> kelvin t' -> 170 <= to_R t <= to_R t' -> to_R (tau (N := B64N lib) t) <= to_R (tau (N := B64N lib) t').
Proof.
  intros K K' L. destruct (warm_val lib t K) as (_ & -> & _). destruct (warm_val lib t' K') as (_ & -> & _).
  set (x := rnd64 (rnd64 (to_R t - 170) / 125)). set (x' := rnd64 (rnd64 (to_R t' - 170) / 125)).
  assert (X : 0 <= x <= x').
  { assert (0 <= rnd64 (to_R t - 170) <= rnd64 (to_R t' - 170)) by (split; [apply rnd_nonneg; lra|apply rnd_le; lra]). split; [apply rnd_nonneg; lra|apply rnd_le; lra]. }
  assert (M : forall a a', 0 <= a <= a' -> 0 <= rnd64 (a * x) <= rnd64 (a' * x')). { intros a a' A. split; [apply rnd_nonneg; apply Rmult_le_pos; lra|apply rnd_le; apply Rmult_le_compat; lra]. }
  unfold sq. apply M, M, M. exact X.
Qed.

(** ** One pixel *)
Lemma zone_tests64 lib z k : in_zone64 z k ->
  neqb (B64N lib) z n0 = (match k with Nadir => true | _ => false end) /\
  (nltb (B64N lib) n0 z && nltb (B64N lib) z (nZ 90))%bool = (match k with Slant _ => true | _ => false end).
Proof.
  change (neqb (B64N lib)) with SFeqb. change (nltb (B64N lib)) with SFltb. unfold n0, nZ. change (nlit (B64N lib)) with b64_ratio.
  destruct P_RayDoubles.zero_double as [Z1 Z2]. destruct (int_R 90) as [N1 N2]; [lia|].
  assert (K : is_double z -> SFeqb z (b64_ratio 0 1) = Req_bool (to_R z) 0 /\ SFltb (b64_ratio 0 1) z = Rlt_bool 0 (to_R z) /\ SFltb z (b64_ratio 90 1) = Rlt_bool (to_R z) 90).
  { intros D. rewrite !lt_R, N2, Z2 by auto. split; [|auto]. rewrite <- Z2. apply eqb_R; first [apply D|apply Z1]. }
  destruct k as [|r|]; cbn [in_zone64].
  - intros [D E]. destruct (K D) as (-> & -> & ->). rewrite E. split; [apply Req_bool_true; reflexivity|]. rewrite Rlt_bool_false by lra. reflexivity.
  - intros (D & E & H). destruct (K D) as (-> & -> & ->). split; [apply Req_bool_false; lra|]. rewrite !Rlt_bool_true by lra. reflexivity.
  - intros [->|[(s & ->)|(D & H)]]; [split; reflexivity|destruct s; split; reflexivity|]. destruct (K D) as (-> & -> & ->).
    split; [apply Req_bool_false; lra|]. destruct H; [rewrite (Rlt_bool_false 0) by lra; reflexivity|rewrite (Rlt_bool_false _ 90) by lra; apply andb_false_r].
Qed.
Lemma inc_ok lib t z : good_pow (1 / 10 ^ 15) (m_pow lib) -> kelvin t -> slant_angle z ->
  val_is (SFmul 53 1024 (tau (N := B64N lib) t) (delta (N := B64N lib) z)) (to_R (tau (N := B64N lib) t) * to_R (delta (N := B64N lib) z)) /\
  Rabs (to_R (SFmul 53 1024 (tau (N := B64N lib) t) (delta (N := B64N lib) z)) - slant_inc (to_R t) (to_R z)) <= 7 / 10 ^ 12 /\
  0 <= to_R (SFmul 53 1024 (tau (N := B64N lib) t) (delta (N := B64N lib) z)) <= 600.
Proof.
  intros G K S. destruct (warm_ok lib t K) as (D1 & E1 & R1). destruct (slant_ok lib z G S) as (D2 & E2 & R2).
  set (a := tau (N := B64N lib) t) in *. set (b := delta (N := B64N lib) z) in *.
  assert (P : 0 <= to_R a * to_R b <= 600). { split; [apply Rmult_le_pos; lra|]. apply Rle_trans with (115 / 10 * 51); [apply Rmult_le_compat; lra|lra]. }
  assert (V : val_is (SFmul 53 1024 a b) (to_R a * to_R b)). { apply v_mul; auto. apply small300, Rabs_le. lra. }
  split; [exact V|]. destruct V as [V1 V2]. rewrite V2. split.
  - assert (A : Rabs (to_R a) <= 115 / 10) by (apply Rabs_le; lra). assert (B : Rabs (to_R b) <= 52) by (apply Rabs_le; lra).
    assert (B' : Rabs (Rpower (72 / 10) (to_R z / 70) - 1) <= 52). { apply Rabs_le_inv in E2. apply Rabs_le. lra. }
    pose proof (mul_err _ _ _ _ _ _ _ _ E1 E2 A B B') as M. unfold slant_inc. eapply Rle_trans; [exact M|]. lra.
  - split; [apply rnd_nonneg; lra|]. assert (Q := rnd_big (to_R a * to_R b) 600 ltac:(lia)). assert (Rabs (to_R a * to_R b) <= 600) by (apply Rabs_le; lra). specialize (Q H). apply Rabs_le_inv in Q. lra.
Qed.
Lemma sum_ok t i : kelvin t -> is_double i -> Rabs (to_R i) <= 600 -> val_is (SFadd 53 1024 t i) (to_R t + to_R i) /\ Rabs (to_R (SFadd 53 1024 t i) - (to_R t + to_R i)) <= 13 / 10 ^ 14 /\
  (0 <= to_R i -> to_R t <= to_R (SFadd 53 1024 t i)) /\ (to_R i <= 0 -> to_R (SFadd 53 1024 t i) <= to_R t).
Proof.
  intros [D R] Di Hi. apply Rabs_le_inv in Hi. destruct (v_add t i D Di) as [V1 V2]; [apply small300, Rabs_le; lra|]. split; [split; assumption|]. rewrite V2.
  split; [|split].
  - eapply Rle_trans; [apply rnd_err|]. pose proof u_val. pose proof eta_20. assert (u * Rabs (to_R t + to_R i) <= 12 / 10 ^ 17 * 1000) by (apply Rmult_le_compat; try lra; [apply Rabs_pos|apply Rabs_le; lra]). lra.
  - intros P. apply rnd_ge; [apply D|apply D|lra].
  - intros P. apply rnd_le_dbl; [apply D|apply D|lra].
Qed.
Lemma pixel_64 lib t z k : good_pow (1 / 10 ^ 15) (m_pow lib) -> kelvin t -> in_zone64 z k -> corrected64 t k (dask_pixel (N := B64N lib) t z).
Proof.
  intros G K Z. destruct (zone_tests64 lib z k Z) as [E1 E2]. unfold dask_pixel. rewrite E1, E2. change (nadd (B64N lib)) with (SFadd 53 1024). change (nmul (B64N lib)) with (SFmul 53 1024).
  destruct k as [|r|]; unfold corrected64; cbn [corrected].
  - destruct (nadir_ok lib t G K) as (D & E & B & P1 & P2). destruct (sum_ok t _ K D ltac:(lra)) as ([V1 V2] & A & S1 & S2). split; [exact V1|]. split; [|split; auto].
    apply Rabs_le_inv in E, A. apply Rabs_le. lra.
  - destruct Z as (Dz & <- & Hz). destruct (inc_ok lib t z G K (conj Dz Hz)) as ([D _] & E & B). destruct (sum_ok t _ K D) as ([V1 V2] & A & S1 & S2); [apply Rabs_le; lra|].
    split; [exact V1|]. split; [apply Rabs_le_inv in E, A; apply Rabs_le; lra|]. apply S1. lra.
  - split; [apply K|]. split; [|reflexivity]. rewrite Rminus_diag_eq, Rabs_R0 by reflexivity. lra.
Qed.
Lemma pixel_order lib t z k t' z' k' : good_pow (1 / 10 ^ 15) (m_pow lib) -> kelvin t -> in_zone64 z k -> kelvin t' -> in_zone64 z' k' -> in_order (to_R t) k (to_R t') k' ->
  to_R (dask_pixel (N := B64N lib) t z) <= to_R (dask_pixel (N := B64N lib) t' z').
Proof.
  intros G K Z K' Z' O. destruct (zone_tests64 lib z k Z) as [E1 E2]. destruct (zone_tests64 lib z' k' Z') as [E1' E2']. unfold dask_pixel. rewrite E1, E2, E1', E2'.
  change (nadd (B64N lib)) with (SFadd 53 1024). change (nmul (B64N lib)) with (SFmul 53 1024).
  destruct k as [|r|], k' as [|r'|]; try contradiction; cbn [in_order] in O.
  - destruct (nadir_ok lib t G K) as (D & _ & B & _). destruct (nadir_ok lib t' G K') as (D' & _ & B' & _).
    destruct (sum_ok t _ K D ltac:(lra)) as ([_ V] & _). destruct (sum_ok t' _ K' D' ltac:(lra)) as ([_ V'] & _). rewrite V, V'. apply rnd_le.
    pose proof (nadir_mono lib t t' G K K' O). lra.
  - destruct Z as (Dz & <- & Hz). destruct Z' as (Dz' & <- & Hz'). destruct O as [Oz Ot].
    destruct (inc_ok lib t z G K (conj Dz Hz)) as ([D I] & _ & B). destruct (inc_ok lib t' z' G K' (conj Dz' Hz')) as ([D' I'] & _ & B').
    destruct (sum_ok t _ K D) as ([_ V] & _); [apply Rabs_le; lra|]. destruct (sum_ok t' _ K' D') as ([_ V'] & _); [apply Rabs_le; lra|]. rewrite V, V'. apply rnd_le.
    pose proof (slant_mono lib z z' G (conj Dz Hz) (conj Dz' Hz') Oz) as M1. destruct (warm_ok lib t K) as (_ & _ & W). destruct (slant_ok lib z G (conj Dz Hz)) as (_ & _ & W2).
    assert (M2 : to_R (tau (N := B64N lib) t) <= to_R (tau (N := B64N lib) t')).
    { destruct Ot as [Ot|Ot]; [|apply warm_mono; auto]. destruct (warm_val lib t K) as (_ & -> & _). destruct (warm_val lib t' K') as (_ & -> & _). rewrite Ot. lra. }
    assert (to_R (SFmul 53 1024 (tau (N := B64N lib) t) (delta (N := B64N lib) z)) <= to_R (SFmul 53 1024 (tau (N := B64N lib) t') (delta (N := B64N lib) z'))).
    { rewrite I, I'. apply rnd_le. apply Rmult_le_compat; lra. }
    lra.
Qed.

(** ** Images *)
Lemma finite_tests lib x : is_double x -> nisnan (B64N lib) x = false /\ nisinf (B64N lib) x = false.
Proof. intros [_ F]. destruct x; try discriminate; split; reflexivity. Qed.
Lemma step_64 lib t m z k zm : good_pow (1 / 10 ^ 15) (m_pow lib) -> kelvin t -> in_zone64 z k ->
  step2 (N := B64N lib) (step1 (N := B64N lib) (t, m) (z, zm)) (z, zm) = (if m || zm then (t, m) else (dask_pixel (N := B64N lib) t z, false))%bool.
Proof.
  intros G K H. destruct (zone_tests64 lib z k H) as [E1 E2]. unfold step2, step1, at_nadir, off_nadir, dask_pixel.
  cbn [fst snd]. rewrite E1, E2.
  destruct zm; [now rewrite orb_true_r|]. destruct m; cbn [negb andb orb].
  - destruct k; cbn [andb]; unfold masked_iadd; cbn [snd fst negb]; rewrite ?andb_false_r; reflexivity.
  - destruct k as [|r|]; cbn [andb].
    + unfold masked_iadd. cbn [snd fst]. destruct (nadir_ok lib t G K) as (D & _). destruct (finite_tests lib _ D) as [-> ->]. reflexivity.
    + destruct H as (Dz & <- & Hz). cbn [snd fst negb]. unfold masked_iadd. cbn [snd fst]. destruct (inc_ok lib t z G K (conj Dz Hz)) as ([D _] & _). destruct (finite_tests lib _ D) as [F1 F2].
      change (nmul (B64N lib)) with (SFmul 53 1024). rewrite F1, F2. reflexivity.
    + reflexivity.
Qed.
Lemma masked_image64 : forall lib h d z l zen, good_pow (1 / 10 ^ 15) (m_pow lib) ->
  nth_error h d = Some (MaskedA l) -> nth_error h z = Some zen -> is_dask (N := B64N lib) zen = false -> List.length (zen_pixels zen) = List.length l ->
  exists out, get_correction (N := B64N lib) h z d = ((h ++ [MaskedA out])%list, Ok (MaskedA out)) /\ List.length out = List.length l /\
    (forall i t m za zm k, nth_error l i = Some (t, m) -> nth_error (zen_pixels zen) i = Some (za, zm) -> kelvin t -> in_zone64 za k ->
       exists v, nth_error out i = Some (if m || zm then (t, m) else (v, false))%bool /\ corrected64 t k v) /\
    (forall i t za k v i' t' za' k' v', nth_error l i = Some (t, false) -> nth_error (zen_pixels zen) i = Some (za, false) -> kelvin t -> in_zone64 za k -> nth_error out i = Some (v, false) ->
       nth_error l i' = Some (t', false) -> nth_error (zen_pixels zen) i' = Some (za', false) -> kelvin t' -> in_zone64 za' k' -> nth_error out i' = Some (v', false) ->
       in_order (to_R t) k (to_R t') k' -> to_R v <= to_R v').
Proof.
  intros lib h d z l zen G Hd Hz Hnd Hlen. unfold get_correction. rewrite Hd, Hz. unfold viewzen_corr. rewrite Hnd.
  cbn [is_dask orb]. eexists. split; [reflexivity|]. split; [rewrite !zipw_length; auto; rewrite zipw_length; auto|].
  assert (P : forall i t m za zm k, nth_error l i = Some (t, m) -> nth_error (zen_pixels zen) i = Some (za, zm) -> kelvin t -> in_zone64 za k ->
    nth_error (zipw step2 (zipw step1 l (zen_pixels zen)) (zen_pixels zen)) i = Some (if m || zm then (t, m) else (dask_pixel (N := B64N lib) t za, false))%bool).
  { intros i t m za zm k Hi Hzi Kt Hk. rewrite (zipw_nth step2 _ _ i (step1 (N := B64N lib) (t, m) (za, zm)) (za, zm)); auto.
    - f_equal. eapply step_64; eauto.
    - now apply zipw_nth. }
  split.
  - intros i t m za zm k Hi Hzi Kt Hk. exists (dask_pixel (N := B64N lib) t za). split; [eapply P; eauto|now apply pixel_64].
  - intros i t za k v i' t' za' k' v' H1 H2 H3 H4 H5 H1' H2' H3' H4' H5' O.
    rewrite (P _ _ _ _ _ _ H1 H2 H3 H4) in H5. rewrite (P _ _ _ _ _ _ H1' H2' H3' H4') in H5'. cbn [orb] in H5, H5'.
    injection H5 as <-. injection H5' as <-. eapply pixel_order; eauto.
Qed.
Lemma dask_image64 : forall lib h d z (a zen : arr (B64N lib)), good_pow (1 / 10 ^ 15) (m_pow lib) ->
  nth_error h d = Some a -> nth_error h z = Some zen -> (is_dask a || is_dask zen)%bool = true -> List.length (values zen) = List.length (values a) ->
  exists out, get_correction (N := B64N lib) h z d = ((h ++ [a])%list, Ok (DaskA out)) /\ List.length out = List.length (values a) /\
    (forall i t za k, nth_error (values a) i = Some t -> nth_error (values zen) i = Some za -> kelvin t -> in_zone64 za k -> exists v, nth_error out i = Some v /\ corrected64 t k v) /\
    (forall i t za k v i' t' za' k' v', nth_error (values a) i = Some t -> nth_error (values zen) i = Some za -> kelvin t -> in_zone64 za k -> nth_error out i = Some v ->
       nth_error (values a) i' = Some t' -> nth_error (values zen) i' = Some za' -> kelvin t' -> in_zone64 za' k' -> nth_error out i' = Some v' ->
       in_order (to_R t) k (to_R t') k' -> to_R v <= to_R v').
Proof.
  intros lib h d z a zen G Hd Hz Hk Hlen. unfold get_correction. rewrite Hd, Hz. unfold viewzen_corr. rewrite Hk.
  eexists. split; [reflexivity|]. split; [now rewrite zipw_length|]. split.
  - intros i t za k Hi Hzi Kt Hzone. exists (dask_pixel (N := B64N lib) t za). split; [now apply zipw_nth|now apply pixel_64].
  - intros i t za k v i' t' za' k' v' H1 H2 H3 H4 H5 H1' H2' H3' H4' H5' O.
    rewrite (zipw_nth _ _ _ i t za) in H5 by auto. rewrite (zipw_nth _ _ _ i' t' za') in H5' by auto.
    injection H5 as <-. injection H5' as <-. eapply pixel_order; eauto.
Qed.

(** ** A library with such a pow *)
Definition pow_rounded (x y : b64) : b64 := of_R (Rpower (to_R x) (to_R y)).
Lemma Rpower_bounds x y : 1 <= x <= 100 -> -10 <= y <= 10 -> / 10 ^ 20 <= Rpower x y <= 10 ^ 20.
Proof.
  intros Hx Hy. assert (L : 0 <= ln x <= ln 100). { split; [rewrite <- ln_1|]; (destruct (Req_dec x 1) as [->|]; [try lra; left; apply ln_increasing; lra|]); [left; apply ln_increasing; lra|]. destruct (Req_dec x 100) as [->|]; [lra|left; apply ln_increasing; lra]. }
  assert (E : 10 * ln 100 = ln (10 ^ 20)). { replace (10 ^ 20) with (100 ^ 10) by lra. rewrite ln_pow by lra. cbn [INR]. lra. }
  assert (U : - ln (10 ^ 20) <= y * ln x <= ln (10 ^ 20)) by nra.
  unfold Rpower. split.
  - rewrite <- (exp_ln (/ 10 ^ 20)) by (apply Rinv_0_lt_compat, pow_lt; lra). rewrite ln_Rinv by (apply pow_lt; lra). apply exp_mono_le. lra.
  - rewrite <- (exp_ln (10 ^ 20)) by (apply pow_lt; lra). apply exp_mono_le. lra.
Qed.
Lemma pow_rounded_good : good_pow (1 / 10 ^ 15) pow_rounded.
Proof.
  assert (V : forall x y, double_between 1 100 x -> double_between (-10) 10 y -> is_double (pow_rounded x y) /\ to_R (pow_rounded x y) = rnd64 (Rpower (to_R x) (to_R y))).
  { intros x y [_ Hx] [_ Hy]. pose proof (Rpower_bounds _ _ Hx Hy) as B. assert (P : 0 < / 10 ^ 20) by (apply Rinv_0_lt_compat, pow_lt; lra).
    destruct (of_R_fin (Rpower (to_R x) (to_R y))) as [E F]. { apply small_ok. rewrite Rabs_pos_eq by lra. eapply Rle_trans; [apply B|]. apply Rle_pow; [lra|lia]. }
    split; [split; [apply of_R_dbl|exact F]|exact E]. }
  split.
  - intros x y Hx Hy. destruct (V x y Hx Hy) as [D E]. split; [exact D|]. rewrite E. destruct Hx as [_ Hx], Hy as [_ Hy]. pose proof (Rpower_bounds _ _ Hx Hy) as B. set (p := Rpower _ _) in *.
    assert (P : 0 < / 10 ^ 20) by (apply Rinv_0_lt_compat, pow_lt; lra). eapply Rle_trans; [apply rnd_err|]. rewrite Rabs_pos_eq by lra.
    pose proof u_val as U. destruct eta_tiny as [T0 T]. assert (T2 : / 10 ^ 300 <= / 10 ^ 16 * / 10 ^ 20). { rewrite <- Rinv_mult. apply Rinv_le; [apply Rmult_lt_0_compat; apply pow_lt; lra|]. rewrite <- pow_add. apply Rle_pow; [lra|lia]. }
    assert (/ 10 ^ 16 * / 10 ^ 20 <= / 10 ^ 16 * p) by (apply Rmult_le_compat_l; lra). assert (u * p <= 12 / 10 ^ 17 * p) by (apply Rmult_le_compat_r; lra). lra.
  - intros x y y' Hx Hy Hy' L. destruct (V x y Hx Hy) as [_ ->]. destruct (V x y' Hx Hy') as [_ ->]. apply rnd_le. unfold Rpower. apply exp_mono_le.
    apply Rmult_le_compat_r; [|exact L]. destruct Hx as [_ Hx]. rewrite <- ln_1. destruct (Req_dec (to_R x) 1) as [->|]; [lra|left; apply ln_increasing; lra].
  - intros x y Hx Dy E. destruct (V x y Hx) as [_ ->]; [split; [exact Dy|rewrite E; lra]|]. rewrite E, Rpower_O by (destruct Hx; lra). apply rnd_1.
Qed.
Definition pow_lib : libm := {| m_exp := exp_rounded; m_log := log_rounded; m_cos := fun x => x; m_acos := fun x => x; m_pow := pow_rounded |}.
Lemma zones_cover64 z : encodable z -> exists k, in_zone64 z k.
Proof.
  intros V. destruct (is_finite_SF z) eqn:F.
  - assert (D : is_double z) by (split; assumption). destruct (Req_dec (to_R z) 0) as [E|E]; [exists Nadir; split; assumption|].
    destruct (Rlt_dec 0 (to_R z)) as [P|P]; [destruct (Rlt_dec (to_R z) 90) as [Q|Q]|].
    + exists (Slant (to_R z)). split; [exact D|]. split; [reflexivity|lra].
    + exists Outside. right; right. split; [exact D|lra].
    + exists Outside. right; right. split; [exact D|lra].
  - exists Outside. destruct z as [s|s| |s m e]; try discriminate; [right; left; exists s; reflexivity|left; reflexivity].
Qed.
(** temperatures and angles of the example *)
Definition temps64 (lib : libm) : list (B64N lib) := [b64_ratio 300 1; b64_ratio 300 1; b64_ratio 250 1; b64_ratio 200 1; b64_ratio 280 1].
Definition angles64 (lib : libm) : list (B64N lib) := [b64_ratio 35 1; b64_ratio 60 1; b64_ratio 0 1; b64_ratio 0 1; S754_nan].
