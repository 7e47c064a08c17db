(** A mathematical library that rounds correctly: what the properties in doubles
    ask of exp and log can be had. *)
From Coq Require Import ZArith Reals Lra Lia List Bool SpecFloat.
From Flocq Require Import Core BinarySingleNaN.
From Verif Require Import Base NumSig B64 S_B64 P_B64 P_B64ops P_B64mono P_B64grid.
Local Open Scope R_scope.

(** the double nearest to a real number *)
Definition of_R (r : R) : b64 :=
  B2SF (binary_normalize 53 1024 prec64_pos prec64_emax mode_NE (ZnearestE (scaled_mantissa radix2 fexp64 r)) (cexp radix2 fexp64 r) false).
Definition exp_rounded (x : b64) : b64 :=
  match x with
  | S754_nan => S754_nan | S754_infinity true => S754_zero false | S754_infinity false => S754_infinity false
  | _ => of_R (exp (to_R x))
  end.
Definition log_rounded (x : b64) : b64 :=
  match x with
  | S754_nan => S754_nan | S754_infinity true => S754_nan | S754_infinity false => S754_infinity false
  | _ => if Rlt_bool 0 (to_R x) then of_R (ln (to_R x)) else S754_nan
  end.

Lemma of_R_dbl r : dbl (of_R r).
Proof. apply valid_binary_B2SF. Qed.
Lemma mantissa_R r : F2R (Float radix2 (ZnearestE (scaled_mantissa radix2 fexp64 r)) (cexp radix2 fexp64 r)) = rnd64 r.
Proof. reflexivity. Qed.
Lemma rnd_rnd r : rnd64 (rnd64 r) = rnd64 r.
Proof. apply round_generic; auto with typeclass_instances. apply generic_format_round; auto with typeclass_instances. Qed.
Lemma of_R_fin r : Rabs (rnd64 r) < bpow radix2 1024 -> to_R (of_R r) = rnd64 r /\ fin64 (of_R r) = true.
Proof.
  intros H. unfold of_R. pose proof (binary_normalize_correct 53 1024 prec64_pos prec64_emax mode_NE (ZnearestE (scaled_mantissa radix2 fexp64 r)) (cexp radix2 fexp64 r) false) as C.
  rewrite mantissa_R in C. cbv zeta in C. change (round_mode mode_NE) with ZnearestE in C. rewrite rnd_rnd in C. rewrite Rlt_bool_true in C by auto.
  destruct C as (C1 & C2 & _). rewrite B2R_to_R, fin_B2SF. auto.
Qed.
Lemma of_R_nn r : 0 <= r -> nn (of_R r) /\ pv (of_R r) = ov (rnd64 r).
Proof.
  intros P. pose proof (rnd_nonneg r P) as P'. unfold of_R.
  pose proof (binary_normalize_correct 53 1024 prec64_pos prec64_emax mode_NE (ZnearestE (scaled_mantissa radix2 fexp64 r)) (cexp radix2 fexp64 r) false) as C.
  rewrite mantissa_R in C. cbv zeta in C. change (round_mode mode_NE) with ZnearestE in C. rewrite rnd_rnd in C. revert C. case Rlt_bool_spec; intros L C.
  - destruct C as (C1 & C2 & C3). split.
    + apply nn_of_fin; [apply valid_binary_B2SF|now rewrite fin_B2SF|]. rewrite sign_B2SF by auto. rewrite C3. case Rcompare_spec; auto; lra.
    + rewrite fin_pv by now rewrite fin_B2SF. rewrite B2R_to_R, C1. unfold ov. rewrite Rmin_left; auto. rewrite Rabs_pos_eq in L by auto. lra.
  - rewrite C. rewrite Rlt_bool_false by auto. cbn [binary_overflow overflow_to_inf pv]. split; [split; reflexivity|].
    unfold ov. rewrite Rmin_right; auto. rewrite Rabs_pos_eq in L; auto.
Qed.
Lemma of_R_zero r : of_R r <> S754_zero true.
Proof.
  intros E. unfold of_R in E. pose proof (binary_normalize_correct 53 1024 prec64_pos prec64_emax mode_NE (ZnearestE (scaled_mantissa radix2 fexp64 r)) (cexp radix2 fexp64 r) false) as C.
  rewrite mantissa_R in C. cbv zeta in C. change (round_mode mode_NE) with ZnearestE in C. rewrite rnd_rnd in C. revert C. case Rlt_bool_spec; intros L C.
  - destruct C as (C1 & C2 & C3). rewrite <- B2R_to_R, E in C1. cbn in C1. rewrite <- C1 in C3. rewrite Rcompare_Eq in C3 by auto.
    rewrite <- sign_B2SF, E in C3 by auto. discriminate.
  - rewrite C in E. discriminate.
Qed.
Lemma pv_inj x y : nn x -> nn y -> pv x = pv y -> x = y.
Proof.
  intros Nx Ny E. destruct (nn_cases x Nx) as [Fx| ->]; destruct (nn_cases y Ny) as [Fy| ->]; auto.
  - rewrite !fin_pv in E by auto. destruct Nx as [Vx Sx], Ny as [Vy Sy].
    rewrite <- (B2SF_SF2B _ _ x Vx), <- (B2SF_SF2B _ _ y Vy). f_equal. apply B2R_Bsign_inj; rewrite ?is_finite_SF2B, ?B2R_SF2B, ?Bsign_SF2B; auto.
    rewrite (nn_sign x (conj Vx Sx)), (nn_sign y (conj Vy Sy)). reflexivity.
  - apply nn_fin_lt in Fx; auto. cbn [pv] in *. lra.
  - apply nn_fin_lt in Fy; auto. cbn [pv] in *. lra.
Qed.
Lemma exp_INR n : exp (INR n) = exp 1 ^ n.
Proof. induction n as [|n IH]; [exact exp_0|]. rewrite S_INR, exp_plus, IH. cbn [pow]. ring. Qed.
Lemma exp_600 x : x <= 600 -> exp x <= bpow radix2 1000.
Proof.
  intros H. apply Rle_trans with (exp (INR 600)).
  - replace (INR 600) with 600 by (rewrite INR_IZR_INZ; reflexivity). destruct H as [H|H]; [left; now apply exp_increasing|now rewrite H; right].
  - rewrite exp_INR. apply Rle_trans with (3 ^ 600).
    + apply pow_incr. split; [left; apply exp_pos|apply exp_le_3].
    + replace (bpow radix2 1000) with (IZR (2 ^ 1000)) by (rewrite <- (IZR_Zpower radix2) by lia; reflexivity).
      rewrite (pow_IZR 3 600). apply IZR_le. vm_compute. discriminate.
Qed.
Lemma exp_mono_le x y : x <= y -> exp x <= exp y.
Proof. intros [H|H]; [left; now apply exp_increasing|now rewrite H; right]. Qed.

Lemma exp_rounded_monotone : monotone_exp exp_rounded.
Proof.
  split.
  - intros x _. destruct x as [s|[]| |s m e]; try reflexivity; apply of_R_dbl.
  - apply pv_inj; [apply of_R_nn; left; apply exp_pos|split; reflexivity|].
    cbn [exp_rounded SF2R]. destruct (of_R_nn (exp 0)) as [_ ->]; [left; apply exp_pos|]. rewrite exp_0. change 1 with (IZR 1). rewrite rnd_IZR by (cbn; lia).
    unfold ov. rewrite Rmin_left; [|apply (bpow_le radix2 0 1024); lia].
    change (b64_ratio 1 1) with (S754_finite false 4503599627370496 (-52)). cbn [pv SF2R cond_Zopp]. unfold F2R. cbn [Fnum Fexp].
    change (IZR 4503599627370496) with (bpow radix2 52). rewrite <- bpow_plus. reflexivity.
  - assert (P : forall x, nn (of_R (exp x))) by (intros; apply of_R_nn; left; apply exp_pos).
    assert (K : forall x y, dbl x -> dbl y -> fin64 x = true -> fin64 y = true -> SFleb x y = true -> le_double (of_R (exp (to_R x))) (of_R (exp (to_R y)))).
    { intros x y Vx Vy Fx Fy L. rewrite leb_R in L by auto. apply le_pv; auto.
      destruct (of_R_nn (exp (to_R x))) as [_ ->]; [left; apply exp_pos|]. destruct (of_R_nn (exp (to_R y))) as [_ ->]; [left; apply exp_pos|].
      apply ov_le, rnd_le, exp_mono_le. revert L. case Rle_bool_spec; auto; discriminate. }
    intros x y Vx Vy L. destruct x as [s|[]| |s m e], y as [s'|[]| |s' m' e']; try discriminate; try (apply K; auto; fail);
      cbn [exp_rounded]; try (apply le_inf; auto using nn_inf, nn_zero; fail); try (apply le_zero; auto using nn_zero; fail).
    all: cbn in L; try discriminate; destruct s; discriminate.
Qed.
Lemma exp_rounded_accurate : accurate_exp (1 / 10 ^ 15) exp_rounded.
Proof.
  intros x [V F] H. assert (E : exp_rounded x = of_R (exp (to_R x))) by (destruct x as [s|[]| |s m e]; try discriminate; reflexivity). rewrite E.
  assert (L1 : 1 <= exp (to_R x)) by (rewrite <- exp_0; apply exp_mono_le; lra).
  assert (L2 : exp (to_R x) <= bpow radix2 1000) by (apply exp_600; lra).
  assert (B : Rabs (rnd64 (exp (to_R x))) < bpow radix2 1024).
  { apply bpow_small. rewrite Rabs_pos_eq; lra. }
  destruct (of_R_fin _ B) as [E1 E2]. split; [split; [apply of_R_dbl|auto]|]. rewrite E1.
  eapply Rle_trans; [apply rnd_rel|].
  - rewrite Rabs_pos_eq by lra. eapply Rle_trans; [apply (bpow_le radix2 (-1022) 0); lia|]. exact L1.
  - rewrite Rabs_pos_eq by lra. apply Rmult_le_compat_r; [lra|]. unfold u64. cbn. lra.
Qed.
Lemma log_rounded_monotone : monotone_log log_rounded.
Proof.
  assert (Z0 : of_R 0 = S754_zero false).
  { apply pv_inj; [apply of_R_nn; lra|exact nn_zero|]. destruct (of_R_nn 0) as [_ ->]; [lra|]. rewrite rnd_0. unfold ov. rewrite Rmin_left; [reflexivity|apply bpow_ge_0]. }
  assert (O : to_R (b64_ratio 1 1) = 1).
  { change (b64_ratio 1 1) with (S754_finite false 4503599627370496 (-52)). cbn [SF2R cond_Zopp]. unfold F2R. cbn [Fnum Fexp].
    change (IZR 4503599627370496) with (bpow radix2 52). rewrite <- bpow_plus. reflexivity. }
  split.
  - intros x _. destruct x as [s|[]| |s m e]; try reflexivity; cbn [log_rounded]; destruct Rlt_bool; try reflexivity; apply of_R_dbl.
  - change (log_rounded (b64_ratio 1 1)) with (if Rlt_bool 0 (to_R (b64_ratio 1 1)) then of_R (ln (to_R (b64_ratio 1 1))) else S754_nan).
    rewrite O, Rlt_bool_true, ln_1 by lra. exact Z0.
  - intros x. destruct x as [s|[]| |s m e]; try discriminate; cbn [log_rounded]; destruct Rlt_bool; try discriminate; apply of_R_zero.
  - assert (P : forall x, dbl x -> fin64 x = true -> SFleb (b64_ratio 1 1) x = true -> 1 <= to_R x /\ log_rounded x = of_R (ln (to_R x)) /\ nn (of_R (ln (to_R x))) /\ pv (of_R (ln (to_R x))) = ov (rnd64 (ln (to_R x)))).
    { intros x V F L. rewrite leb_R, O in L by (auto; reflexivity). assert (H : 1 <= to_R x) by (revert L; case Rle_bool_spec; auto; discriminate).
      assert (Q : 0 <= ln (to_R x)). { rewrite <- ln_1. destruct H as [H|H]; [left; apply ln_increasing; lra|rewrite H; right; reflexivity]. }
      split; [auto|]. split; [|apply of_R_nn; auto].
      destruct x as [s|[]| |s m e]; try discriminate; cbn [log_rounded]; rewrite Rlt_bool_true; auto; lra. }
    intros x y Vx Vy L1 L.
    assert (Nx : nn x). { destruct (le_nn (b64_ratio 1 1) x) as [H|H]; auto; [split; reflexivity|]. rewrite fin_pv, O in H by reflexivity. lra. }
    assert (Ny : nn y). { destruct (le_nn x y) as [H|H]; auto. apply (le_pv (b64_ratio 1 1) x) in L1; auto; [|split; reflexivity]. rewrite (fin_pv (b64_ratio 1 1)), O in L1 by reflexivity. lra. }
    assert (L2 : le_double (b64_ratio 1 1) y) by (eapply (le_trans _ x); auto; split; reflexivity).
    destruct (nn_cases y Ny) as [Fy| ->].
    + assert (Fx : fin64 x = true) by (eapply (le_fin x y); eauto). destruct (P x Vx Fx L1) as (A1 & -> & A3 & A4). destruct (P y Vy Fy L2) as (B1 & -> & B3 & B4).
      apply le_pv; auto. rewrite A4, B4. apply ov_le, rnd_le. apply (to_R_le x y) in L; auto. destruct L as [L|L]; [left; apply ln_increasing; lra|rewrite L; right; reflexivity].
    + change (log_rounded (S754_infinity false)) with (S754_infinity false). apply le_inf.
      destruct (nn_cases x Nx) as [Fx| ->]; [|exact nn_inf]. destruct (P x Vx Fx L1) as (A1 & -> & A3 & A4). exact A3.
Qed.
Lemma log_rounded_accurate : accurate_log (1 / 10 ^ 15) log_rounded.
Proof.
  intros x [V F] H. assert (E : log_rounded x = of_R (ln (to_R x))) by (destruct x as [s|[]| |s m e]; try discriminate; cbn [log_rounded]; rewrite Rlt_bool_true; auto; lra). rewrite E.
  assert (G : 1 / 20 <= ln (to_R x)).
  { replace (1 / 20) with (ln (exp (1 / 20))) by apply ln_exp. assert (Q : exp (1 / 20) <= 11 / 10).
    { pose proof (exp_ineq1_le (- (1 / 20))) as I. rewrite exp_Ropp in I. pose proof (exp_pos (1 / 20)).
      apply Rmult_le_compat_r with (r := exp (1 / 20)) in I; [|lra]. rewrite Rinv_l in I by lra. lra. }
    destruct (Rle_lt_or_eq_dec _ _ (Rle_trans _ _ _ Q H)) as [K|K]; [left; apply ln_increasing; auto; apply exp_pos|rewrite K; right; reflexivity]. }
  assert (U : ln (to_R x) <= bpow radix2 1000).
  { pose proof (fin_bound x V F) as B. rewrite Rabs_pos_eq in B by lra.
    apply Rle_trans with (ln (bpow radix2 1024)); [left; apply ln_increasing; lra|]. 
    replace (bpow radix2 1024) with (2 ^ 1024) by (rewrite <- (IZR_Zpower radix2) by lia; rewrite (pow_IZR 2 1024); reflexivity).
    rewrite ln_pow by lra. replace (INR 1024) with 1024 by (rewrite INR_IZR_INZ; reflexivity).
    assert (ln 2 <= 1). { replace 1 with (ln (exp 1)) by apply ln_exp. left. apply ln_increasing; [lra|]. pose proof (exp_ineq1 1). lra. }
    apply Rle_trans with (bpow radix2 10); [cbn; lra|apply bpow_le; lia]. }
  assert (B : Rabs (rnd64 (ln (to_R x))) < bpow radix2 1024) by (apply bpow_small; rewrite Rabs_pos_eq; lra).
  destruct (of_R_fin _ B) as [E1 E2]. split; [split; [apply of_R_dbl|auto]|]. rewrite E1.
  eapply Rle_trans; [apply rnd_rel|].
  - rewrite Rabs_pos_eq by lra. eapply Rle_trans; [apply (bpow_le radix2 (-1022) (-10)); lia|]. cbn. lra.
  - rewrite Rabs_pos_eq by lra. apply Rmult_le_compat_r; [lra|]. unfold u64. cbn. lra.
Qed.
Definition rounded_lib : libm := {| m_exp := exp_rounded; m_log := log_rounded; m_cos := fun x => x; m_acos := fun x => x; m_pow := fun x _ => x |}.

Lemma exp_rounded_accurate13 : accurate_exp (1 / 10 ^ 13) exp_rounded.
Proof. intros x Hx R1. destruct (exp_rounded_accurate x Hx R1) as [A B]. split; [exact A|]. eapply Rle_trans; [exact B|].
  apply Rmult_le_compat_r; [left; apply exp_pos|]. lra. Qed.
