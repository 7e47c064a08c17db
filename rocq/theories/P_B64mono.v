(** Rounded arithmetic on non-negative doubles (including infinity) never
    reverses an order. *)
From Coq Require Import ZArith Reals Lra Lia List Bool SpecFloat.
From Flocq Require Import Core BinarySingleNaN.
From Verif Require Import Base NumSig B64 P_B64 P_B64ops.
Import ListNotations.
Local Open Scope R_scope.

(** a double with a plus sign: +0, positive or +infinity *)
Definition nn (x : b64) : Prop :=
  SpecFloat.valid_binary 53 1024 x = true /\
  match x with S754_nan => False | S754_zero s | S754_infinity s | S754_finite s _ _ => s = false end.
(** its value, infinity standing for 2^1024 *)
Definition pv (x : b64) : R := match x with S754_infinity _ => bpow radix2 1024 | _ => to_R x end.
Definition ov (r : R) : R := Rmin r (bpow radix2 1024).

Lemma ov_le a b : a <= b -> ov a <= ov b.
Proof. intros H. unfold ov, Rmin. repeat destruct Rle_dec; lra. Qed.
Lemma fin_pv x : fin64 x = true -> pv x = to_R x.
Proof. now destruct x. Qed.
Lemma nn_sign x : nn x -> sign_SF x = false.
Proof. intros [_ H]. destruct x; cbn in *; auto; contradiction. Qed.
Lemma nn_range x : nn x -> 0 <= pv x <= bpow radix2 1024.
Proof.
  intros [V H]. destruct x as [s|s| |s m e]; cbn [pv] in *.
  - cbn [SF2R]. split; [lra|apply bpow_ge_0].
  - split; [apply bpow_ge_0|lra].
  - contradiction.
  - subst s. pose proof (fin_bound _ V eq_refl) as B. split; [|apply Rabs_def2 in B; lra].
    cbn [SF2R]. apply F2R_ge_0. cbn. lia.
Qed.
Lemma nn_fin_lt x : nn x -> (fin64 x = true <-> pv x < bpow radix2 1024).
Proof.
  intros [V H]. split.
  - intros F. rewrite fin_pv by auto. pose proof (fin_bound _ V F) as B. apply Rabs_def2 in B. lra.
  - destruct x; cbn [pv is_finite_SF] in *; auto; try lra; try contradiction.
Qed.
Lemma nn_pos_zero x : nn x -> pv x = 0 -> x = S754_zero false.
Proof.
  intros [V H] E. destruct x as [s|s| |s m e]; cbn [pv] in *; [now subst| |contradiction|].
  - pose proof (bpow_gt_0 radix2 1024). lra.
  - subst s. exfalso. pose proof (F2R_gt_0 radix2 (Float radix2 (Z.pos m) e) eq_refl). cbn in E. lra.
Qed.
Lemma nn_of_fin x : dbl x -> fin64 x = true -> sign_SF x = false -> nn x.
Proof. intros V F S. split; auto. destruct x; cbn in *; auto; discriminate. Qed.

Lemma sign_B2SF (z : binary_float 53 1024) : is_finite z = true -> sign_SF (B2SF z) = Bsign z.
Proof. destruct z; intros H; try reflexivity. Qed.
Lemma sign_match x : fin64 x = true -> sign_SF x = false ->
  match x with S754_nan => False | S754_zero s | S754_infinity s | S754_finite s _ _ => s = false end.
Proof. destruct x; intros H S; auto; discriminate. Qed.

(** comparison *)
Lemma leb_pv x y : nn x -> nn y -> SFleb x y = Rle_bool (pv x) (pv y).
Proof.
  intros Nx Ny. pose proof (nn_range _ Nx) as Rx. pose proof (nn_range _ Ny) as Ry.
  destruct (fin64 x) eqn:Fx; [destruct (fin64 y) eqn:Fy|].
  - rewrite !fin_pv by auto. apply leb_R; auto; [apply Nx|apply Ny].
  - assert (y = S754_infinity false) as -> by (destruct Ny as [_ Ny]; destruct y; try discriminate; [now subst|contradiction]).
    rewrite Rle_bool_true by apply Rx. destruct Nx as [_ Nx]; destruct x; try discriminate; subst; auto.
  - assert (x = S754_infinity false) as -> by (destruct Nx as [_ Nx]; destruct x; try discriminate; [now subst|contradiction]).
    destruct (fin64 y) eqn:Fy.
    + rewrite Rle_bool_false by (apply (nn_fin_lt _ Ny); auto). destruct Ny as [_ Ny]; destruct y; try discriminate; subst; auto.
    + assert (y = S754_infinity false) as -> by (destruct Ny as [_ Ny]; destruct y; try discriminate; [now subst|contradiction]).
      rewrite Rle_bool_true by (cbn [pv]; lra). reflexivity.
Qed.
Definition le64 (x y : b64) : Prop := SFleb x y = true.
Lemma le_pv x y : nn x -> nn y -> (le64 x y <-> pv x <= pv y).
Proof. intros Nx Ny. unfold le64. rewrite leb_pv by auto. case Rle_bool_spec; intuition; try lra; discriminate. Qed.
Lemma le_nn x y : nn x -> dbl y -> le64 x y -> nn y \/ pv x = 0.
Proof.
  intros Nx Vy L. destruct (Req_dec (pv x) 0) as [E|E]; [auto|left]. split; auto.
  destruct Nx as [Vx Hx]; unfold le64, SFleb in L; destruct x as [s|s| |s m e]; try contradiction; subst s;
    destruct y as [s'|s'| |s' m' e']; try discriminate; auto; cbn in L; destruct s'; auto; discriminate.
Qed.

(** products *)
Lemma mul_nn a x : nn a -> nn x -> fin64 a = true -> fin64 x = true ->
  nn (SFmul 53 1024 a x) /\ pv (SFmul 53 1024 a x) = ov (rnd64 (to_R a * to_R x)).
Proof.
  intros Na Nx Fa Fx. destruct Na as [Va Sa]; destruct Nx as [Vx Sx].
  pose proof (Bmult_correct 53 1024 prec64_pos prec64_emax mode_NE (SF2B a Va) (SF2B x Vx)) as C.
  rewrite !B2R_SF2B in C. change (round_mode mode_NE) with ZnearestE in C.
  assert (0 <= rnd64 (to_R a * to_R x)) as P.
  { apply rnd_nonneg. pose proof (nn_range a (conj Va Sa)) as A. pose proof (nn_range x (conj Vx Sx)) as X. rewrite fin_pv in A, X by auto. nra. }
  pose proof (nn_sign a (conj Va Sa)) as Ga. pose proof (nn_sign x (conj Vx Sx)) as Gx.
  revert C. case Rlt_bool_spec; intros L C.
  - destruct C as (C1 & C2 & C3). rewrite !is_finite_SF2B, Fa, Fx in C2. cbn [andb] in C2.
    assert (NN : is_nan (Bmult mode_NE (SF2B a Va) (SF2B x Vx)) = false) by (now destruct (Bmult mode_NE (SF2B a Va) (SF2B x Vx))).
    specialize (C3 NN). rewrite !Bsign_SF2B, Ga, Gx in C3. cbn in C3.
    assert (E : SFmul 53 1024 a x = B2SF (Bmult mode_NE (SF2B a Va) (SF2B x Vx))) by (rewrite <- SFmul_B, !B2SF_SF2B; auto).
    rewrite E. split.
    + apply nn_of_fin; [apply valid_binary_B2SF|now rewrite fin_B2SF|].
      rewrite sign_B2SF by assumption; assumption.
    + rewrite fin_pv by now rewrite fin_B2SF. rewrite B2R_to_R, C1. unfold ov. rewrite Rmin_left; auto.
      rewrite Rabs_pos_eq in L by auto. lra.
  - rewrite !Bsign_SF2B, Ga, Gx, <- SFmul_B, !B2SF_SF2B in C. rewrite C. cbn [xorb binary_overflow overflow_to_inf pv]. split; [split; reflexivity|].
    unfold ov. rewrite Rmin_right; auto. rewrite Rabs_pos_eq in L; auto.
Qed.
(** quotients *)
Lemma div_nn a x : nn a -> nn x -> fin64 a = true -> fin64 x = true -> 0 < to_R x ->
  nn (SFdiv 53 1024 a x) /\ pv (SFdiv 53 1024 a x) = ov (rnd64 (to_R a / to_R x)).
Proof.
  intros Na Nx Fa Fx Hx. destruct Na as [Va Sa]; destruct Nx as [Vx Sx].
  pose proof (Bdiv_correct 53 1024 prec64_pos prec64_emax mode_NE (SF2B a Va) (SF2B x Vx)) as C.
  rewrite !B2R_SF2B in C. change (round_mode mode_NE) with ZnearestE in C. specialize (C ltac:(lra)).
  assert (0 <= rnd64 (to_R a / to_R x)) as P.
  { apply rnd_nonneg. pose proof (nn_range a (conj Va Sa)) as A. rewrite fin_pv in A by auto.
    apply Rmult_le_pos; [lra|]. left. now apply Rinv_0_lt_compat. }
  pose proof (nn_sign a (conj Va Sa)) as Ga. pose proof (nn_sign x (conj Vx Sx)) as Gx.
  revert C. case Rlt_bool_spec; intros L C.
  - destruct C as (C1 & C2 & C3). rewrite !is_finite_SF2B, Fa in C2.
    assert (NN : is_nan (Bdiv mode_NE (SF2B a Va) (SF2B x Vx)) = false) by (now destruct (Bdiv mode_NE (SF2B a Va) (SF2B x Vx))).
    specialize (C3 NN). rewrite !Bsign_SF2B, Ga, Gx in C3. cbn in C3.
    assert (E : SFdiv 53 1024 a x = B2SF (Bdiv mode_NE (SF2B a Va) (SF2B x Vx))) by (rewrite <- SFdiv_B, !B2SF_SF2B; auto).
    rewrite E. split.
    + apply nn_of_fin; [apply valid_binary_B2SF|now rewrite fin_B2SF|].
      rewrite sign_B2SF by assumption; assumption.
    + rewrite fin_pv by now rewrite fin_B2SF. rewrite B2R_to_R, C1. unfold ov. rewrite Rmin_left; auto.
      rewrite Rabs_pos_eq in L by auto. lra.
  - rewrite !Bsign_SF2B, Ga, Gx, <- SFdiv_B, !B2SF_SF2B in C. rewrite C. cbn [xorb binary_overflow overflow_to_inf pv]. split; [split; reflexivity|].
    unfold ov. rewrite Rmin_right; auto. rewrite Rabs_pos_eq in L; auto.
Qed.
(** sums *)
Lemma add_nn a x : nn a -> nn x -> fin64 a = true -> fin64 x = true ->
  nn (SFadd 53 1024 a x) /\ pv (SFadd 53 1024 a x) = ov (rnd64 (to_R a + to_R x)).
Proof.
  intros Na Nx Fa Fx. destruct Na as [Va Sa]; destruct Nx as [Vx Sx].
  pose proof (Bplus_correct 53 1024 prec64_pos prec64_emax mode_NE (SF2B a Va) (SF2B x Vx)) as C.
  rewrite !is_finite_SF2B in C. specialize (C Fa Fx).
  rewrite !B2R_SF2B in C. change (round_mode mode_NE) with ZnearestE in C.
  assert (0 <= to_R a + to_R x) as P0.
  { pose proof (nn_range a (conj Va Sa)) as A. pose proof (nn_range x (conj Vx Sx)) as X. rewrite fin_pv in A, X by auto. lra. }
  assert (0 <= rnd64 (to_R a + to_R x)) as P by now apply rnd_nonneg.
  pose proof (nn_sign a (conj Va Sa)) as Ga. pose proof (nn_sign x (conj Vx Sx)) as Gx.
  revert C. case Rlt_bool_spec; intros L C.
  - destruct C as (C1 & C2 & C3). rewrite !Bsign_SF2B, Ga, Gx in C3.
    assert (S : Bsign (Bplus mode_NE (SF2B a Va) (SF2B x Vx)) = false).
    { rewrite C3. case Rcompare_spec; intros; auto. lra. }
    assert (E : SFadd 53 1024 a x = B2SF (Bplus mode_NE (SF2B a Va) (SF2B x Vx))) by (rewrite <- SFadd_B, !B2SF_SF2B; auto).
    rewrite E. split.
    + apply nn_of_fin; [apply valid_binary_B2SF|now rewrite fin_B2SF|].
      rewrite sign_B2SF by assumption; assumption.
    + rewrite fin_pv by now rewrite fin_B2SF. rewrite B2R_to_R, C1. unfold ov. rewrite Rmin_left; auto.
      rewrite Rabs_pos_eq in L by auto. lra.
  - rewrite !Bsign_SF2B, Ga, Gx, <- SFadd_B, !B2SF_SF2B in C. destruct C as [C _]. rewrite C. cbn [xorb binary_overflow overflow_to_inf pv]. split; [split; reflexivity|].
    unfold ov. rewrite Rmin_right; auto. rewrite Rabs_pos_eq in L; auto.
Qed.
(** differences that are not negative *)
Lemma sub_nn a x : nn a -> nn x -> fin64 a = true -> fin64 x = true -> to_R x <= to_R a ->
  nn (SFsub 53 1024 a x) /\ fin64 (SFsub 53 1024 a x) = true /\ to_R (SFsub 53 1024 a x) = rnd64 (to_R a - to_R x).
Proof.
  intros Na Nx Fa Fx Hle. destruct Na as [Va Sa]; destruct Nx as [Vx Sx].
  pose proof (nn_range a (conj Va Sa)) as A. pose proof (nn_range x (conj Vx Sx)) as X. rewrite fin_pv in A, X by auto.
  pose proof (fin_bound _ Va Fa) as Ba. rewrite Rabs_pos_eq in Ba by lra.
  assert (0 <= rnd64 (to_R a - to_R x)) as P by (apply rnd_nonneg; lra).
  assert (Rabs (rnd64 (to_R a - to_R x)) < bpow radix2 1024) as L.
  { rewrite Rabs_pos_eq by auto. eapply Rle_lt_trans; [|exact Ba]. apply rnd_le_dbl; auto. lra. }
  pose proof (Bminus_correct 53 1024 prec64_pos prec64_emax mode_NE (SF2B a Va) (SF2B x Vx)) as C.
  rewrite !is_finite_SF2B in C. specialize (C Fa Fx).
  rewrite !B2R_SF2B in C. change (round_mode mode_NE) with ZnearestE in C. rewrite Rlt_bool_true in C by auto.
  pose proof (nn_sign a (conj Va Sa)) as Ga. pose proof (nn_sign x (conj Vx Sx)) as Gx.
  destruct C as (C1 & C2 & C3). rewrite !Bsign_SF2B, Ga, Gx in C3.
  assert (S : Bsign (Bminus mode_NE (SF2B a Va) (SF2B x Vx)) = false).
  { rewrite C3. case Rcompare_spec; intros; auto. lra. }
  assert (E : SFsub 53 1024 a x = B2SF (Bminus mode_NE (SF2B a Va) (SF2B x Vx))) by (rewrite <- SFsub_B, !B2SF_SF2B; auto).
  rewrite E. repeat split.
  - apply valid_binary_B2SF.
  - apply sign_match; [now rewrite fin_B2SF|]. rewrite sign_B2SF by assumption; assumption.
  - now rewrite fin_B2SF.
  - now rewrite B2R_to_R, C1.
Qed.

(** ** Monotone operations *)
Lemma nn_cases x : nn x -> (fin64 x = true) \/ x = S754_infinity false.
Proof. intros [_ H]. destruct x; auto; try contradiction; subst; auto. Qed.
Lemma pos_finite x : nn x -> fin64 x = true -> 0 < to_R x -> exists m e, x = S754_finite false m e.
Proof. intros [_ H] F P. destruct x; try discriminate; subst; [cbn in P; lra|eauto]. Qed.
Lemma nn_inf : nn (S754_infinity false).
Proof. split; reflexivity. Qed.
Lemma nn_zero : nn (S754_zero false).
Proof. split; reflexivity. Qed.
Lemma le_inf x : nn x -> le64 x (S754_infinity false).
Proof. intros N. apply le_pv; auto using nn_inf. apply nn_range; auto. Qed.
Lemma le_zero x : nn x -> le64 (S754_zero false) x.
Proof. intros N. apply le_pv; auto using nn_zero. cbn [pv SF2R]. apply nn_range; auto. Qed.
Lemma le_refl x : nn x -> le64 x x.
Proof. intros N. apply le_pv; auto. lra. Qed.
Lemma le_trans x y z : nn x -> nn y -> nn z -> le64 x y -> le64 y z -> le64 x z.
Proof. intros Nx Ny Nz. rewrite !le_pv by auto. lra. Qed.
Lemma inf_le x : nn x -> le64 (S754_infinity false) x -> x = S754_infinity false.
Proof.
  intros N L. destruct (nn_cases _ N) as [F|E]; auto. apply le_pv in L; auto using nn_inf.
  apply nn_fin_lt in F; auto. cbn [pv] in L. lra.
Qed.
Lemma le_fin x y : nn x -> nn y -> le64 x y -> fin64 y = true -> fin64 x = true.
Proof. intros Nx Ny L F. apply nn_fin_lt; auto. apply nn_fin_lt in F; auto. apply le_pv in L; auto. lra. Qed.
Lemma to_R_le x y : nn x -> nn y -> fin64 x = true -> fin64 y = true -> (le64 x y <-> to_R x <= to_R y).
Proof. intros Nx Ny Fx Fy. rewrite le_pv by auto. rewrite !fin_pv by auto. tauto. Qed.
Lemma to_R_nn x : nn x -> fin64 x = true -> 0 <= to_R x.
Proof. intros N F. rewrite <- fin_pv by auto. apply nn_range; auto. Qed.

Lemma mul_mono_fin a x y : nn a -> nn x -> nn y -> fin64 a = true -> fin64 x = true -> fin64 y = true -> le64 x y ->
  nn (SFmul 53 1024 a x) /\ nn (SFmul 53 1024 a y) /\ le64 (SFmul 53 1024 a x) (SFmul 53 1024 a y).
Proof.
  intros Na Nx Ny Fa Fx Fy L. destruct (mul_nn a x) as [N1 E1]; auto. destruct (mul_nn a y) as [N2 E2]; auto.
  split; [auto|]. split; [auto|]. apply le_pv; auto. rewrite E1, E2. apply ov_le, rnd_le.
  apply to_R_le in L; auto. apply Rmult_le_compat_l; auto. apply to_R_nn; auto.
Qed.
Lemma mul_mono a x y : nn a -> nn x -> nn y -> fin64 a = true -> 0 < to_R a -> le64 x y ->
  nn (SFmul 53 1024 a x) /\ nn (SFmul 53 1024 a y) /\ le64 (SFmul 53 1024 a x) (SFmul 53 1024 a y).
Proof.
  intros Na Nx Ny Fa Pa L. destruct (pos_finite a) as (m & e & ->); auto.
  destruct (nn_cases y Ny) as [Fy| ->].
  - apply mul_mono_fin; auto. eapply le_fin; eauto.
  - change (SFmul 53 1024 (S754_finite false m e) (S754_infinity false)) with (S754_infinity false).
    destruct (nn_cases x Nx) as [Fx| ->].
    + destruct (mul_nn (S754_finite false m e) x) as [N1 _]; auto. auto using nn_inf, le_inf.
    + auto using nn_inf, le_inf.
Qed.
Lemma div_anti a x y : nn a -> nn x -> nn y -> fin64 a = true -> 0 < to_R a -> le64 x y ->
  nn (SFdiv 53 1024 a x) /\ nn (SFdiv 53 1024 a y) /\ le64 (SFdiv 53 1024 a y) (SFdiv 53 1024 a x).
Proof.
  intros Na Nx Ny Fa Pa L. destruct (pos_finite a) as (m & e & E); auto.
  assert (Q0 : SFdiv 53 1024 a (S754_zero false) = S754_infinity false) by now subst.
  assert (Qi : SFdiv 53 1024 a (S754_infinity false) = S754_zero false) by now subst.
  assert (D : forall z, nn z -> nn (SFdiv 53 1024 a z)).
  { intros z Nz. destruct (nn_cases z Nz) as [Fz| ->]; [|rewrite Qi; auto using nn_zero].
    destruct (Req_dec (to_R z) 0) as [Z|Z].
    - assert (z = S754_zero false) as -> by (apply nn_pos_zero; auto; rewrite fin_pv; auto). rewrite Q0. auto using nn_inf.
    - apply div_nn; auto. pose proof (to_R_nn z Nz Fz). lra. }
  split; [auto|]. split; [auto|].
  destruct (nn_cases y Ny) as [Fy| ->]; [|rewrite Qi; auto using le_zero].
  assert (Fx : fin64 x = true) by (eapply le_fin; eauto).
  destruct (Req_dec (to_R x) 0) as [Z|Z].
  - assert (x = S754_zero false) as -> by (apply nn_pos_zero; auto; rewrite fin_pv; auto). rewrite Q0. auto using le_inf.
  - pose proof (to_R_nn x Nx Fx). apply to_R_le in L; auto.
    destruct (div_nn a x) as [N1 E1]; auto; [lra|]. destruct (div_nn a y) as [N2 E2]; auto; [lra|].
    apply le_pv; auto. rewrite E1, E2. apply ov_le, rnd_le. apply Rmult_le_compat_l; [lra|]. apply Rinv_le_contravar; lra.
Qed.
Lemma div_mono c x y : nn c -> nn x -> nn y -> fin64 c = true -> 0 < to_R c -> le64 x y ->
  nn (SFdiv 53 1024 x c) /\ nn (SFdiv 53 1024 y c) /\ le64 (SFdiv 53 1024 x c) (SFdiv 53 1024 y c).
Proof.
  intros Nc Nx Ny Fc Pc L. destruct (pos_finite c) as (m & e & E); auto.
  assert (Qi : SFdiv 53 1024 (S754_infinity false) c = S754_infinity false) by now subst.
  assert (D : forall z, nn z -> nn (SFdiv 53 1024 z c)).
  { intros z Nz. destruct (nn_cases z Nz) as [Fz| ->]; [|rewrite Qi; auto using nn_inf]. apply div_nn; auto. }
  split; [auto|]. split; [auto|].
  destruct (nn_cases y Ny) as [Fy| ->]; [|rewrite Qi; auto using le_inf].
  assert (Fx : fin64 x = true) by (eapply le_fin; eauto). apply to_R_le in L; auto.
  destruct (div_nn x c) as [N1 E1]; auto. destruct (div_nn y c) as [N2 E2]; auto.
  apply le_pv; auto. rewrite E1, E2. apply ov_le, rnd_le. apply Rmult_le_compat_r; [|auto]. left. now apply Rinv_0_lt_compat.
Qed.
Lemma add_mono x x' y y' : nn x -> nn x' -> nn y -> nn y' -> le64 x x' -> le64 y y' ->
  nn (SFadd 53 1024 x y) /\ nn (SFadd 53 1024 x' y') /\ le64 (SFadd 53 1024 x y) (SFadd 53 1024 x' y').
Proof.
  assert (D : forall a b, nn a -> nn b -> nn (SFadd 53 1024 a b)).
  { intros a b Na Nb. destruct (nn_cases a Na) as [Fa| ->]; destruct (nn_cases b Nb) as [Fb| ->].
    - apply add_nn; auto.
    - destruct a; try discriminate; exact nn_inf.
    - destruct b; try discriminate; exact nn_inf.
    - exact nn_inf. }
  intros Nx Nx' Ny Ny' L1 L2. split; [auto|]. split; [auto|].
  destruct (nn_cases x' Nx') as [Fx'| ->].
  2:{ replace (SFadd 53 1024 (S754_infinity false) y') with (S754_infinity false); [auto using le_inf|].
      destruct (nn_cases y' Ny') as [F| ->]; [destruct y'; try discriminate|]; reflexivity. }
  destruct (nn_cases y' Ny') as [Fy'| ->].
  2:{ replace (SFadd 53 1024 x' (S754_infinity false)) with (S754_infinity false); [auto using le_inf|].
      destruct x'; try discriminate; reflexivity. }
  assert (Fx : fin64 x = true) by (eapply le_fin with (y := x'); eauto).
  assert (Fy : fin64 y = true) by (eapply le_fin with (y := y'); eauto).
  apply to_R_le in L1; auto. apply to_R_le in L2; auto.
  destruct (add_nn x y) as [N1 E1]; auto. destruct (add_nn x' y') as [N2 E2]; auto.
  apply le_pv; auto. rewrite E1, E2. apply ov_le, rnd_le. lra.
Qed.
Lemma sub_mono c x y : nn c -> nn x -> nn y -> fin64 c = true -> le64 c x -> le64 x y ->
  nn (SFsub 53 1024 x c) /\ nn (SFsub 53 1024 y c) /\ le64 (SFsub 53 1024 x c) (SFsub 53 1024 y c).
Proof.
  intros Nc Nx Ny Fc L1 L2.
  assert (Qi : SFsub 53 1024 (S754_infinity false) c = S754_infinity false) by (destruct c; try discriminate; reflexivity).
  assert (D : forall z, nn z -> le64 c z -> nn (SFsub 53 1024 z c)).
  { intros z Nz L. destruct (nn_cases z Nz) as [Fz| ->]; [|rewrite Qi; auto using nn_inf]. apply sub_nn; auto. apply to_R_le; auto. }
  assert (L3 : le64 c y) by (eapply le_trans with (y := x); auto).
  split; [auto|]. split; [auto|].
  destruct (nn_cases y Ny) as [Fy| ->]; [|rewrite Qi; auto using le_inf].
  assert (Fx : fin64 x = true) by (eapply le_fin with (y := y); eauto).
  apply to_R_le in L1; auto. apply to_R_le in L2; auto.
  destruct (sub_nn x c) as (N1 & F1 & E1); auto. destruct (sub_nn y c) as (N2 & F2 & E2); auto; [lra|].
  apply to_R_le; auto. rewrite E1, E2. apply rnd_le. lra.
Qed.
