(** The four operations and the comparisons of binary64, in terms of real
    numbers and rounding. *)
From Coq Require Import ZArith Reals Lra Lia List Bool SpecFloat.
From Flocq Require Import Core BinarySingleNaN Plus_error.
From Verif Require Import Base NumSig B64 P_B64.
Import ListNotations.
Local Open Scope R_scope.

#[export] Existing Instance prec64_pos.
#[export] Existing Instance prec64_emax.
#[export] Existing Instance fexp64_valid.
#[export] Existing Instance fexp64_mono.

Notation dbl := (fun x => SpecFloat.valid_binary 53 1024 x = true).
Notation fin64 := is_finite_SF.

Lemma normalize_equiv m e z : SpecFloat.binary_normalize 53 1024 m e z = B2SF (binary_normalize 53 1024 prec64_pos prec64_emax mode_NE m e z).
Proof.
  case m as [|p|p]; [reflexivity| |]; simpl; rewrite B2SF_SF2B;
    unfold SpecFloat.binary_round, binary_round, shl_align_fexp; set (mez := shl_align _ _ _); case mez as [mz ez]; apply round_aux_equiv.
Qed.
Lemma SFadd_B (x y : binary_float 53 1024) : SFadd 53 1024 (B2SF x) (B2SF y) = B2SF (Bplus mode_NE x y).
Proof.
  case x as [sx|sx| |sx mx ex Bx]; case y as [sy|sy| |sy my ey By]; [now (trivial || simpl; case Bool.eqb).. | ].
  apply normalize_equiv.
Qed.
Lemma SFsub_B (x y : binary_float 53 1024) : SFsub 53 1024 (B2SF x) (B2SF y) = B2SF (Bminus mode_NE x y).
Proof.
  case x as [sx|sx| |sx mx ex Bx]; case y as [sy|sy| |sy my ey By]; [now (trivial || simpl; case Bool.eqb).. | ].
  simpl. unfold Zminus. rewrite <- cond_Zopp_negb. apply normalize_equiv.
Qed.
Lemma SFdiv_B (x y : binary_float 53 1024) : SFdiv 53 1024 (B2SF x) (B2SF y) = B2SF (Bdiv mode_NE x y).
Proof.
  case x as [sx|sx| |sx mx ex Bx]; case y as [sy|sy| |sy my ey By]; [now (trivial || simpl; case Bool.eqb).. | ].
  simpl. rewrite B2SF_SF2B. set (melz := SFdiv_core_binary _ _ _ _ _ _). case melz as [[mz ez] lz]. apply round_aux_equiv.
Qed.

(** results are doubles *)
Lemma add_dbl x y : dbl x -> dbl y -> dbl (SFadd 53 1024 x y).
Proof. intros Vx Vy. rewrite <- (B2SF_SF2B _ _ x Vx), <- (B2SF_SF2B _ _ y Vy), SFadd_B. apply valid_binary_B2SF. Qed.
Lemma sub_dbl x y : dbl x -> dbl y -> dbl (SFsub 53 1024 x y).
Proof. intros Vx Vy. rewrite <- (B2SF_SF2B _ _ x Vx), <- (B2SF_SF2B _ _ y Vy), SFsub_B. apply valid_binary_B2SF. Qed.
Lemma mul_dbl x y : dbl x -> dbl y -> dbl (SFmul 53 1024 x y).
Proof. intros Vx Vy. rewrite <- (B2SF_SF2B _ _ x Vx), <- (B2SF_SF2B _ _ y Vy), SFmul_B. apply valid_binary_B2SF. Qed.
Lemma div_dbl x y : dbl x -> dbl y -> dbl (SFdiv 53 1024 x y).
Proof. intros Vx Vy. rewrite <- (B2SF_SF2B _ _ x Vx), <- (B2SF_SF2B _ _ y Vy), SFdiv_B. apply valid_binary_B2SF. Qed.

Lemma B2R_to_R (z : binary_float 53 1024) : to_R (B2SF z) = B2R z.
Proof. now destruct z. Qed.
Lemma fin_B2SF (z : binary_float 53 1024) : fin64 (B2SF z) = is_finite z.
Proof. now destruct z. Qed.

(** sums *)
Lemma add_R x y : dbl x -> dbl y -> fin64 x = true -> fin64 y = true -> Rabs (rnd64 (to_R x + to_R y)) < bpow radix2 1024 ->
  to_R (SFadd 53 1024 x y) = rnd64 (to_R x + to_R y) /\ fin64 (SFadd 53 1024 x y) = true.
Proof.
  intros Vx Vy Fx Fy H. rewrite <- (B2SF_SF2B _ _ x Vx), <- (B2SF_SF2B _ _ y Vy), SFadd_B, B2R_to_R, fin_B2SF.
  pose proof (Bplus_correct 53 1024 prec64_pos prec64_emax mode_NE (SF2B x Vx) (SF2B y Vy)) as C.
  rewrite !is_finite_SF2B, !B2R_SF2B in C. specialize (C Fx Fy). rewrite Rlt_bool_true in C by exact H.
  rewrite !B2SF_SF2B. destruct C as (C1 & C2 & _). split; [exact C1|exact C2].
Qed.
(** differences: rounded, or an infinity of the right sign *)
Lemma sub_R x y : dbl x -> dbl y -> fin64 x = true -> fin64 y = true -> Rabs (rnd64 (to_R x - to_R y)) < bpow radix2 1024 ->
  to_R (SFsub 53 1024 x y) = rnd64 (to_R x - to_R y) /\ fin64 (SFsub 53 1024 x y) = true.
Proof.
  intros Vx Vy Fx Fy H. rewrite <- (B2SF_SF2B _ _ x Vx), <- (B2SF_SF2B _ _ y Vy), SFsub_B, B2R_to_R, fin_B2SF.
  pose proof (Bminus_correct 53 1024 prec64_pos prec64_emax mode_NE (SF2B x Vx) (SF2B y Vy)) as C.
  rewrite !is_finite_SF2B, !B2R_SF2B in C. specialize (C Fx Fy). rewrite Rlt_bool_true in C by exact H.
  rewrite !B2SF_SF2B. destruct C as (C1 & C2 & _). split; [exact C1|exact C2].
Qed.
Lemma sign_pos (x : b64) : fin64 x = true -> 0 < to_R x -> sign_SF x = false.
Proof.
  destruct x as [s|s| |s m e]; try discriminate; cbn; [lra|]. intros _ H. destruct s; auto.
  exfalso. apply (Rlt_not_le _ _ (F2R_lt_0 radix2 (Float radix2 (Z.neg m) e) eq_refl)). cbn in H. lra.
Qed.
Lemma sign_neg (x : b64) : fin64 x = true -> to_R x < 0 -> sign_SF x = true.
Proof.
  destruct x as [s|s| |s m e]; try discriminate; cbn; [lra|]. intros _ H. destruct s; auto.
  exfalso. apply (Rlt_not_le _ _ (F2R_gt_0 radix2 (Float radix2 (Z.pos m) e) eq_refl)). cbn in H. lra.
Qed.
Lemma fin_bound (x : b64) : dbl x -> fin64 x = true -> Rabs (to_R x) < bpow radix2 1024.
Proof.
  intros V F. pose proof (abs_B2R_lt_emax 53 1024 (SF2B x V)) as H. now rewrite B2R_SF2B in H.
Qed.
Lemma sub_inf x y : dbl x -> dbl y -> fin64 x = true -> fin64 y = true -> bpow radix2 1024 <= Rabs (rnd64 (to_R x - to_R y)) ->
  SFsub 53 1024 x y = S754_infinity (sign_SF x) /\ sign_SF x = negb (sign_SF y).
Proof.
  intros Vx Vy Fx Fy H.
  pose proof (Bminus_correct 53 1024 prec64_pos prec64_emax mode_NE (SF2B x Vx) (SF2B y Vy)) as C.
  rewrite !is_finite_SF2B, !B2R_SF2B in C. specialize (C Fx Fy). rewrite Rlt_bool_false in C by exact H.
  rewrite !Bsign_SF2B in C. rewrite <- SFsub_B, !B2SF_SF2B in C. exact C.
Qed.

(** quotients *)
Lemma div_R x y : dbl x -> dbl y -> fin64 x = true -> to_R y <> 0 -> Rabs (rnd64 (to_R x / to_R y)) < bpow radix2 1024 ->
  to_R (SFdiv 53 1024 x y) = rnd64 (to_R x / to_R y) /\ fin64 (SFdiv 53 1024 x y) = true.
Proof.
  intros Vx Vy Fx Hy H. rewrite <- (B2SF_SF2B _ _ x Vx), <- (B2SF_SF2B _ _ y Vy), SFdiv_B, B2R_to_R, fin_B2SF.
  pose proof (Bdiv_correct 53 1024 prec64_pos prec64_emax mode_NE (SF2B x Vx) (SF2B y Vy)) as C.
  rewrite !B2R_SF2B in C. specialize (C Hy). rewrite Rlt_bool_true in C by exact H.
  rewrite !B2SF_SF2B. destruct C as (C1 & C2 & _). rewrite is_finite_SF2B in C2. split; [exact C1|congruence].
Qed.

(** comparisons *)
Lemma ltb_R x y : dbl x -> dbl y -> fin64 x = true -> fin64 y = true -> SFltb x y = Rlt_bool (to_R x) (to_R y).
Proof.
  intros Vx Vy Fx Fy. pose proof (Bltb_correct 53 1024 (SF2B x Vx) (SF2B y Vy)) as C.
  rewrite !is_finite_SF2B, !B2R_SF2B in C. unfold Bltb in C. rewrite !B2SF_SF2B in C. auto.
Qed.
Lemma leb_R x y : dbl x -> dbl y -> fin64 x = true -> fin64 y = true -> SFleb x y = Rle_bool (to_R x) (to_R y).
Proof.
  intros Vx Vy Fx Fy. pose proof (Bleb_correct 53 1024 (SF2B x Vx) (SF2B y Vy)) as C.
  rewrite !is_finite_SF2B, !B2R_SF2B in C. unfold Bleb in C. rewrite !B2SF_SF2B in C. auto.
Qed.
Lemma eqb_R x y : dbl x -> dbl y -> fin64 x = true -> fin64 y = true -> SFeqb x y = Req_bool (to_R x) (to_R y).
Proof.
  intros Vx Vy Fx Fy. pose proof (Beqb_correct 53 1024 (SF2B x Vx) (SF2B y Vy)) as C.
  rewrite !is_finite_SF2B, !B2R_SF2B in C. unfold Beqb in C. rewrite !B2SF_SF2B in C. auto.
Qed.

(** the format of a double *)
Lemma dbl_format x : dbl x -> fin64 x = true -> generic_format radix2 fexp64 (to_R x).
Proof.
  intros V F. pose proof (generic_format_B2R 53 1024 (SF2B x V)) as H. now rewrite B2R_SF2B in H.
Qed.
Lemma rnd_dbl x : dbl x -> fin64 x = true -> rnd64 (to_R x) = to_R x.
Proof. intros. apply round_generic; auto with typeclass_instances. apply dbl_format; auto. Qed.
Lemma rnd_ge x y : dbl x -> fin64 x = true -> to_R x <= y -> to_R x <= rnd64 y.
Proof. intros V F H. apply round_ge_generic; auto with typeclass_instances. apply dbl_format; auto. Qed.
Lemma rnd_le_dbl x y : dbl x -> fin64 x = true -> y <= to_R x -> rnd64 y <= to_R x.
Proof. intros V F H. apply round_le_generic; auto with typeclass_instances. apply dbl_format; auto. Qed.
Lemma rnd_0 : rnd64 0 = 0.
Proof. apply round_0; auto with typeclass_instances. Qed.
Lemma rnd_nonneg y : 0 <= y -> 0 <= rnd64 y.
Proof. intros H. rewrite <- rnd_0. apply round_le; auto with typeclass_instances. Qed.
Lemma rnd_abs_lt y b : generic_format radix2 fexp64 b -> Rabs y <= b -> b < bpow radix2 1024 -> Rabs (rnd64 y) < bpow radix2 1024.
Proof.
  intros G H B. eapply Rle_lt_trans; [|exact B]. apply abs_round_le_generic; auto with typeclass_instances.
Qed.

(** a difference of doubles is positive exactly when the first is larger, thanks
    to gradual underflow *)
Lemma sub_sign x y : dbl x -> dbl y -> fin64 x = true -> fin64 y = true ->
  SFltb (S754_zero false) (SFsub 53 1024 x y) = Rlt_bool (to_R y) (to_R x).
Proof.
  intros Vx Vy Fx Fy. destruct (Rlt_or_le (Rabs (rnd64 (to_R x - to_R y))) (bpow radix2 1024)) as [H|H].
  - destruct (sub_R x y Vx Vy Fx Fy H) as [E F]. rewrite ltb_R; auto; [|apply sub_dbl; auto]. rewrite E. change (to_R (S754_zero false)) with 0.
    destruct (Rlt_or_le (to_R y) (to_R x)) as [L|L].
    + rewrite !Rlt_bool_true; auto.
      assert (0 <= rnd64 (to_R x - to_R y)) by (apply rnd_nonneg; lra).
      destruct (Req_dec (rnd64 (to_R x - to_R y)) 0) as [Z|Z]; [|lra]. exfalso.
      revert Z. unfold Rminus. apply round_plus_neq_0; auto with typeclass_instances; try lra.
      * apply dbl_format; auto.
      * apply generic_format_opp. apply dbl_format; auto.
    + rewrite !Rlt_bool_false; auto. rewrite <- rnd_0. apply round_le; auto with typeclass_instances. lra.
  - destruct (sub_inf x y Vx Vy Fx Fy H) as [E S]. rewrite E.
    pose proof (fin_bound x Vx Fx) as Bx. pose proof (fin_bound y Vy Fy) as By.
    destruct (Rtotal_order (to_R x) 0) as [Lx|[Zx|Gx]].
    + rewrite (sign_neg x Fx Lx) in *. rewrite Rlt_bool_false; [reflexivity|].
      destruct (Rle_or_lt 0 (to_R y)); [lra|]. rewrite (sign_neg y Fy H0) in S. discriminate.
    + exfalso. rewrite Zx in H. apply (Rlt_not_le _ _ By). replace (Rabs (to_R y)) with (Rabs (rnd64 (0 - to_R y))); auto.
      unfold Rminus. rewrite Rplus_0_l. rewrite round_NE_opp, rnd_dbl, Rabs_Ropp; auto.
    + rewrite (sign_pos x Fx Gx) in *. rewrite Rlt_bool_true; [reflexivity|].
      destruct (Rle_or_lt (to_R y) 0); [lra|]. rewrite (sign_pos y Fy H0) in S. discriminate.
Qed.

(** literals are correctly rounded quotients *)
Lemma ratio_pos (s : bool) p q : let x := (if s then - IZR (Zpos p) else IZR (Zpos p)) / IZR (Zpos q) in
  Rabs (rnd64 x) < bpow radix2 1024 ->
  let z := SFdiv 53 1024 (S754_finite s p 0) (S754_finite false q 0) in
  dbl z /\ fin64 z = true /\ to_R z = rnd64 x.
Proof.
  intros x H z. pose proof (Bdiv_correct_aux 53 1024 prec64_pos prec64_emax mode_NE s p 0 false q 0) as C. cbv zeta in C.
  assert (Ez : z = let '(mz, ez, lz) := SFdiv_core_binary 53 1024 (Zpos p) 0 (Zpos q) 0 in
                   binary_round_aux 53 1024 mode_NE (xorb s false) mz ez lz).
  { unfold z, SFdiv. destruct (SFdiv_core_binary 53 1024 (Zpos p) 0 (Zpos q) 0) as [[mz ez] lz]. apply round_aux_equiv. }
  rewrite <- Ez in C. destruct C as [V C].
  assert (Ex : F2R (Float radix2 (cond_Zopp s (Zpos p)) 0) / F2R (Float radix2 (cond_Zopp false (Zpos q)) 0) = x).
  { unfold F2R, x. cbn [Fnum Fexp]. change (bpow radix2 0) with 1. rewrite !Rmult_1_r. destruct s; cbn [cond_Zopp]; [rewrite opp_IZR|]; reflexivity. }
  rewrite Ex in C. rewrite Rlt_bool_true in C by exact H. destruct C as (C1 & C2 & _). auto.
Qed.
Lemma ratio_R m d : Rabs (rnd64 (IZR m / IZR (Zpos d))) < bpow radix2 1024 ->
  dbl (b64_ratio m d) /\ fin64 (b64_ratio m d) = true /\ to_R (b64_ratio m d) = rnd64 (IZR m / IZR (Zpos d)).
Proof.
  destruct m as [|p|p]; intros H.
  - repeat split. cbn. unfold Rdiv. rewrite Rmult_0_l. now rewrite rnd_0.
  - exact (ratio_pos false p d H).
  - assert (E : IZR (Zneg p) = - IZR (Zpos p)) by (rewrite <- opp_IZR; reflexivity). rewrite E in H |- *. exact (ratio_pos true p d H).
Qed.
Lemma ratio_int z : (Z.abs z <= 2 ^ 53)%Z ->
  dbl (b64_ratio z 1) /\ fin64 (b64_ratio z 1) = true /\ to_R (b64_ratio z 1) = IZR z.
Proof.
  intros Hz. assert (E : rnd64 (IZR z / 1) = IZR z) by (unfold Rdiv; rewrite Rinv_1, Rmult_1_r; apply rnd_IZR; auto).
  destruct (ratio_R z 1) as (V & F & R).
  - rewrite E. rewrite <- abs_IZR. apply Rle_lt_trans with (IZR (2 ^ 53)); [apply IZR_le; auto|].
    change 2%Z with (radix_val radix2). rewrite IZR_Zpower by lia. apply bpow_lt. lia.
  - rewrite E in R. auto.
Qed.
