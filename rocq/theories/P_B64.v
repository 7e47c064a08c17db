(** Lemmas about binary64 and the temperature table (C13). *)
From Coq Require Import ZArith Reals Lra Lia List Bool String SpecFloat.
From Flocq Require Import Core BinarySingleNaN.
From Verif Require Import Base NumSig B64 M_RadTb P_RadTb2.
Import ListNotations.
Local Open Scope R_scope.

(** ** Multiplication rounds the exact product *)
Local Instance prec64_pos : Prec_gt_0 53 := eq_refl _.
Local Instance prec64_emax : Prec_lt_emax 53 1024 := eq_refl _.
Notation fexp64 := (SpecFloat.fexp 53 1024).
Local Instance fexp64_valid : Valid_exp fexp64 := fexp_correct 53 1024 prec64_pos.
Local Instance fexp64_mono : Monotone_exp fexp64 := fexp_monotone 53 1024.
Notation rnd64 := (round radix2 fexp64 ZnearestE).
Notation to_R := (SF2R radix2).

Lemma nearest_even_equiv s m l : SpecFloat.round_nearest_even m l = choice_mode mode_NE s m l.
Proof. case l; [reflexivity|intro c]. case c; [|reflexivity..]. simpl. unfold Round.cond_incr. now case Z.even. Qed.
Lemma round_aux_equiv sx mx ex lx : SpecFloat.binary_round_aux 53 1024 sx mx ex lx = binary_round_aux 53 1024 mode_NE sx mx ex lx.
Proof.
  unfold SpecFloat.binary_round_aux, binary_round_aux. set (mrse' := shr_fexp _ _ _ _ _). case mrse'; intros mrs' e'; simpl.
  now rewrite (nearest_even_equiv sx).
Qed.
Lemma SFmul_B (x y : binary_float 53 1024) : SFmul 53 1024 (B2SF x) (B2SF y) = B2SF (Bmult mode_NE x y).
Proof.
  destruct x as [sx|sx| |sx mx ex Bx], y as [sy|sy| |sy my ey By]; try reflexivity. simpl. rewrite B2SF_SF2B. apply round_aux_equiv.
Qed.

Lemma mul_R (x y : b64) : SpecFloat.valid_binary 53 1024 x = true -> SpecFloat.valid_binary 53 1024 y = true ->
  is_finite_SF x = true -> is_finite_SF y = true ->
  Rabs (rnd64 (to_R x * to_R y)) < bpow radix2 1024 ->
  to_R (SFmul 53 1024 x y) = rnd64 (to_R x * to_R y) /\ is_finite_SF (SFmul 53 1024 x y) = true.
Proof.
  intros Vx Vy Fx Fy H. rewrite <- (B2SF_SF2B _ _ x Vx), <- (B2SF_SF2B _ _ y Vy), SFmul_B.
  pose proof (Bmult_correct 53 1024 prec64_pos prec64_emax mode_NE (SF2B x Vx) (SF2B y Vy)) as C.
  rewrite !B2R_SF2B in C. rewrite Rlt_bool_true in C by exact H. destruct C as (C1 & C2 & _).
  rewrite !B2SF_SF2B. split.
  - change (rnd64 (to_R x * to_R y)) with (round radix2 fexp64 (round_mode mode_NE) (to_R x * to_R y)). rewrite <- C1. destruct (Bmult mode_NE (SF2B x Vx) (SF2B y Vy)); reflexivity.
  - rewrite !is_finite_SF2B, Fx, Fy in C2. destruct (Bmult mode_NE (SF2B x Vx) (SF2B y Vy)); auto.
Qed.

Lemma trunc_floor (x : b64) : is_finite_SF x = true -> 0 <= to_R x -> b64_trunc x = Some (Zfloor (to_R x)).
Proof.
  destruct x as [s|s| |s m e]; try discriminate; intros _ H.
  - cbn. now rewrite Zfloor_IZR.
  - cbn in H. unfold b64_trunc. f_equal. destruct s.
    + exfalso. apply (Rlt_not_le _ _ (F2R_lt_0 radix2 (Float radix2 (Z.neg m) e) eq_refl)). exact H.
    + cbn [signed SF2R cond_Zopp]. unfold F2R. cbn [Fnum Fexp]. destruct (Z.leb_spec 0 e).
      * rewrite <- IZR_Zpower by auto. rewrite <- mult_IZR. now rewrite Zfloor_IZR.
      * replace (bpow radix2 e) with (/ IZR (2 ^ (- e))).
        2:{ change 2%Z with (radix_val radix2). rewrite IZR_Zpower by lia. rewrite <- bpow_opp. f_equal. lia. }
        symmetry. rewrite <- (Zfloor_div (Z.pos m) (2 ^ (- e))); [reflexivity|]. apply Z.pow_nonzero; lia.
Qed.

Lemma half_ulp_bound x : 0 <= x <= 4096 -> Rabs (rnd64 x - x) <= bpow radix2 (-41).
Proof.
  intros Hx. eapply Rle_trans; [apply error_le_half_ulp; auto with typeclass_instances|].
  assert (U : ulp radix2 fexp64 x <= ulp radix2 fexp64 (bpow radix2 12)).
  { apply ulp_le; auto with typeclass_instances.
    rewrite !Rabs_pos_eq; try lra; [|apply bpow_ge_0]. replace (bpow radix2 12) with 4096 by (simpl; lra). lra. }
  rewrite ulp_bpow in U. change (fexp64 (12 + 1)) with (-40)%Z in U.
  replace (bpow radix2 (-41)) with (/ 2 * bpow radix2 (-40)) by (simpl; lra). lra.
Qed.
Lemma rnd_IZR z : (Z.abs z <= 2 ^ 53)%Z -> rnd64 (IZR z) = IZR z.
Proof.
  intros Hz. apply round_generic; auto with typeclass_instances.
  apply (generic_format_FLT radix2 (3 - 1024 - 53) 53).
  destruct (Z.eq_dec (Z.abs z) (2 ^ 53)) as [E|E].
  - exists (Float radix2 (Z.sgn z) 53); cbn.
    + unfold F2R. cbn [Fnum Fexp]. replace (bpow radix2 53) with (IZR (2 ^ 53)) by (simpl; lra). rewrite <- mult_IZR. f_equal. lia.
    + destruct z; cbn; lia.
    + lia.
  - exists (Float radix2 z 0); cbn.
    + unfold F2R. cbn. lra.
    + lia.
    + lia.
Qed.
Lemma rnd_le x y : x <= y -> rnd64 x <= rnd64 y.
Proof. apply round_le; auto with typeclass_instances. Qed.
