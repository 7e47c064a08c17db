(** How far band radiances in doubles are from the exact integral. *)
From Coq Require Import ZArith Reals Lra Lia List Bool String SpecFloat Sorting.Sorted.
From Flocq Require Import Core Relative BinarySingleNaN.
From Verif Require Import Base NumSig XR B64 M_Tables M_Utils M_Blackbody M_Rsr M_RadTb S_B64 S_Planck S_RadTb P_Blackbody2 P_B64 P_B642 P_B64ops P_B64mono P_B64planck P_B64band P_B64err.
Import ListNotations.
Local Open Scope R_scope.

(** ** Zero or near *)
Definition near0 (a b : Z) (q : R) (x : b64) (r : R) : Prop := (nn x /\ fin64 x = true /\ to_R x = 0 /\ r = 0) \/ near a b q x r.
Lemma near0_nn a b q x r : near0 a b q x r -> nn x /\ fin64 x = true.
Proof. intros [(A & B & _)|((A & B & _) & _)]; auto. Qed.
Lemma near0_weaken a b c d p q x r : near0 a b p x r -> (c <= a)%Z -> (b <= d)%Z -> p <= q -> near0 c d q x r.
Proof. intros [H|H] ? ? ?; [now left|right; eapply near_weaken; eauto]. Qed.
Lemma zero_of x r : nn x -> pv x = ov (rnd64 r) -> r = 0 -> nn x /\ fin64 x = true /\ to_R x = 0.
Proof.
  intros N E ->. rewrite rnd_0 in E. rewrite ov_small in E by apply bpow_gt_0.
  pose proof (nn_pos_zero x N E) as ->. auto.
Qed.
Lemma near0_mul a b c d p q x y r s : near0 a b p x r -> near0 c d q y s -> (-1022 <= a + c)%Z -> (-1022 <= b + d < 1024)%Z ->
  near0 (a + c) (b + d) (p * q * v) (SFmul 53 1024 x y) (r * s).
Proof.
  intros X Y A B. destruct (near0_nn _ _ _ _ _ X) as [Nx Fx]. destruct (near0_nn _ _ _ _ _ Y) as [Ny Fy]. destruct (mul_nn x y) as [N E]; auto.
  destruct X as [(_ & _ & X1 & X2)|X].
  - left. destruct (zero_of _ _ N E) as (H1 & H2 & H3); [rewrite X1; ring|]. repeat split; auto; try apply H1. rewrite X2. ring.
  - destruct Y as [(_ & _ & Y1 & Y2)|Y]; [|right; now apply near_mul].
    left. destruct (zero_of _ _ N E) as (H1 & H2 & H3); [rewrite Y1; ring|]. repeat split; auto; try apply H1. rewrite Y2. ring.
Qed.
Lemma near0_div a b c d p q x y r s : near0 a b p x r -> near c d q y s -> (-1022 <= a - d)%Z -> (-1022 <= b - c < 1024)%Z ->
  near0 (a - d) (b - c) (p * q * v) (SFdiv 53 1024 x y) (r / s).
Proof.
  intros [(Nx & Fx & X1 & X2)|X] Y A B; [|right; now apply near_div].
  destruct Y as (Y & _ & _). pose proof (mag_pos _ _ _ Y) as PY. destruct Y as (Ny & Fy & _).
  destruct (div_nn x y) as [N E]; auto. left. destruct (zero_of _ _ N E) as (H1 & H2 & H3); [rewrite X1; unfold Rdiv; ring|].
  repeat split; auto; try apply H1. rewrite X2. unfold Rdiv. ring.
Qed.
Lemma add_zero x y : nn x -> fin64 x = true -> to_R x = 0 -> nn y -> fin64 y = true -> nn (SFadd 53 1024 x y) /\ fin64 (SFadd 53 1024 x y) = true /\ to_R (SFadd 53 1024 x y) = to_R y.
Proof.
  intros Nx Fx Zx Ny Fy. assert (pv x = 0) as Px by (now rewrite fin_pv). pose proof (nn_pos_zero x Nx Px) as ->.
  destruct (add_nn (S754_zero false) y) as [N E]; auto. rewrite Zx, Rplus_0_l, rnd_dbl in E; [|apply Ny|auto].
  rewrite ov_small in E; [|apply Rle_lt_trans with (2 := fin_bound y (proj1 Ny) Fy), Rle_abs].
  assert (F : fin64 (SFadd 53 1024 (S754_zero false) y) = true).
  { apply nn_fin_lt; auto. rewrite E. apply Rle_lt_trans with (2 := fin_bound y (proj1 Ny) Fy), Rle_abs. }
  rewrite fin_pv in E by auto. auto.
Qed.
Lemma add_comm_R x y : nn x -> fin64 x = true -> nn y -> fin64 y = true -> to_R y = 0 -> nn (SFadd 53 1024 x y) /\ fin64 (SFadd 53 1024 x y) = true /\ to_R (SFadd 53 1024 x y) = to_R x.
Proof.
  intros Nx Fx Ny Fy Zy. assert (pv y = 0) as Py by (now rewrite fin_pv). pose proof (nn_pos_zero y Ny Py) as ->.
  destruct (add_nn x (S754_zero false)) as [N E]; auto. rewrite Zy, Rplus_0_r, rnd_dbl in E; [|apply Nx|auto].
  rewrite ov_small in E; [|apply Rle_lt_trans with (2 := fin_bound x (proj1 Nx) Fx), Rle_abs].
  assert (F : fin64 (SFadd 53 1024 x (S754_zero false)) = true).
  { apply nn_fin_lt; auto. rewrite E. apply Rle_lt_trans with (2 := fin_bound x (proj1 Nx) Fx), Rle_abs. }
  rewrite fin_pv in E by auto. auto.
Qed.
(** the sum of two, with an upper bound known otherwise *)
Definition sumnear (a : Z) (q : R) (x : b64) (r : R) : Prop :=
  nn x /\ fin64 x = true /\ ((to_R x = 0 /\ r = 0) \/ (bpow radix2 a <= to_R x /\ close q (to_R x) r)).
Lemma sumnear_nonneg a q x r : sumnear a q x r -> 0 <= r.
Proof. intros (_ & _ & [(_ & ->)|(_ & A & _)]); lra. Qed.
Lemma sumnear_add a q x y r s : sumnear a q x r -> sumnear a q y s -> (-1022 <= a)%Z -> 1 <= q <= 4 -> r + s <= bpow radix2 500 ->
  sumnear a (q * v) (SFadd 53 1024 x y) (r + s).
Proof.
  intros (Nx & Fx & X) (Ny & Fy & Y) A Q U. pose proof v_ge as V.
  destruct X as [(X1 & X2)|(X1 & X2)].
  - destruct (add_zero x y) as (N & F & E); auto. split; [auto|]. split; [auto|]. rewrite E. destruct Y as [(Y1 & Y2)|(Y1 & Y2)]; [left; lra|right].
    split; [auto|]. rewrite X2, Rplus_0_l. eapply close_weaken; [| |exact Y2]; [lra|nra].
  - destruct Y as [(Y1 & Y2)|(Y1 & Y2)].
    + destruct (add_comm_R x y) as (N & F & E); auto. split; [auto|]. split; [auto|]. rewrite E. right.
      split; [auto|]. rewrite Y2, Rplus_0_r. eapply close_weaken; [| |exact X2]; [lra|nra].
    + destruct (add_nn x y) as [N E]; auto. pose proof (close_add q _ _ _ _ (proj1 Q) X2 Y2) as C. pose proof (bpow_gt_0 radix2 a) as PA.
      assert (U' : to_R x + to_R y <= bpow radix2 502).
      { destruct C as (C0 & _ & C). change (bpow radix2 502) with (bpow radix2 (500 + 2)). rewrite (bpow_plus radix2 500 2). change (bpow radix2 2) with 4. nra. }
      pose proof (rnd_bounds a 502 (to_R x + to_R y) ltac:(lia) ltac:(lia) ltac:(lra)) as K.
      assert (L : rnd64 (to_R x + to_R y) < bpow radix2 1024) by (eapply Rle_lt_trans; [apply K|apply bpow_lt; lia]).
      rewrite ov_small in E by auto. assert (F : fin64 (SFadd 53 1024 x y) = true) by (apply nn_fin_lt; auto; rewrite E; auto).
      rewrite fin_pv in E by auto. split; [auto|]. split; [auto|]. right. rewrite E. split; [apply K|].
      rewrite Rmult_comm. eapply close_trans; [lra|lra| |exact C]. apply close_rnd. pose proof (bpow_le radix2 _ _ A). lra.
Qed.
Lemma near0_sum a b q x r : near0 a b q x r -> sumnear a q x r.
Proof. intros [(A & B & C & D)|((A & B & C) & _ & D)]; (split; [auto|split; [auto|]]); [left; auto|right; split; [lra|auto]]. Qed.
Lemma sumnear_weaken a b p q x r : sumnear a p x r -> (b <= a)%Z -> 1 <= p <= q -> sumnear b q x r.
Proof.
  intros (A & B & [C|(C & D)]) L Q; (split; [auto|split; [auto|]]); [now left|right]. split; [eapply Rle_trans; [apply bpow_le, L|auto]|eapply close_weaken; [| |exact D]; lra].
Qed.

(** ** Differences of waves *)
Lemma wave_multiple x : dbl x -> fin64 x = true -> bpow radix2 (-40) <= to_R x -> exists m, to_R x = IZR m * bpow radix2 (-92).
Proof.
  intros V F H. pose proof (dbl_format x V F) as G. unfold generic_format, F2R in G. cbn [Fnum Fexp] in G.
  set (m := Ztrunc (scaled_mantissa radix2 fexp64 (to_R x))) in G. set (e := cexp radix2 fexp64 (to_R x)) in G.
  assert (E : (-92 <= e)%Z).
  { unfold e, cexp. assert (Mg : (-40 < Raux.mag radix2 (to_R x))%Z). { apply mag_gt_bpow. pose proof (bpow_gt_0 radix2 (-40)). rewrite Rabs_right; lra. }
    unfold SpecFloat.fexp, SpecFloat.emin. lia. }
  exists (m * 2 ^ (e + 92))%Z. rewrite G, mult_IZR. rewrite (IZR_Zpower radix2) by lia. rewrite Rmult_assoc, <- bpow_plus. f_equal. f_equal. lia.
Qed.
Lemma sub_near0 x y : mag (-40) 40 x -> mag (-40) 40 y -> to_R y <= to_R x -> near0 (-92) 40 v (SFsub 53 1024 x y) (to_R x - to_R y).
Proof.
  intros (Nx & Fx & Bx) (Ny & Fy & By) L. destruct (sub_nn x y) as (N & F & E); auto.
  destruct (wave_multiple x (proj1 Nx) Fx (proj1 Bx)) as (m & Em). destruct (wave_multiple y (proj1 Ny) Fy (proj1 By)) as (k & Ek).
  destruct (Req_dec (to_R x) (to_R y)) as [D|D].
  - left. repeat split; auto; try apply N; [rewrite E, D|lra]. replace (to_R y - to_R y) with 0 by ring. apply rnd_0.
  - right. assert (P : bpow radix2 (-92) <= to_R x - to_R y <= bpow radix2 40).
    { pose proof (bpow_gt_0 radix2 (-92)) as P. pose proof (bpow_gt_0 radix2 (-40)). split; [|lra]. rewrite Em, Ek in *. rewrite <- Rmult_minus_distr_r, <- minus_IZR.
      assert (Lt : (k < m)%Z). { apply lt_IZR. apply Rmult_lt_reg_r with (bpow radix2 (-92)); [auto|]. lra. }
      rewrite <- (Rmult_1_l (bpow radix2 (-92))) at 1. apply Rmult_le_compat_r; [lra|]. apply (IZR_le 1). lia. }
    replace v with (1 * v) by ring. eapply near_step; [|exact E| | |].
    + split; [auto|]. split; [auto|]. rewrite E. apply rnd_bounds; [lia|lia|exact P].
    + eapply Rle_trans; [apply (bpow_le radix2 _ (-92)); lia|apply P].
    + lra.
    + apply close_refl; [lra|]. pose proof (bpow_gt_0 radix2 (-92)). lra.
Qed.

(** ** The trapezoidal rule *)
Section Band.
  Context (lib : libm).
  Notation N := (B64N lib).
  Lemma two_near : near 1 2 1 (b64_ratio 2 1) 2.
  Proof.
    replace 2 with (to_R (b64_ratio 2 1)); [apply near_exact, two_mag|].
    let x := eval vm_compute in (b64_ratio 2 1) in change (b64_ratio 2 1) with x. const_R. lra.
  Qed.
  Lemma near0_le a b q x r : 1 <= q -> near0 a b q x r -> r <= bpow radix2 b * q.
  Proof.
    intros Q [(_ & _ & _ & ->)|((_ & _ & M) & _ & _ & C & _)]; [pose proof (bpow_gt_0 radix2 b); nra|]. eapply Rle_trans; [exact C|]. apply Rmult_le_compat_r; lra.
  Qed.
  Lemma trapz_near a b q (ws : list b64) : (-900 <= a)%Z -> (-900 <= b <= 400)%Z -> 1 <= q -> q * v ^ (4 + List.length ws) <= 2 ->
    Forall (mag (-40) 40) ws -> Sorted Rle (map to_R ws) -> forall ys rs, Forall2 (near0 a b q) ys rs ->
    sumnear (a - 94) (q * v ^ (4 + List.length ws)) (@trapz N ys ws) (Rtrapz rs (map to_R ws)) /\
    Rtrapz rs (map to_R ws) <= (bpow radix2 40 - hd 0 (map to_R ws)) * bpow radix2 (b + 1).
  Proof.
    intros A B Q. pose proof v_ge as V. pose proof (bpow_gt_0 radix2 (b + 1)) as PB.
    assert (Z : forall n (s : R), sumnear (a - 94) (q * v ^ n) (S754_zero false) 0) by (intros n s; split; [exact nn_zero|split; [reflexivity|left; split; reflexivity]]).
    induction ws as [|x0 ws IH]; intros QV W S ys rs Y.
    - assert (E : forall l, @trapz N l [] = S754_zero false) by (intros [|? [|? ?]]; reflexivity). rewrite E.
      assert (E2 : forall l, Rtrapz l (map to_R []) = 0) by (intros [|? [|? ?]]; reflexivity). rewrite E2. split; [apply Z; exact 0|]. cbn [map hd]. pose proof (bpow_gt_0 radix2 40). nra.
    - assert (H0 : 0 <= (bpow radix2 40 - hd 0 (map to_R (x0 :: ws))) * bpow radix2 (b + 1)).
      { cbn [map hd]. inversion W as [|? ? (_ & _ & B0) _]; subst. apply Rmult_le_pos; lra. }
      destruct Y as [|y0 r0 ys rs Y0 Y]; [split; [apply Z; exact 0|exact H0]|].
      destruct Y as [|y1 r1 ys rs Y1 Y]; [split; [apply Z; exact 0|exact H0]|].
      destruct ws as [|x1 ws]; [split; [apply Z; exact 0|exact H0]|]. clear H0.
      inversion W as [|? ? W0 W']; subst. inversion W' as [|? ? W1 W'']; subst.
      inversion S as [|? ? S' HD]; subst. inversion HD as [|? ? LE]; subst.
      assert (QV' : q * v ^ (4 + List.length (x1 :: ws)) <= 2).
      { eapply Rle_trans; [|exact QV]. apply Rmult_le_compat_l; [lra|]. apply Rle_pow; [lra|cbn [List.length]; lia]. }
      destruct (IH QV' W' S' (y1 :: ys) (r1 :: rs)) as [I1 I2]; [constructor; auto|]. clear IH.
      change (@trapz N (y0 :: y1 :: ys) (x0 :: x1 :: ws)) with
        (SFadd 53 1024 (SFdiv 53 1024 (SFmul 53 1024 (SFsub 53 1024 x1 x0) (SFadd 53 1024 y1 y0)) (b64_ratio 2 1)) (@trapz N (y1 :: ys) (x1 :: ws))).
      change (Rtrapz (r0 :: r1 :: rs) (map to_R (x0 :: x1 :: ws))) with ((to_R x1 - to_R x0) * (r1 + r0) / 2 + Rtrapz (r1 :: rs) (map to_R (x1 :: ws))).
      set (s' := @trapz N (y1 :: ys) (x1 :: ws)) in *. set (s := Rtrapz (r1 :: rs) (map to_R (x1 :: ws))) in *.
      assert (Q2 : q <= 2). { eapply Rle_trans; [|exact QV]. rewrite <- (Rmult_1_r q) at 1. apply Rmult_le_compat_l; [lra|apply vpow_ge]. }
      pose proof (near0_le _ _ _ _ _ Q Y0) as L0. pose proof (near0_le _ _ _ _ _ Q Y1) as L1.
      pose proof (sumnear_nonneg _ _ _ _ (near0_sum _ _ _ _ _ Y0)) as G0. pose proof (sumnear_nonneg _ _ _ _ (near0_sum _ _ _ _ _ Y1)) as G1.
      assert (EB : bpow radix2 (b + 1) = bpow radix2 b * 2) by (rewrite bpow_plus; reflexivity). pose proof (bpow_gt_0 radix2 b) as Pb.
      assert (L0' : r0 <= bpow radix2 (b + 1)) by (rewrite EB; eapply Rle_trans; [exact L0|apply Rmult_le_compat_l; lra]).
      assert (L1' : r1 <= bpow radix2 (b + 1)) by (rewrite EB; eapply Rle_trans; [exact L1|apply Rmult_le_compat_l; lra]).
      (* the sum of two neighbours *)
      assert (AD : near0 a (b + 2) (q * v) (SFadd 53 1024 y1 y0) (r1 + r0)).
      { pose proof (near0_weaken _ _ a (b + 1) _ q _ _ Y0 ltac:(lia) ltac:(lia) ltac:(lra)) as Y0'. pose proof (near0_weaken _ _ a (b + 1) _ q _ _ Y1 ltac:(lia) ltac:(lia) ltac:(lra)) as Y1'.
        destruct Y1' as [(N1 & F1 & Z1 & Z1')|Y1'].
        - destruct (near0_nn _ _ _ _ _ Y0') as [N0 F0]. destruct (add_zero y1 y0) as (Ns & Fs & Es); auto. rewrite Z1', Rplus_0_l. destruct Y0' as [(_ & _ & Z0 & Z0')|Y0'].
          + left. rewrite Es. auto.
          + right. destruct Y0' as ((_ & _ & M) & _ & C). split; [split; [auto|split; [auto|rewrite Es; split; [lra|]]]|split; [nra|rewrite Es; eapply close_weaken; [| |exact C]; nra]].
            eapply Rle_trans; [apply M|apply bpow_le; lia].
        - destruct Y0' as [(N0 & F0 & Z0 & Z0')|Y0'].
          + destruct Y1' as ((N1 & F1 & M) & _ & C). destruct (add_comm_R y1 y0) as (Ns & Fs & Es); auto. rewrite Z0', Rplus_0_r.
            right. split; [split; [auto|split; [auto|rewrite Es; split; [lra|]]]|split; [nra|rewrite Es; eapply close_weaken; [| |exact C]; nra]].
            eapply Rle_trans; [apply M|apply bpow_le; lia].
          + right. replace (b + 2)%Z with (b + 1 + 1)%Z by lia. apply near_add; auto; lia. }
      pose proof (sub_near0 x1 x0 W1 W0 LE) as DN.
      pose proof (near0_mul _ _ _ _ _ _ _ _ _ _ DN AD ltac:(lia) ltac:(lia)) as ML.
      pose proof (near0_div _ _ _ _ _ _ _ _ _ _ ML two_near ltac:(lia) ltac:(lia)) as DV.
      apply near0_sum in DV. replace (-92 + a - 2)%Z with (a - 94)%Z in DV by lia.
      set (tt := SFdiv 53 1024 _ _) in *. set (rt := (to_R x1 - to_R x0) * (r1 + r0) / 2) in *.
      assert (RT : rt <= (to_R x1 - to_R x0) * bpow radix2 (b + 1)).
      { unfold rt. replace ((to_R x1 - to_R x0) * (r1 + r0) / 2) with ((to_R x1 - to_R x0) * ((r1 + r0) / 2)) by field. apply Rmult_le_compat_l; lra. }
      assert (SUM : rt + s <= (bpow radix2 40 - to_R x0) * bpow radix2 (b + 1)).
      { cbn [map hd] in I2. fold (map to_R ws) in I2. fold s in I2. replace ((bpow radix2 40 - to_R x0) * bpow radix2 (b + 1)) with ((to_R x1 - to_R x0) * bpow radix2 (b + 1) + (bpow radix2 40 - to_R x1) * bpow radix2 (b + 1)) by ring. lra. }
      split; [|exact SUM].
      assert (PW : v * (q * v) * v * 1 * v <= q * v ^ (4 + List.length (x1 :: ws))).
      { replace (v * (q * v) * v * 1 * v) with (q * v ^ 4) by ring. apply Rmult_le_compat_l; [lra|]. apply Rle_pow; [lra|lia]. }
      assert (P1 : 1 <= v * (q * v) * v * 1 * v) by (replace (v * (q * v) * v * 1 * v) with (q * v ^ 4) by ring; pose proof (vpow_ge 4); nra).
      pose proof (sumnear_weaken _ (a - 94) _ _ _ _ DV (Z.le_refl _) (conj P1 PW)) as DV'.
      pose proof (sumnear_add _ _ _ _ _ _ DV' I1 ltac:(lia)) as R.
      replace (q * v ^ (4 + List.length (x0 :: x1 :: ws))) with (q * v ^ (4 + List.length (x1 :: ws)) * v) by (cbn [List.length Nat.add pow]; ring).
      apply R; [split; [lra|lra]|]. eapply Rle_trans; [exact SUM|]. destruct W0 as (_ & _ & W0). pose proof (bpow_gt_0 radix2 (-40)).
      apply Rle_trans with (bpow radix2 40 * bpow radix2 (b + 1)); [apply Rmult_le_compat_r; lra|]. rewrite <- bpow_plus. apply bpow_le. lia.
  Qed.
End Band.
