(** Band radiances, the tables and the SEVIRI conversions in doubles: no order is
    ever reversed. *)
From Coq Require Import ZArith Reals Lra Lia List Bool String SpecFloat Sorting.Sorted.
From Flocq Require Import Core BinarySingleNaN.
From Verif Require Import Base NumSig B64 M_Tables M_Utils M_Blackbody M_Rsr M_RadTb S_B64 P_Blackbody2 P_B64 P_B642 P_B64ops P_B64mono P_B64planck.
Import ListNotations.
Local Open Scope R_scope.

(** ** Upper bounds *)
Definition bnd (b : Z) (x : b64) : Prop := nn x /\ fin64 x = true /\ to_R x <= bpow radix2 b.
Lemma bnd_weaken a b x : bnd a x -> (a <= b)%Z -> bnd b x.
Proof. intros (N & F & H) L. split; [auto|split; [auto|]]. eapply Rle_trans; [exact H|apply bpow_le, L]. Qed.
Lemma mag_bnd a b x : mag a b x -> bnd b x.
Proof. intros (N & F & H). split; [auto|split; [auto|apply H]]. Qed.
Lemma bnd_of x b r : nn x -> pv x = ov (rnd64 r) -> (-1074 <= b < 1024)%Z -> r <= bpow radix2 b -> bnd b x.
Proof.
  intros N E B H. assert (K : rnd64 r <= bpow radix2 b) by (apply round_le_generic; auto with typeclass_instances; apply bpow_format; lia).
  assert (L : rnd64 r < bpow radix2 1024) by (eapply Rle_lt_trans; [apply K|apply bpow_lt; lia]).
  rewrite ov_small in E by auto.
  assert (F : fin64 x = true) by (apply nn_fin_lt; auto; rewrite E; auto).
  rewrite fin_pv in E by auto. split; [auto|split; [auto|lra]].
Qed.
Lemma bnd_mul a b x y : bnd a x -> bnd b y -> (-1074 <= a + b < 1024)%Z -> bnd (a + b) (SFmul 53 1024 x y).
Proof.
  intros (Nx & Fx & Bx) (Ny & Fy & By) L. destruct (mul_nn x y) as [N E]; auto. eapply bnd_of; eauto.
  rewrite bpow_plus. apply Rmult_le_compat; auto; apply to_R_nn; auto.
Qed.
Lemma bnd_add a x y : bnd a x -> bnd a y -> (-1074 <= a + 1 < 1024)%Z -> bnd (a + 1) (SFadd 53 1024 x y).
Proof.
  intros (Nx & Fx & Bx) (Ny & Fy & By) L. destruct (add_nn x y) as [N E]; auto. eapply bnd_of; eauto.
  rewrite bpow_plus. change (bpow radix2 1) with 2. lra.
Qed.
Lemma bnd_sub a x y : bnd a x -> bnd a y -> to_R y <= to_R x -> (-1074 <= a < 1024)%Z -> bnd a (SFsub 53 1024 x y).
Proof.
  intros (Nx & Fx & Bx) (Ny & Fy & By) L Z. destruct (sub_nn x y) as (N & F & E); auto. split; [auto|split; [auto|]]. rewrite E.
  apply round_le_generic; auto with typeclass_instances; [apply bpow_format; lia|]. pose proof (to_R_nn y Ny Fy). lra.
Qed.

(** ** The trapezoidal rule *)
Lemma two_mag : mag 1 2 (b64_ratio 2 1).
Proof. mag_const. Qed.
Section Band.
  Context (lib : libm).
  Notation N := (B64N lib).

  Definition ordered (y y' : b64) : Prop := bnd 250 y /\ bnd 250 y' /\ le64 y y'.
  Lemma trapz_mono (ws : list b64) : Forall (bnd 50) ws -> Sorted Rle (map to_R ws) -> forall ys ys', Forall2 ordered ys ys' ->
    nn (@trapz N ys ws) /\ nn (@trapz N ys' ws) /\ le64 (@trapz N ys ws) (@trapz N ys' ws).
  Proof.
    induction ws as [|x0 ws IH]; intros B S ys ys' O.
    - assert (Z : forall l, @trapz N l [] = S754_zero false) by (intros [|? [|? ?]]; reflexivity). rewrite !Z.
      auto using nn_zero, le_zero.
    - destruct O as [|y0 y0' ys ys' O0 O]; [cbn; auto using nn_zero, le_zero|].
      destruct O as [|y1 y1' ys ys' O1 O]; [cbn; auto using nn_zero, le_zero|].
      destruct ws as [|x1 ws]; [cbn; auto using nn_zero, le_zero|].
      inversion B as [|? ? Bx0 B']; subst. inversion B' as [|? ? Bx1 B'']; subst.
      inversion S as [|? ? S' HD]; subst. inversion HD as [|? ? LE]; subst.
      destruct (IH B' S' (y1 :: ys) (y1' :: ys')) as (I1 & I2 & I3); [constructor; auto|].
      change (@trapz N (y0 :: y1 :: ys) (x0 :: x1 :: ws)) with
        (SFadd 53 1024 (SFdiv 53 1024 (SFmul 53 1024 (SFsub 53 1024 x1 x0) (SFadd 53 1024 y1 y0)) (b64_ratio 2 1)) (@trapz N (y1 :: ys) (x1 :: ws))).
      change (@trapz N (y0' :: y1' :: ys') (x0 :: x1 :: ws)) with
        (SFadd 53 1024 (SFdiv 53 1024 (SFmul 53 1024 (SFsub 53 1024 x1 x0) (SFadd 53 1024 y1' y0')) (b64_ratio 2 1)) (@trapz N (y1' :: ys') (x1 :: ws))).
      destruct O0 as (A0 & A0' & L0), O1 as (A1 & A1' & L1).
      assert (D : bnd 50 (SFsub 53 1024 x1 x0)) by (apply bnd_sub; auto; lia).
      destruct (bnd_add _ _ _ A1 A0) as (P1 & P2 & _); [lia|]. destruct (bnd_add _ _ _ A1' A0') as (Q1 & Q2 & _); [lia|].
      destruct (add_mono _ _ _ _ (proj1 A1) (proj1 A1') (proj1 A0) (proj1 A0') L1 L0) as (_ & _ & L).
      destruct D as (D1 & D2 & _).
      destruct (mul_mono_fin _ _ _ D1 P1 Q1 D2 P2 Q2 L) as (M1 & M2 & M3).
      pose proof two_mag as T2. pose proof (mag_pos _ _ _ T2) as T3. destruct T2 as (T4 & T5 & _).
      destruct (div_mono _ _ _ T4 M1 M2 T5 T3 M3) as (E1 & E2 & E3).
      apply add_mono; auto.
  Qed.

  (** ** Planck's function stays finite *)
  Context (EX : monotone_exp (m_exp lib)) (AC : accurate_exp (1 / 10 ^ 13) (m_exp lib)).
  Definition tiny : b64 := S754_finite false 4503599627370496 (-90).   (* 2 ^ -38 *)
  Lemma tiny_R : to_R tiny = bpow radix2 (-38).
  Proof. unfold tiny. cbn [SF2R cond_Zopp]. unfold F2R. cbn [Fnum Fexp]. change (IZR 4503599627370496) with (bpow radix2 52). rewrite <- bpow_plus. reflexivity. Qed.
  Lemma tiny_nn : nn tiny /\ fin64 tiny = true.
  Proof. repeat split. Qed.
  Lemma exp_tiny : 1 + bpow radix2 (-39) <= to_R (m_exp lib tiny).
  Proof.
    assert (B : bpow radix2 (-38) = / 274877906944) by reflexivity. assert (B' : bpow radix2 (-39) = / 549755813888) by reflexivity.
    destruct (AC tiny) as [_ H]; [split; reflexivity|rewrite tiny_R, B; lra|].
    rewrite tiny_R, B in H. pose proof (exp_ineq1 (/ 274877906944) ltac:(lra)) as G. apply Rabs_le_inv in H.
    rewrite B'. set (e := exp _) in *. nra.
  Qed.
  Lemma exp_minus_one x : nn x -> bpow radix2 (-38) <= pv x ->
    nn (SFsub 53 1024 (m_exp lib x) (b64_ratio 1 1)) /\ bpow radix2 (-39) <= pv (SFsub 53 1024 (m_exp lib x) (b64_ratio 1 1)).
  Proof.
    intros Nx Hx. destruct tiny_nn as [Nt Ft].
    assert (L : le64 tiny x) by (apply le_pv; auto; rewrite fin_pv, tiny_R; auto).
    destruct (exp_nn lib EX x Nx) as [Ne Le]. destruct (exp_nn lib EX tiny Nt) as [Ne' Le'].
    assert (L2 : le64 (m_exp lib tiny) (m_exp lib x)) by (apply (exp_order _ EX); [apply Nt|apply Nx|exact L]).
    destruct one_mag as (N1 & F1 & _).
    destruct (sub_mono (b64_ratio 1 1) _ _ N1 Ne' Ne F1 Le' L2) as (S1 & S2 & S3). split; auto.
    apply le_pv in S3; auto. eapply Rle_trans; [|exact S3].
    assert (Fe : fin64 (m_exp lib tiny) = true). { destruct (AC tiny) as [[_ F] _]; auto; [split; reflexivity|]. rewrite tiny_R. pose proof (bpow_gt_0 radix2 (-38)). split; [lra|]. cbn. lra. }
    pose proof exp_tiny as E. assert (B' : bpow radix2 (-39) = / 549755813888) by reflexivity.
    destruct (sub_nn (m_exp lib tiny) (b64_ratio 1 1)) as (_ & F & V); auto; [rewrite one_R; lra|].
    rewrite fin_pv, V, one_R by auto. apply round_ge_generic; auto with typeclass_instances; [apply bpow_format; lia|]. lra.
  Qed.
  Lemma div_lower a x b : nn a -> fin64 a = true -> 0 < to_R a -> to_R a <= bpow radix2 b -> nn x -> bpow radix2 (-39) <= pv x ->
    (-1074 <= b + 39 < 1024)%Z -> bnd (b + 39) (SFdiv 53 1024 a x).
  Proof.
    intros Na Fa Pa Ba Nx Hx B. destruct (nn_cases x Nx) as [Fx| ->].
    - rewrite fin_pv in Hx by auto. pose proof (bpow_gt_0 radix2 (-39)). destruct (div_nn a x) as [N1 E1]; auto; [lra|]. eapply bnd_of; eauto.
      rewrite bpow_plus. change (bpow radix2 39) with (/ bpow radix2 (-39))%R in *|| replace (bpow radix2 39) with (/ bpow radix2 (-39)) by (rewrite <- bpow_opp; reflexivity).
      unfold Rdiv. apply Rmult_le_compat; try lra; [left; apply Rinv_0_lt_compat; lra|]. apply Rinv_le_contravar; lra.
    - destruct (pos_finite a) as (m & e & ->); auto. split; [exact nn_zero|]. split; [reflexivity|]. cbn [SFdiv SF2R]. apply bpow_ge_0.
  Qed.
  (** wavelengths below a kilometre, wavenumbers above one per kilometre *)
  Definition wave_ok (wl : bool) (w : b64) : Prop := mag (-40) 40 w /\ (if wl then to_R w <= bpow radix2 10 else bpow radix2 (-10) <= to_R w).
  Lemma arg1_low wl w : wave_ok wl w -> mag (-17) 34 (@planck_arg1 N wl w).
  Proof.
    intros [W H]. unfold planck_arg1. destruct wl.
    - assert (W' : mag (-40) 10 w) by (destruct W as (A & B & C); repeat split; auto; try apply A; apply C).
      destruct (mag_div _ _ _ _ _ _ (c1_mag lib) W') as [R _]; [lia|lia|]. exact R.
    - assert (W' : mag (-10) 40 w) by (destruct W as (A & B & C); repeat split; auto; try apply A; apply C).
      destruct (mag_mul _ _ _ _ _ _ (c1_mag lib) W') as [R _]; [lia|lia|]. eapply mag_weaken; [exact R|lia|lia].
  Qed.
  Lemma planck1_fin wl w t : wave_ok wl w -> mag (-10) 20 t -> le_double (b64_ratio 1 1000) t -> bnd 200 (@planck1 N wl w t).
  Proof.
    intros W T L. pose proof (arg1_low _ _ W) as A. unfold planck1. rewrite arg2_hot by (split; auto; apply T).
    destruct (mag_div _ _ _ _ _ _ one_mag T) as [I _]; [lia|lia|]. destruct (mag_mul _ _ _ _ _ _ A I) as [M _]; [lia|lia|].
    destruct W as [W _]. pose proof (nom_mag lib wl w W) as MN. pose proof (mag_pos _ _ _ MN) as PN. destruct MN as (NN & FN & BN).
    destruct (exp_minus_one (SFmul 53 1024 (@planck_arg1 N wl w) (SFdiv 53 1024 (b64_ratio 1 1) t))) as [E1 E2]; [apply M| |].
    { destruct M as (M1 & M2 & M3). rewrite fin_pv by auto. eapply Rle_trans; [|apply M3]. apply bpow_le. lia. }
    eapply bnd_weaken; [eapply div_lower with (b := 148%Z)|]; eauto; try lia; apply BN.
  Qed.
End Band.

(** ** The converter *)
Lemma double_1 lo hi x b : double_between lo hi x -> 0 <= lo -> x <> S754_zero true -> hi <= bpow radix2 b -> bnd b x.
Proof.
  intros ([V F] & H) L Z B. split; [|split; [auto|lra]]. apply nn_of_fin; auto.
  destruct (Req_dec (to_R x) 0) as [E|E]; [|apply sign_pos; auto; lra].
  destruct x as [s|s| |s m e]; try discriminate; [destruct s; auto; now elim Z|]. exfalso. cbn in E.
  apply eq_0_F2R in E. destruct s; discriminate.
Qed.
Lemma wave_like_ok wn w : wave_like wn w -> wave_ok (negb wn) w.
Proof.
  unfold wave_like, wave_ok. destruct wn; intros H; cbn [negb].
  - split; [eapply double_mag; [exact H| |]; cbn; lra|]. destruct H as [_ H]. cbn. lra.
  - split; [eapply double_mag; [exact H| |]; cbn; lra|]. destruct H as [_ H]. cbn. lra.
Qed.
Lemma temp_ok t : double_between 1 (10 ^ 6) t -> mag (-10) 20 t /\ le_double (b64_ratio 1 1000) t.
Proof.
  intros H. assert (M : mag 0 20 t) by (eapply double_mag; [exact H| |]; cbn; lra).
  assert (K : mag (-10) (-9) (b64_ratio 1 1000)) by mag_const. split.
  - eapply mag_weaken; [exact M|lia|lia].
  - apply to_R_le; [apply K|apply M|apply K|apply M|]. destruct K as (_ & _ & K), M as (_ & _ & M).
    assert (bpow radix2 (-9) <= bpow radix2 0) by (apply bpow_le; lia). lra.
Qed.

Section Conv.
  Context (lib : libm).
  Notation N := (B64N lib).
  Context (EX : monotone_exp (m_exp lib)) (AC : accurate_exp (1 / 10 ^ 13) (m_exp lib)).

  Lemma row_ordered wl ws rs t t' : Forall (wave_ok wl) ws -> Forall response_like rs ->
    double_between 1 (10 ^ 6) t -> double_between 1 (10 ^ 6) t' -> le_double t t' -> forall p p',
    @vmul N (map (fun w => @planck1 N wl w t) ws) rs = Ok p -> @vmul N (map (fun w => @planck1 N wl w t') ws) rs = Ok p' -> Forall2 ordered p p'.
  Proof.
    intros W R T T' L. unfold vmul. rewrite !map_length. match goal with |- context [Nat.eqb ?a ?b] => destruct (Nat.eqb_spec a b) as [E|E] end; [|intros ? ? ?; discriminate].
    intros p p' [= <-] [= <-]. revert rs R E. induction W as [|w ws Hw W IH]; intros rs R E; [constructor|].
    destruct R as [|r rs Hr R]; [discriminate|]. cbn [map combine fst snd]. constructor; [|apply IH; auto].
    destruct (temp_ok t T) as [M H], (temp_ok t' T') as [M' H'].
    pose proof (planck1_fin lib EX AC wl w t Hw M H) as P. pose proof (planck1_fin lib EX AC wl w t' Hw M' H') as P'.
    destruct Hr as [Hr Zr]. assert (Br : bnd 10 r) by (eapply double_1; eauto; [lra|cbn; lra]).
    destruct (planck1_mono lib EX wl w t t') as (_ & _ & LE); auto; [apply Hw|split; [apply M|auto]|apply M'|].
    
    split; [eapply bnd_weaken; [apply bnd_mul; eauto|]; lia|]. split; [eapply bnd_weaken; [apply bnd_mul; eauto|]; lia|].
    rewrite !(SFmul_comm _ r). destruct P as (P1 & P2 & _), P' as (P1' & P2' & _), Br as (B1 & B2 & _).
    apply (mul_mono_fin r _ _ B1 P1 P1' B2 P2 P2' LE).
  Qed.

  Definition good_converter (c : converter N) : Prop :=
    Forall (wave_like (String.eqb (cv_wavespace c) WAVE_NUMBER)) (cv_waves c) /\ Sorted Rle (map to_R (cv_waves c)) /\
    Forall response_like (cv_response c) /\ double_between (1 / 10 ^ 12) (10 ^ 12) (cv_rsr_integral c).

  Lemma band_mono (c : converter N) norm ts ts' rads rads' : good_converter c ->
    Forall (double_between 1 (10 ^ 6)) ts -> Forall (double_between 1 (10 ^ 6)) ts' -> Forall2 le_double ts ts' ->
    planck_radiance c ts norm = Ok rads -> planck_radiance c ts' norm = Ok rads' -> Forall2 le_double rads rads' /\ Forall nn rads.
  Proof.
    intros (W & S & R & I) T T' L. unfold planck_radiance.
    assert (I' : mag (-40) 40 (cv_rsr_integral c)) by (eapply double_mag; [exact I| |]; cbn; lra).
    pose proof (mag_pos _ _ _ I') as PI. destruct I' as (NI & FI & _).
    destruct (cv_waves c) as [|w0 ws0] eqn:EW; [discriminate|]. rewrite <- EW in *. clear EW w0 ws0.
    assert (BW : Forall (bnd 50) (cv_waves c)).
    { eapply Forall_impl; [|exact W]. intros a Ha. apply wave_like_ok in Ha. eapply bnd_weaken; [eapply mag_bnd, Ha|lia]. }
    assert (WO : Forall (wave_ok (negb (String.eqb (cv_wavespace c) WAVE_NUMBER))) (cv_waves c)).
    { eapply Forall_impl; [|exact W]. intros a Ha. apply wave_like_ok; auto. }
    assert (BF : forall l, blackbody_function (cv_wavespace c) (cv_waves c) l = map (fun t => map (fun w => @planck1 N (negb (String.eqb (cv_wavespace c) WAVE_NUMBER)) w t) (cv_waves c)) l).
    { intros l. unfold blackbody_function, blackbody_wn, blackbody. destruct String.eqb; apply planck_rows. }
    set (wl := negb _) in *. clearbody wl.
    set (F := fun row : list N => p <- vmul row (cv_response c) ;; r <- trapezoid p (cv_waves c) ;; Ok (if norm then ndiv N r (cv_rsr_integral c) else r)).
    assert (K : forall t t' r r', double_between 1 (10 ^ 6) t -> double_between 1 (10 ^ 6) t' -> le_double t t' ->
      F (map (fun w => @planck1 N wl w t) (cv_waves c)) = Ok r -> F (map (fun w => @planck1 N wl w t') (cv_waves c)) = Ok r' -> le_double r r' /\ nn r).
    { clear ts ts' rads rads' T T' L. intros t t' r r' T T' L. unfold F.
      destruct (@vmul N (map (fun w => @planck1 N wl w t) (cv_waves c)) (cv_response c)) as [p|] eqn:E1; [|intros H1 H2; discriminate H1].
      destruct (@vmul N (map (fun w => @planck1 N wl w t') (cv_waves c)) (cv_response c)) as [p'|] eqn:E1'; [|intros H1 H2; discriminate H2].
      pose proof (row_ordered wl _ _ t t' WO R T T' L p p' E1 E1') as O. cbn [bind]. unfold trapezoid.
      destruct (trapz_mono lib (cv_waves c) BW S p p' O) as (A & B & C).
      match goal with |- context [if Nat.eqb ?a ?b then Ok (trapz p ?x) else _] => destruct (Nat.eqb a b) end; [|intros H1 H2; discriminate H1].
      match goal with |- context [if Nat.eqb ?a ?b then Ok (trapz p' ?x) else _] => destruct (Nat.eqb a b) end; [|intros H1 H2; discriminate H2]. cbn [bind].
      intros [= <-] [= <-]. destruct norm; [|auto]. destruct (div_mono _ _ _ NI A B FI PI C) as (D1 & D2 & D3). auto. }
    assert (G : mapM F (blackbody_function (cv_wavespace c) (cv_waves c) ts) = Ok rads -> mapM F (blackbody_function (cv_wavespace c) (cv_waves c) ts') = Ok rads' ->
      Forall2 le_double rads rads' /\ Forall nn rads).
    { rewrite !BF. clearbody F. clear BF. revert T T' rads rads'. induction L as [|t t' ts ts' Ht L IH]; intros T T' rads rads'.
      - intros [= <-] [= <-]. split; constructor.
      - inversion T as [|? ? T1 T2]; subst. inversion T' as [|? ? T1' T2']; subst. cbn [map mapM].
        specialize (K t t'). specialize (IH T2 T2').
        destruct (F (map (fun w => @planck1 N wl w t) _)) as [r|]; [|intros H1 H2; discriminate H1].
        destruct (F (map (fun w => @planck1 N wl w t') _)) as [r'|]; [|intros H1 H2; discriminate H2]. cbn [bind].
        match goal with |- bind (mapM F ?x) _ = _ -> _ => destruct (mapM F x) as [l|] eqn:E2 end; [|intros H1 H2; discriminate H1].
        match goal with |- _ -> bind (mapM F ?x) _ = _ -> _ => destruct (mapM F x) as [l'|] eqn:E3 end; [|intros H1 H2; discriminate H2]. cbn [bind].
        intros [= <-] [= <-]. destruct (IH l l' eq_refl eq_refl) as [I1 I2]. destruct (K r r' T1 T1' Ht eq_refl eq_refl) as [K1 K2].
        split; constructor; auto. }
    destruct ts as [|t0 ts0]; [intros H1 H2; discriminate H1|]. destruct ts' as [|t0' ts0']; [intros H1 H2; discriminate H2|]. exact G.
  Qed.

  (** ** The tables *)
  Lemma row64_double i : (i < 2100)%nat -> double_between 1 (10 ^ 6) (row64 i).
  Proof.
    intros H. pose proof (rows_close i H) as C. assert (0 <= INR i <= 2100) by (split; [apply pos_INR|]; replace 2100 with (INR 2100) by (rewrite INR_IZR_INZ; reflexivity); apply le_INR; lia).
    assert (P6 : 10 ^ 6 = 1000000) by lra. split; [|rewrite P6; lra]. assert (V : dbl (row64 i)). { unfold row64. apply add_dbl; [reflexivity|]. apply mul_dbl; [|reflexivity]. apply ratio_int. lia. }
    split; auto. destruct (fin64 (row64 i)) eqn:F; auto. exfalso. assert (to_R (row64 i) = 0) as Z by (clear - F; destruct (row64 i); try reflexivity; discriminate). lra.
  Qed.
  Lemma row64_le i j : (i <= j < 2100)%nat -> le_double (row64 i) (row64 j).
  Proof.
    intros H. destruct (row64_double i) as [[Vi Fi] _]; [lia|]. destruct (row64_double j) as [[Vj Fj] _]; [lia|].
    unfold le_double. rewrite leb_R by auto. apply Rle_bool_true. destruct (Nat.eq_dec i j) as [->|E]; [lra|].
    pose proof (rows_close i ltac:(lia)). pose proof (rows_close j ltac:(lia)).
    assert (INR i + 1 <= INR j) by (rewrite <- S_INR; apply le_INR; lia). lra.
  Qed.
  Lemma lut_mono : forall oob load platform instrument band det wavespace (c : converter N) norm norm' lut t t',
    RadTbConverter load platform instrument band det wavespace (nlit N 1 10) = Ok c -> make_tb2rad_lut c norm = Ok lut -> good_converter c ->
    double_between 0 (32767 / 10) t -> double_between 0 (32767 / 10) t' -> le_double t t' ->
    exists r r', tb2radiance oob c [t : N] (Some lut) norm' = Ok [r] /\ tb2radiance oob c [t' : N] (Some lut) norm' = Ok [r'] /\ le_double r r'.
  Proof.
    intros oob load p i b det wsp c norm norm' lut t t' Hc Hl G [[V F] B] [[V' F'] B'] L. apply constructor_gen in Hc as (Hr & Hs).
    destruct (lut64 _ _ _ _ Hr Hl) as (HL & HT & HR). unfold tb2radiance in *. rewrite Hs.
    change (ndiv N (nlit N 1 1) (nlit N 1 10)) with scale64.
    destruct (lookup64 lib oob lut t HL HT) as (r & R1 & R2). destruct (lookup64 lib oob lut t' HL HT) as (r' & R1' & R2').
    rewrite index64 in R2, R2' by auto. exists r, r'. split; [exact R1|]. split; [exact R1'|].
    unfold le_double in L. rewrite leb_R in L by auto. assert (L' : to_R t <= to_R t') by (revert L; case Rle_bool_spec; auto; discriminate).
    assert (Z : (Zfloor (rnd64 (10 * to_R t)) <= Zfloor (rnd64 (10 * to_R t')))%Z) by (apply Zfloor_le, rnd_le; lra).
    set (z := Zfloor (rnd64 (10 * to_R t))) in *. set (z' := Zfloor (rnd64 (10 * to_R t'))) in *.
    assert (Cz : (0 <= clipZ (z - 1500) 0 2099 <= clipZ (z' - 1500) 0 2099 /\ clipZ (z' - 1500) 0 2099 <= 2099)%Z) by (unfold clipZ; lia).
    set (j := Z.to_nat (clipZ (z - 1500) 0 2099)) in *. set (j' := Z.to_nat (clipZ (z' - 1500) 0 2099)) in *.
    assert (J : (j <= j' < 2100)%nat) by (unfold j, j'; lia).
    destruct (HR j) as (q & Q1 & Q2); [lia|]. destruct (HR j') as (q' & Q1' & Q2'); [lia|].
    assert (q = r) by congruence. assert (q' = r') by congruence. subst q q'. 
    destruct (band_mono c norm [row64 j] [row64 j'] [r] [r'] G) as [H _]; auto.
    1, 2: constructor; [apply row64_double; lia|constructor].
    - constructor; [apply row64_le; lia|constructor].
    - now inversion H.
  Qed.
End Conv.

(** ** SEVIRI *)
Lemma sub_gen c x y : nn c -> fin64 c = true -> nn x -> nn y -> le64 x y -> le64 (SFsub 53 1024 x c) (SFsub 53 1024 y c).
Proof.
  intros Nc Fc Nx Ny L.
  assert (D : forall z, nn z -> fin64 z = true -> dbl (SFsub 53 1024 z c) /\ fin64 (SFsub 53 1024 z c) = true /\ to_R (SFsub 53 1024 z c) = rnd64 (to_R z - to_R c)).
  { intros z Nz Fz. destruct Nz as [Vz Sz], Nc as [Vc Sc]. split; [apply sub_dbl; auto|].
    pose proof (to_R_nn z (conj Vz Sz) Fz). pose proof (to_R_nn c (conj Vc Sc) Fc).
    pose proof (fin_bound z Vz Fz). pose proof (fin_bound c Vc Fc).
    assert (B : Rabs (rnd64 (to_R z - to_R c)) < bpow radix2 1024).
    { destruct (Rle_dec (to_R c) (to_R z)).
      - apply rnd_abs_lt with (b := to_R z); [apply dbl_format; auto| |rewrite Rabs_pos_eq in *; auto]. rewrite Rabs_pos_eq; lra.
      - apply rnd_abs_lt with (b := to_R c); [apply dbl_format; auto| |rewrite (Rabs_pos_eq (to_R c)) in *; auto]. rewrite Rabs_left1; lra. }
    destruct (sub_R z c) as [R1 R2]; auto. }
  assert (Qi : SFsub 53 1024 (S754_infinity false) c = S754_infinity false) by (destruct c; try discriminate; reflexivity).
  destruct (nn_cases y Ny) as [Fy| ->].
  - assert (Fx : fin64 x = true) by (eapply le_fin with (y := y); eauto). apply to_R_le in L; auto.
    destruct (D x Nx Fx) as (A1 & A2 & A3). destruct (D y Ny Fy) as (B1 & B2 & B3).
    unfold le64. rewrite leb_R by auto. apply Rle_bool_true. rewrite A3, B3. apply rnd_le. lra.
  - rewrite Qi. destruct (nn_cases x Nx) as [Fx| ->]; [|rewrite Qi; apply le_inf, nn_inf].
    destruct (D x Nx Fx) as (_ & A2 & _). destruct (SFsub 53 1024 x c); try discriminate; reflexivity.
Qed.
Definition chk (lo hi : Z) (x : b64) : bool :=
  match x with S754_finite false m e => SpecFloat.valid_binary 53 1024 x && (lo <=? Z.log2 (Zpos m) + e)%Z && (Z.log2 (Zpos m) + e + 1 <=? hi)%Z | _ => false end.
Lemma chk_mag lo hi x : chk lo hi x = true -> mag lo hi x.
Proof.
  destruct x as [| | |s m e]; try discriminate. destruct s; [discriminate|]. unfold chk. rewrite !andb_true_iff, !Z.leb_le. intros [[V A] B].
  eapply mag_weaken; [apply mag_finite; auto|auto|auto].
Qed.

Lemma Ok_inj {A} (a b : A) : Ok a = Ok b -> a = b.
Proof. now intros [= ->]. Qed.
Section Seviri.
  Context (lib : libm).
  Notation N := (B64N lib).
  Lemma seviri_rows b d p l : dget b (@SEVIRI N) = Some d -> dget p d = Some l -> l = [] \/
    exists vc alpha beta, l = [vc; alpha; beta] /\ mag (-40) 30 vc /\ mag (-5) 5 alpha /\ mag (-10) 10 beta.
  Proof.
    assert (A : forallb (fun e => forallb (fun r => match snd r with [] => true | [vc; alpha; beta] => chk (-40) 30 vc && chk (-5) 5 alpha && chk (-10) 10 beta | _ => false end) (snd e)) (@SEVIRI N) = true)
      by (vm_compute; reflexivity).
    intros Hb Hp. rewrite forallb_forall in A. apply dget_Some_in in Hb. specialize (A _ Hb). cbn [snd] in A. rewrite forallb_forall in A.
    apply dget_Some_in in Hp. specialize (A _ Hp). cbn [snd] in A. destruct l as [|vc [|alpha [|beta [|? ?]]]]; try discriminate; auto.
    right. rewrite !andb_true_iff in A. destruct A as [[A1 A2] A3]. exists vc, alpha, beta. auto using chk_mag.
  Qed.

  Lemma coeffs_mag c vc alpha beta : @seviri_coeffs N c = Ok (vc, alpha, beta) -> mag (-40) 40 vc /\ mag (-5) 5 alpha /\ mag (-10) 10 beta.
  Proof.
    unfold seviri_coeffs. destruct (dget (sv_bandname c) (@SEVIRI N)) as [d|] eqn:E1; [|discriminate]. cbn [of_option bind].
    destruct (dget (sv_platform c) d) as [l|] eqn:E2; [|discriminate]. cbn [of_option bind].
    destruct (seviri_rows _ _ _ _ E1 E2) as [->|(v & a & b & -> & Mv & Ma & Mb)]; [discriminate|].
    cbn [idx nth_error of_option bind]. intros [= <- <- <-]. split; [|auto].
    assert (H : mag 6 7 (@nZ N 100)) by mag_const. destruct (mag_mul _ _ _ _ _ _ Mv H) as [K _]; [lia|lia|]. eapply mag_weaken; [exact K|lia|lia].
  Qed.
  Lemma sv_c1_mag : mag (-53) (-52) (@sv_c1 N).
  Proof. mag_const. Qed.
  Lemma sv_c2_mag : mag (-7) (-6) (@sv_c2 N).
  Proof. mag_const. Qed.
  Lemma Forall2_map_le {A} (P : A -> Prop) (R : A -> A -> Prop) (f : A -> b64) : (forall a b, P a -> P b -> R a b -> le_double (f a) (f b)) ->
    forall l l', Forall P l -> Forall P l' -> Forall2 R l l' -> Forall2 le_double (map f l) (map f l').
  Proof.
    intros H l l' F F' R2. induction R2 as [|a b l l' Hab R2 IH]; [constructor|]. inversion F; inversion F'; subst. cbn. constructor; auto.
  Qed.
  Lemma seviri_tb_mono c ts ts' rs rs' : monotone_exp (m_exp lib) -> Forall nn ts -> Forall nn ts' -> Forall2 le_double ts ts' ->
    @seviri_tb2radiance N c ts false true = Ok rs -> @seviri_tb2radiance N c ts' false true = Ok rs' -> Forall2 le_double rs rs'.
  Proof.
    intros EX F F' L. unfold seviri_tb2radiance. cbn [negb]. destruct (@seviri_coeffs N c) as [[[vc alpha] beta]|] eqn:E; [|discriminate].
    destruct (coeffs_mag c _ _ _ E) as (Mv & Ma & Mb). cbn [bind]. intros H1 H2. apply Ok_inj in H1, H2. rewrite <- H1, <- H2. clear H1 H2 rs rs'.
    apply (Forall2_map_le nn le_double); auto. clear ts ts' F F' L. intros t t' Nt Nt' L.
    destruct (mag_mul _ _ _ _ _ _ sv_c2_mag Mv) as [M2 _]; [lia|lia|].
    destruct (mag_mul _ _ _ _ _ _ sv_c1_mag (pow3_mag lib vc Mv)) as [M1 _]; [lia|lia|].
    change (nmul N (@sv_c1 N) (@npow N vc 3)) with (SFmul 53 1024 (@sv_c1 N) (@npow N vc 3)).
    change (nmul N (@sv_c2 N) vc) with (SFmul 53 1024 (@sv_c2 N) vc).
    set (a1 := SFmul 53 1024 (@sv_c1 N) _) in *. set (a2 := SFmul 53 1024 (@sv_c2 N) _) in *. clearbody a1 a2.
    pose proof (mag_pos _ _ _ M1) as P1. pose proof (mag_pos _ _ _ M2) as P2. pose proof (mag_pos _ _ _ Ma) as Pa. pose proof (mag_pos _ _ _ Mb) as Pb.
    destruct M1 as (N1 & F1 & _), M2 as (N2 & F2 & _), Ma as (Na & Fa & _), Mb as (Nb & Fb & _). destruct one_mag as (NO & FO & _).
    destruct (mul_mono alpha t t' Na Nt Nt' Fa Pa L) as (A1 & A2 & A3).
    destruct (add_mono _ _ _ _ A1 A2 Nb Nb A3 (le_refl _ Nb)) as (B1 & B2 & B3).
    destruct (div_anti a2 _ _ N2 B1 B2 F2 P2 B3) as (C1 & C2 & C3).
    destruct (exp_nn lib EX _ C1) as [X1 Y1]. destruct (exp_nn lib EX _ C2) as [X2 Y2].
    pose proof (exp_order _ EX _ _ (proj1 C2) (proj1 C1) C3) as X3.
    destruct (sub_mono (b64_ratio 1 1) _ _ NO X2 X1 FO Y2 X3) as (S1 & S2 & S3).
    destruct (div_anti a1 _ _ N1 S1 S2 F1 P1 S3) as (Q1 & Q2 & Q3). exact Q3.
  Qed.
  Lemma seviri_rad_mono c ts ts' rs rs' : monotone_log (m_log lib) -> Forall nn ts -> Forall nn ts' -> Forall2 le_double ts ts' ->
    @seviri_radiance2tb N c ts = Ok rs -> @seviri_radiance2tb N c ts' = Ok rs' -> Forall2 le_double rs rs'.
  Proof.
    intros LG F F' L. unfold seviri_radiance2tb. destruct (@seviri_coeffs N c) as [[[vc alpha] beta]|] eqn:E; [|discriminate].
    destruct (coeffs_mag c _ _ _ E) as (Mv & Ma & Mb). cbn [bind]. intros H1 H2. apply Ok_inj in H1, H2. rewrite <- H1, <- H2. clear H1 H2 rs rs'.
    apply (Forall2_map_le nn le_double); auto. clear ts ts' F F' L. intros t t' Nt Nt' L.
    destruct (mag_mul _ _ _ _ _ _ sv_c2_mag Mv) as [M2 _]; [lia|lia|].
    destruct (mag_mul _ _ _ _ _ _ sv_c1_mag (pow3_mag lib vc Mv)) as [M1 _]; [lia|lia|].
    destruct (mag_div _ _ _ _ _ _ Mb Ma) as [MQ _]; [lia|lia|].
    change (nmul N (@sv_c1 N) (@npow N vc 3)) with (SFmul 53 1024 (@sv_c1 N) (@npow N vc 3)).
    change (nmul N (@sv_c2 N) vc) with (SFmul 53 1024 (@sv_c2 N) vc). change (ndiv N beta alpha) with (SFdiv 53 1024 beta alpha).
    set (a1 := SFmul 53 1024 (@sv_c1 N) _) in *. set (a2 := SFmul 53 1024 (@sv_c2 N) _) in *. set (q := SFdiv 53 1024 beta alpha) in *. clearbody a1 a2 q.
    pose proof (mag_pos _ _ _ M1) as P1. pose proof (mag_pos _ _ _ M2) as P2. pose proof (mag_pos _ _ _ Ma) as Pa.
    destruct M1 as (N1 & F1 & _), M2 as (N2 & F2 & _), Ma as (Na & Fa & _), MQ as (Nq & Fq & _).
    destruct (div_anti a1 _ _ N1 Nt Nt' F1 P1 L) as (B1 & B2 & B3).
    destruct (log1_mono lib LG _ _ B2 B1 B3) as (C1 & C2 & C3).
    destruct (mul_mono alpha _ _ Na C1 C2 Fa Pa C3) as (D1 & D2 & D3).
    destruct (div_anti a2 _ _ N2 D1 D2 F2 P2 D3) as (E1 & E2 & E3).
    apply (sub_gen q _ _ Nq Fq E2 E1 E3).
  Qed.
End Seviri.

(** ** Whole arrays *)
Lemma nonnegative_nn x : nonnegative x -> nn x.
Proof. intros (V & L & Z). apply nn_sandwich; auto. Qed.
Lemma planck_monotone : forall lib wl waves ts ts', monotone_exp (m_exp lib) -> Forall (double_between (1 / 10 ^ 12) (10 ^ 12)) waves ->
  Forall (fun t => encodable t /\ le_double (b64_ratio 1 1000) t) ts -> Forall encodable ts' -> Forall2 le_double ts ts' ->
  Forall2 (Forall2 le_double) (@planck (B64N lib) waves ts wl) (@planck (B64N lib) waves ts' wl).
Proof.
  intros lib wl waves ts ts' EX W T T' L. rewrite !planck_rows. revert T T'. induction L as [|t t' ts ts' Ht L IH]; intros T T'; [constructor|].
  inversion T as [|? ? T1 T2]; inversion T' as [|? ? T1' T2']; subst. cbn [map]. constructor; [|apply IH; auto].
  clear - EX W T1 T1' Ht. induction W as [|w waves Hw W IH]; [constructor|]. cbn [map]. constructor; [|exact IH].
  apply (planck1_mono lib EX wl w t t'); auto. apply wave_mag; auto.
Qed.
Lemma inverse_monotone : forall lib w rs rs', monotone_log (m_log lib) -> double_between (1 / 10 ^ 12) (10 ^ 12) w ->
  Forall nonnegative rs -> Forall nonnegative rs' -> Forall2 le_double rs rs' -> exists ts ts',
  @blackbody_rad2temp (B64N lib) [NpScalar (w : B64N lib); NpArray (rs : list (B64N lib))] = Ok (NpArray ts) /\
  @blackbody_rad2temp (B64N lib) [NpScalar (w : B64N lib); NpArray (rs' : list (B64N lib))] = Ok (NpArray ts') /\ Forall2 le_double ts ts'.
Proof.
  intros lib w rs rs' LG W R R' L. do 2 eexists. split; [reflexivity|]. split; [reflexivity|].
  apply (Forall2_map_le nonnegative le_double); auto. intros a b A B AB. apply (rad2temp_mono lib LG); auto using nonnegative_nn. apply wave_mag; auto.
Qed.
Lemma wn_inverse_monotone : forall lib w rs rs', monotone_log (m_log lib) -> double_between (1 / 10 ^ 12) (10 ^ 12) w ->
  Forall nonnegative rs -> Forall nonnegative rs' -> Forall2 le_double rs rs' -> exists ts ts',
  @blackbody_wn_rad2temp (B64N lib) [NpScalar (w : B64N lib); NpArray (rs : list (B64N lib))] = Ok (NpArray ts) /\
  @blackbody_wn_rad2temp (B64N lib) [NpScalar (w : B64N lib); NpArray (rs' : list (B64N lib))] = Ok (NpArray ts') /\ Forall2 le_double ts ts'.
Proof.
  intros lib w rs rs' LG W R R' L. do 2 eexists. split; [reflexivity|]. split; [reflexivity|].
  apply (Forall2_map_le nonnegative le_double); auto. intros a b A B AB. apply (wn_rad2temp_mono lib LG); auto using nonnegative_nn. apply wave_mag; auto.
Qed.
Lemma seviri_monotone : forall lib (c : seviri) xs xs' ys ys', Forall nonnegative xs -> Forall nonnegative xs' -> Forall2 le_double xs xs' ->
  (monotone_exp (m_exp lib) -> @seviri_tb2radiance (B64N lib) c xs false true = Ok ys -> @seviri_tb2radiance (B64N lib) c xs' false true = Ok ys' -> Forall2 le_double ys ys') /\
  (monotone_log (m_log lib) -> @seviri_radiance2tb (B64N lib) c xs = Ok ys -> @seviri_radiance2tb (B64N lib) c xs' = Ok ys' -> Forall2 le_double ys ys').
Proof.
  intros lib c xs xs' ys ys' X X' L. assert (F : Forall nn xs) by (eapply Forall_impl; [|exact X]; apply nonnegative_nn).
  assert (F' : Forall nn xs') by (eapply Forall_impl; [|exact X']; apply nonnegative_nn). split; intros H H1 H2.
  - exact (seviri_tb_mono lib c xs xs' ys ys' H F F' L H1 H2).
  - exact (seviri_rad_mono lib c xs xs' ys ys' H F F' L H1 H2).
Qed.
Lemma tb2radiance_monotone : forall lib oob (c : converter (B64N lib)) norm ts ts' rads rads', monotone_exp (m_exp lib) -> accurate_exp (1 / 10 ^ 13) (m_exp lib) ->
  Forall (wave_like (String.eqb (cv_wavespace c) WAVE_NUMBER)) (cv_waves c) -> Sorted Rle (map to_R (cv_waves c)) ->
  Forall response_like (cv_response c) -> double_between (1 / 10 ^ 12) (10 ^ 12) (cv_rsr_integral c) ->
  Forall (double_between 1 (10 ^ 6)) ts -> Forall (double_between 1 (10 ^ 6)) ts' -> Forall2 le_double ts ts' ->
  tb2radiance oob c ts None norm = Ok rads -> tb2radiance oob c ts' None norm = Ok rads' -> Forall2 le_double rads rads'.
Proof.
  intros lib oob c norm ts ts' rads rads' EX AC W S R I T T' L H H'.
  eapply (band_mono lib EX AC c norm ts ts' rads rads'); eauto. repeat split; auto; apply I.
Qed.
Lemma lookup_monotone : forall lib oob load platform instrument band det wavespace (c : converter (B64N lib)) norm norm' lut t t',
  monotone_exp (m_exp lib) -> accurate_exp (1 / 10 ^ 13) (m_exp lib) ->
  RadTbConverter load platform instrument band det wavespace (nlit (B64N lib) 1 10) = Ok c -> make_tb2rad_lut c norm = Ok lut ->
  Forall (wave_like (String.eqb (cv_wavespace c) WAVE_NUMBER)) (cv_waves c) -> Sorted Rle (map to_R (cv_waves c)) ->
  Forall response_like (cv_response c) -> double_between (1 / 10 ^ 12) (10 ^ 12) (cv_rsr_integral c) ->
  double_between 0 (32767 / 10) t -> double_between 0 (32767 / 10) t' -> le_double t t' ->
  exists r r', tb2radiance oob c [t : B64N lib] (Some lut) norm' = Ok [r] /\ tb2radiance oob c [t' : B64N lib] (Some lut) norm' = Ok [r'] /\ le_double r r'.
Proof.
  intros lib oob load platform instrument band det wavespace c norm norm' lut t t' EX AC Hc Hl W S R I T T' L.
  eapply (lut_mono lib EX AC oob load platform instrument band det wavespace c norm norm' lut); eauto. repeat split; auto; apply I.
Qed.

(** the sensor of the Examples *)
Lemma mag_between a b lo hi x : mag a b x -> lo <= bpow radix2 a -> bpow radix2 b <= hi -> double_between lo hi x.
Proof. intros ((V & _) & F & H) A B. split; [split; auto|lra]. Qed.
Lemma chk_between a b lo hi x : chk a b x = true -> lo <= bpow radix2 a -> bpow radix2 b <= hi -> double_between lo hi x.
Proof. intros H. apply mag_between. now apply chk_mag. Qed.
Lemma case_converter lib : exists c lut,
  RadTbConverter (load64 lib) "NOAA-19" "avhrr-3" (BStr "b"%string) "det-1" WAVE_LENGTH (nlit (B64N lib) 1 10) = Ok c /\
  make_tb2rad_lut c true = Ok lut /\
  Forall (wave_like (String.eqb (cv_wavespace c) WAVE_NUMBER)) (cv_waves c) /\ Sorted Rle (map to_R (cv_waves c)) /\
  Forall response_like (cv_response c) /\ double_between (1 / 10 ^ 12) (10 ^ 12) (cv_rsr_integral c).
Proof.
  destruct (case64 lib) as (c & lut & Hc & Hl). exists c, lut. split; [auto|]. split; [auto|]. clear Hl lut.
  revert Hc. match goal with |- ?x = Ok c -> _ => let v := eval vm_compute in x in change x with v end. intros H. apply Ok_inj in H. subst c. cbn [cv_wavespace cv_waves cv_response cv_rsr_integral].
  change (String.eqb _ WAVE_NUMBER) with false. cbn [wave_like].
  split; [|split; [|split]].
  - repeat (apply Forall_cons; [apply (chk_between (-17) (-16)); [reflexivity|cbn; lra|cbn; lra]|]). apply Forall_nil.
  - cbn [map]. repeat apply Sorted_cons; repeat apply HdRel_cons; try apply Sorted_nil; try apply HdRel_nil.
    all: cbn [SF2R cond_Zopp]; unfold F2R; cbn [Fnum Fexp]; apply Rmult_le_compat_r; [apply bpow_ge_0|apply IZR_le; lia].
  - repeat (apply Forall_cons; [split; [apply (chk_between (-4) 1); [reflexivity|cbn; lra|cbn; lra]|discriminate]|]). apply Forall_nil.
  - apply (chk_between (-20) (-19)); [reflexivity|cbn; lra|cbn; lra].
Qed.
