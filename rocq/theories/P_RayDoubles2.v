(** The wavelength of the Rayleigh table in doubles (C111). *)
From Coq Require Import Reals Lra ZArith String List Bool Arith Lia SpecFloat.
From Flocq Require Import Core BinarySingleNaN.
From Verif Require Import Base NumSig B64 XR M_Tables M_Utils M_Rsr M_RadTb M_Nir M_Rayleigh S_B64 S_Nir S_Rayleigh S_RayDoubles
     P_Arr P_Nir P_Rayleigh P_B64 P_B64ops P_NirDoubles P_RayDoubles.
Import ListNotations.
Local Open Scope R_scope.

Definition reals (l : list b64) : list R := map to_R l.
Lemma np_lt_64 lib x y : is_double x -> is_double y -> @np_lt (B64N lib) x y = Rlt_bool (to_R x) (to_R y).
Proof.
  intros Dx Dy. unfold np_lt. change (nisnan (B64N lib)) with b64_nan. change (nltb (B64N lib)) with SFltb. rewrite (lt_R x y Dx Dy), (not_nan y Dy). now rewrite orb_false_r.
Qed.
Lemma Rlt_bools x y : Rlt_bool x y = Rltb x y.
Proof. unfold Rltb. destruct (Rlt_bool_spec x y), (Rlt_dec x y); auto; lra. Qed.
Lemma bisect_64 lib (l : list b64) v : (forall x, In x l -> is_double x) -> is_double v -> forall fuel lo hi,
  @bisect (B64N lib) fuel l v lo hi = @bisect XRN fuel (map Fin (reals l)) (Fin (to_R v)) lo hi.
Proof.
  intros Dl Dv. induction fuel as [|fuel IH]; intros lo hi; [reflexivity|]. cbn [bisect]. destruct (Nat.ltb lo hi); [|reflexivity]. cbv zeta.
  assert (N : nth_error (map Fin (reals l)) (lo + Nat.div2 (hi - lo)) = option_map Fin (option_map to_R (nth_error l (lo + Nat.div2 (hi - lo))))) by (unfold reals; now rewrite !nth_error_map).
  change (num XRN) with XR. rewrite N. change (num (B64N lib)) with b64. destruct (nth_error l (lo + Nat.div2 (hi - lo))) as [x|] eqn:E; cbn [option_map]; [|reflexivity].
  rewrite np_lt_fin, np_lt_64, Rlt_bools by (auto; apply Dl; eapply nth_error_In; eauto). rewrite !IH. reflexivity.
Qed.
Lemma search_64 lib (l : list b64) v : (forall x, In x l -> is_double x) -> is_double v -> @searchsorted (B64N lib) l v = @searchsorted XRN (map Fin (reals l)) (Fin (to_R v)).
Proof. intros Dl Dv. unfold searchsorted. unfold reals. rewrite !map_length. now apply bisect_64. Qed.

Lemma min_64 lib x y : is_double x -> is_double y -> @nmin (B64N lib) x y = (if Rlt_bool (to_R y) (to_R x) then y else x) /\ @nmax (B64N lib) x y = (if Rlt_bool (to_R x) (to_R y) then y else x).
Proof.
  intros Dx Dy. unfold nmin, nmax. change (nisnan (B64N lib)) with b64_nan. change (nltb (B64N lib)) with SFltb. rewrite (not_nan x Dx), (not_nan y Dy), (lt_R x y Dx Dy), (lt_R y x Dy Dx). auto.
Qed.
Lemma amin_64 lib (l : list b64) : forall x, is_double x -> (forall y, In y l -> is_double y) ->
  exists m, fold_left (@nmin (B64N lib)) l x = m /\ is_double m /\ forall y, y = x \/ In y l -> to_R m <= to_R y.
Proof.
  induction l as [|a l IH]; intros x Dx Dl; cbn [fold_left].
  - exists x. split; [reflexivity|]. split; [exact Dx|]. intros y [->|[]]. lra.
  - assert (Da : is_double a) by (apply Dl; now left). destruct (min_64 lib x a Dx Da) as [E _].
    destruct (IH (@nmin (B64N lib) x a)) as (m & Em & Dm & Lm).
    + rewrite E. destruct (Rlt_bool _ _); auto.
    + intros y Hy. apply Dl. now right.
    + exists m. split; [exact Em|]. split; [exact Dm|]. pose proof (Lm _ (or_introl eq_refl)) as L0. rewrite E in L0.
      intros y [->|[<-|Hy]]; [| |apply Lm; now right]; destruct (Rlt_bool_spec (to_R a) (to_R x)); lra.
Qed.
Lemma amax_64 lib (l : list b64) : forall x, is_double x -> (forall y, In y l -> is_double y) ->
  exists m, fold_left (@nmax (B64N lib)) l x = m /\ is_double m /\ forall y, y = x \/ In y l -> to_R y <= to_R m.
Proof.
  induction l as [|a l IH]; intros x Dx Dl; cbn [fold_left].
  - exists x. split; [reflexivity|]. split; [exact Dx|]. intros y [->|[]]. lra.
  - assert (Da : is_double a) by (apply Dl; now left). destruct (min_64 lib x a Dx Da) as [_ E].
    destruct (IH (@nmax (B64N lib) x a)) as (m & Em & Dm & Lm).
    + rewrite E. destruct (Rlt_bool _ _); auto.
    + intros y Hy. apply Dl. now right.
    + exists m. split; [exact Em|]. split; [exact Dm|]. pose proof (Lm _ (or_introl eq_refl)) as L0. rewrite E in L0.
      intros y [->|[<-|Hy]]; [| |apply Lm; now right]; destruct (Rlt_bool_spec (to_R x) (to_R a)); lra.
Qed.

Lemma bounds_64 lib (l : list b64) a c w : (forall y, In y l -> is_double y) -> is_double w -> In a l -> to_R a < to_R w -> In c l -> to_R w < to_R c ->
  exists mn mx : B64N lib, @amin (B64N lib) l = Ok mn /\ @amax (B64N lib) l = Ok mx /\ nltb (B64N lib) mn w = true /\ nltb (B64N lib) w mx = true.
Proof.
  intros Dl Dw Ia La Ic Lc. destruct l as [|h t]; [destruct Ia|].
  destruct (amin_64 lib t h) as (mn & Em & Dm & Lm); [apply Dl; now left|intros y Hy; apply Dl; now right|].
  destruct (amax_64 lib t h) as (mx & Ex & Dx & Lx); [apply Dl; now left|intros y Hy; apply Dl; now right|].
  exists mn, mx. split; [unfold amin; f_equal; exact Em|]. split; [unfold amax; f_equal; exact Ex|]. change (nltb (B64N lib)) with SFltb. rewrite (lt_R mn w Dm Dw), (lt_R w mx Dw Dx).
  assert (Q : to_R mn < to_R w < to_R mx). { split; [eapply Rle_lt_trans; [apply (Lm a)|exact La]|eapply Rlt_le_trans; [exact Lc|apply (Lx c)]]; [destruct Ia as [<-|Ia]|destruct Ic as [<-|Ic]]; auto. }
  rewrite !Rlt_bool_true by lra. auto.
Qed.

(** ** Errors *)
Lemma eta_small : 0 < eta /\ 3 * eta <= / 10 ^ 300 /\ 1200 * eta <= 1 / 100 * u.
Proof.
  pose proof eta_tiny' as [E0 E1]. pose proof tiny_val as [T0 T1]. split; [exact E0|]. split.
  - unfold eta. change (-1075)%Z with (- (1075))%Z. rewrite bpow_opp. apply Rmult_le_reg_l with (/ 3); [lra|]. rewrite <- Rmult_assoc, Rinv_l, Rmult_1_l by lra.
    rewrite <- Rinv_mult. apply Rinv_le; [apply Rmult_lt_0_compat; [lra|apply pow_lt; lra]|].
    rewrite pow_IZR, <- IZR_Zpower by lia. rewrite <- mult_IZR. apply IZR_le. vm_compute. discriminate.
  - unfold u. assert (tiny / 10 ^ 20 <= / 10 ^ 40 / 10 ^ 20) by (apply Rmult_le_compat_r; lra). lra.
Qed.
Lemma ratio_err a b : 0 <= a <= b -> 1 / 1000 <= b -> let F := rnd64 (rnd64 a / rnd64 b) in 0 <= F <= 1 /\ Rabs (F - a / b) <= 43 / 10 * u.
Proof.
  intros Ha Hb F. pose proof u_val as [U0 U1]. pose proof eta_small as (E0 & _ & E2). pose proof (diff_pos b Hb) as Db.
  assert (Q0 : 0 <= a / b <= 1) by (split; [apply pos_quot; lra|apply Rmult_le_reg_r with b; [lra|]; unfold Rdiv; rewrite Rmult_assoc, Rinv_l; lra]).
  assert (Q1 : 0 <= rnd64 a / rnd64 b <= 1).
  { assert (0 <= rnd64 a) by (apply rnd_nonneg; lra). assert (rnd64 a <= rnd64 b) by (apply rnd_le; lra). split; [apply pos_quot; lra|].
    apply Rmult_le_reg_r with (rnd64 b); [lra|]; unfold Rdiv; rewrite Rmult_assoc, Rinv_l; lra. }
  split; [unfold F; split; [apply rnd_nonneg; lra|rewrite <- rnd_1; apply rnd_le; lra]|].
  assert (HA : Rabs (rnd64 a - a) <= u * a + eta) by (pose proof (rnd_err a) as R; rewrite (Rabs_pos_eq a) in R by lra; exact R).
  assert (HB : Rabs (rnd64 b - b) <= u * b + eta) by (pose proof (rnd_err b) as R; rewrite (Rabs_pos_eq b) in R by lra; exact R).
  pose proof (quot_err a b (rnd64 a) (rnd64 b) ltac:(lra) Hb HA HB) as Q. pose proof (rnd_err (rnd64 a / rnd64 b)) as R. fold F in R. rewrite (Rabs_pos_eq (rnd64 a / rnd64 b)) in R by lra.
  assert (u * (rnd64 a / rnd64 b) <= u * 1) by (apply Rmult_le_compat_l; lra). assert (u * (a / b) <= u * 1) by (apply Rmult_le_compat_l; lra).
  apply Rabs_le_inv in Q, R. apply Rabs_le. lra.
Qed.
(** a weighted sum *)
Definition mix64 (F x y : R) : R := rnd64 (rnd64 (F * x) + rnd64 (rnd64 (1 - F) * y)).
Lemma mix_err F f x y : 0 <= F <= 1 -> 0 <= f <= 1 -> Rabs (F - f) <= 43 / 10 * u -> Rabs (rnd64 (F * x)) <= Rabs x -> Rabs (rnd64 (rnd64 (1 - F) * y)) <= Rabs y ->
  Rabs (mix64 F x y - (f * x + (1 - f) * y)) <= 1 / 10 ^ 15 * (Rabs x + Rabs y) + / 10 ^ 300.
Proof.
  intros HF Hf HE HP HQ. unfold mix64. pose proof u_val as [U0 U1]. pose proof eta_small as (E0 & E1 & E2). pose proof (Rabs_pos x) as Px. pose proof (Rabs_pos y) as Py.
  assert (G0 : 0 <= rnd64 (1 - F) <= 1) by (split; [apply rnd_nonneg; lra|apply Rle_trans with (rnd64 1); [apply rnd_le; lra|rewrite rnd_1; lra]]).
  pose proof (rnd_err (1 - F)) as R1. rewrite (Rabs_pos_eq (1 - F)) in R1 by lra. assert (u * (1 - F) <= u * 1) by (apply Rmult_le_compat_l; lra).
  set (G := rnd64 (1 - F)) in *. assert (HG : Rabs (G - (1 - f)) <= 54 / 10 * u) by (apply Rabs_le_inv in R1, HE; apply Rabs_le; lra).
  pose proof (rnd_err (F * x)) as R2. pose proof (rnd_err (G * y)) as R3. set (P := rnd64 (F * x)) in *. set (Q := rnd64 (G * y)) in *. pose proof (rnd_err (P + Q)) as R4.
  rewrite Rabs_mult, (Rabs_pos_eq F) in R2 by lra. rewrite Rabs_mult, (Rabs_pos_eq G) in R3 by lra.
  assert (u * (F * Rabs x) <= u * Rabs x) by (apply Rmult_le_compat_l; [lra|]; rewrite <- (Rmult_1_l (Rabs x)) at 2; apply Rmult_le_compat_r; lra).
  assert (u * (G * Rabs y) <= u * Rabs y) by (apply Rmult_le_compat_l; [lra|]; rewrite <- (Rmult_1_l (Rabs y)) at 2; apply Rmult_le_compat_r; lra).
  assert (u * Rabs (P + Q) <= u * (Rabs x + Rabs y)) by (apply Rmult_le_compat_l; [lra|]; eapply Rle_trans; [apply Rabs_triang|]; lra).
  assert (D1 : Rabs ((F - f) * x) <= 43 / 10 * u * Rabs x) by (rewrite Rabs_mult; apply Rmult_le_compat_r; lra).
  assert (D2 : Rabs ((G - (1 - f)) * y) <= 54 / 10 * u * Rabs y) by (rewrite Rabs_mult; apply Rmult_le_compat_r; lra).
  assert (0 <= u * Rabs x) by (apply Rmult_le_pos; lra). assert (0 <= u * Rabs y) by (apply Rmult_le_pos; lra).
  assert (u * Rabs x <= 12 / 10 ^ 17 * Rabs x) by (apply Rmult_le_compat_r; lra). assert (u * Rabs y <= 12 / 10 ^ 17 * Rabs y) by (apply Rmult_le_compat_r; lra).
  replace (rnd64 (P + Q) - (f * x + (1 - f) * y)) with ((rnd64 (P + Q) - (P + Q)) + (P - F * x) + (Q - G * y) + (F - f) * x + (G - (1 - f)) * y) by ring.
  eapply Rle_trans; [apply Rabs_triang|]. eapply Rle_trans; [apply Rplus_le_compat_r, Rabs_triang|]. eapply Rle_trans; [apply Rplus_le_compat_r, Rplus_le_compat_r, Rabs_triang|].
  eapply Rle_trans; [apply Rplus_le_compat_r, Rplus_le_compat_r, Rplus_le_compat_r, Rabs_triang|]. lra.
Qed.

(** ** The table at a wavelength *)
Lemma weighted lib (F x y : b64) : double_between 0 1 F -> double_between (- 10 ^ 6) (10 ^ 6) x -> double_between (- 10 ^ 6) (10 ^ 6) y ->
  let b := @nadd (B64N lib) (@nmul (B64N lib) F x) (@nmul (B64N lib) (@nsub (B64N lib) (nlit (B64N lib) 1 1) F) y) in
  is_double b /\ to_R b = mix64 (to_R F) (to_R x) (to_R y) /\ Rabs (rnd64 (to_R F * to_R x)) <= Rabs (to_R x) /\ Rabs (rnd64 (rnd64 (1 - to_R F) * to_R y)) <= Rabs (to_R y).
Proof.
  intros (DF & RF) (Dx & Rx) (Dy & Ry). change (nlit (B64N lib) 1 1) with (b64_ratio 1 1). destruct one_double as [D1 R1].
  assert (B : 10 ^ 300 = 10 ^ 20 * 10 ^ 280) by (rewrite <- pow_add; reflexivity). assert (B' : 1 <= 10 ^ 280) by (apply pow_R1_Rle; lra).
  destruct (v_sub _ F D1 DF) as [DG EG]; [rewrite R1; apply Rabs_le; lra|]. rewrite R1 in EG.
  assert (G0 : 0 <= rnd64 (1 - to_R F) <= 1) by (split; [apply rnd_nonneg; lra|apply Rle_trans with (rnd64 1); [apply rnd_le; lra|rewrite rnd_1; lra]]).
  assert (BP : Rabs (to_R F * to_R x) <= Rabs (to_R x)) by (rewrite Rabs_mult, (Rabs_pos_eq (to_R F)) by lra; pose proof (Rabs_pos (to_R x)); nra).
  assert (BQ : Rabs (rnd64 (1 - to_R F) * to_R y) <= Rabs (to_R y)) by (rewrite Rabs_mult, (Rabs_pos_eq (rnd64 _)) by lra; pose proof (Rabs_pos (to_R y)); nra).
  pose proof (rnd_within x _ Dx BP) as WP. pose proof (rnd_within y _ Dy BQ) as WQ.
  assert (Ax : Rabs (to_R x) <= 10 ^ 6) by (apply Rabs_le; lra). assert (Ay : Rabs (to_R y) <= 10 ^ 6) by (apply Rabs_le; lra).
  destruct (v_mul F x DF Dx) as [DP EP]; [lra|]. destruct (v_mul _ y DG Dy) as [DQ EQ]; [rewrite EG; lra|]. rewrite EG in EQ.
  destruct (v_add _ _ DP DQ) as [DS ES]; [rewrite EP, EQ; eapply Rle_trans; [apply Rabs_triang|]; lra|]. rewrite EP, EQ in ES.
  intros b. split; [exact DS|]. split; [exact ES|]. split; assumption.
Qed.

Lemma nth_zip {A B C} (f : A -> B -> C) : forall l m n x y, nth_error l n = Some x -> nth_error m n = Some y -> nth_error (zip_with f l m) n = Some (f x y).
Proof.
  induction l as [|a l IH]; intros [|b m] [|n] x y; cbn; try discriminate.
  - intros [= <-] [= <-]. reflexivity.
  - apply IH.
Qed.
Lemma zip_len {A B C} (f : A -> B -> C) : forall l m, List.length l = List.length m -> List.length (zip_with f l m) = List.length l.
Proof. induction l as [|a l IH]; intros [|b m]; cbn; try discriminate; auto. intros [= E]. f_equal. now apply IH. Qed.

Lemma reals_nth l i x : nth_error (reals l) i = Some x -> exists x', nth_error l i = Some x' /\ x = to_R x'.
Proof. revert i. induction l as [|a l IH]; intros [|i]; cbn [reals map nth_error]; try discriminate; [intros E; exists a; split; [reflexivity|congruence]|apply IH]. Qed.
Lemma reals_some l i x : nth_error l i = Some x -> nth_error (reals l) i = Some (to_R x).
Proof. revert i. induction l as [|a l IH]; intros [|i]; cbn [reals map nth_error]; try discriminate; [congruence|apply IH]. Qed.
Lemma blend64 : forall lib (lut : raylut (B64N lib)) n w, table64 lut n -> double_between 0 (10 ^ 6) w -> inside64 lut w ->
  exists i w1 w2 r1 r2 B, wavelength_adjusted_lut (Some lut) (w : B64N lib) = Ok B /\ List.length B = n /\
    nth_error (rl_wavelengths lut) i = Some (w1 : B64N lib) /\ nth_error (rl_wavelengths lut) (S i) = Some (w2 : B64N lib) /\ to_R w1 < to_R w <= to_R w2 /\
    nth_error (rl_refl lut) i = Some r1 /\ nth_error (rl_refl lut) (S i) = Some r2 /\
    forall m x y, nth_error r1 m = Some (x : B64N lib) -> nth_error r2 m = Some (y : B64N lib) ->
    exists b : b64, nth_error B m = Some (b : B64N lib) /\ is_double b /\
      Rabs (to_R b - between_nodes (to_R w1) (to_R w2) (to_R w) (to_R x) (to_R y)) <= 1 / 10 ^ 15 * (Rabs (to_R x) + Rabs (to_R y)) + / 10 ^ 300 /\
      (to_R w = to_R w2 -> to_R b = to_R y) /\ (0 <= to_R x -> 0 <= to_R y -> 0 <= to_R b).
Proof.
  intros lib lut n w T (Dw & Rw) [(a & Ia & La) (c & Ic & Lc)]. set (ws := rl_wavelengths lut : list b64) in *.
  assert (Dws : forall x, In x ws -> is_double x) by (intros x Hx; apply (t_wave _ _ T); exact Hx).
  assert (Inc : increasing (reals ws)).
  { intros i j x y L Hx Hy. apply reals_nth in Hx as (x' & X & ->). apply reals_nth in Hy as (y' & Y & ->). pose proof (t_inc _ _ T i j x' y' L X Y). lra. }
  assert (Ins : inside (reals ws) (to_R w)) by (split; [exists (to_R a)|exists (to_R c)]; split; auto; unfold reals; now apply in_map).
  destruct (searchsorted_spec (reals ws) (to_R w) Inc) as (HR & HA & HB). rewrite <- (search_64 lib ws w Dws Dw) in HR, HA, HB.
  remember (@searchsorted (B64N lib) ws w) as r eqn:Rdef. symmetry in Rdef.
  assert (N : forall i x, nth_error ws i = Some x -> nth_error (reals ws) i = Some (to_R x)) by (intros i x E; now apply reals_some).
  destruct (In_nth_error _ _ Ia) as [ia Ea]. destruct (In_nth_error _ _ Ic) as [ib Eb].
  assert (H0 : (ia < r)%nat) by (destruct (Nat.lt_ge_cases ia r) as [|H]; [auto|]; pose proof (HB ia _ H (N _ _ Ea)); lra).
  assert (H1 : (r <= ib)%nat) by (destruct (Nat.lt_ge_cases ib r) as [H|]; [|auto]; pose proof (HA ib _ H (N _ _ Eb)); lra).
  assert (H2 : (ib < List.length ws)%nat) by (apply nth_error_Some; change (num (B64N lib)) with b64 in *; congruence).
  destruct r as [|i]; [lia|].
  destruct (nth_error ws i) as [w1|] eqn:E1; [|apply nth_error_None in E1; lia].
  destruct (nth_error ws (S i)) as [w2|] eqn:E2; [|apply nth_error_None in E2; lia].
  pose proof (HA i _ ltac:(lia) (N _ _ E1)) as L1. pose proof (HB (S i) _ ltac:(lia) (N _ _ E2)) as L2.
  pose proof (t_inc _ _ T i (S i) w1 w2 ltac:(lia) E1 E2) as Gap.
  destruct (t_wave _ _ T w1 (nth_error_In _ _ E1)) as (D1 & R1). destruct (t_wave _ _ T w2 (nth_error_In _ _ E2)) as (D2 & R2).
  pose proof (t_rows _ _ T) as TR. fold ws in TR.
  destruct (nth_error (rl_refl lut) i) as [r1|] eqn:V1; [|apply nth_error_None in V1; change (num (B64N lib)) with b64 in *; lia].
  destruct (nth_error (rl_refl lut) (S i)) as [r2|] eqn:V2; [|apply nth_error_None in V2; change (num (B64N lib)) with b64 in *; lia].
  pose proof (t_size _ _ T r1 (nth_error_In _ _ V1)) as S1. pose proof (t_size _ _ T r2 (nth_error_In _ _ V2)) as S2.
  (* the factor *)
  assert (B : 10 ^ 300 = 10 ^ 20 * 10 ^ 280) by (rewrite <- pow_add; reflexivity). assert (B' : 1 <= 10 ^ 280) by (apply pow_R1_Rle; lra).
  destruct (v_sub w2 w D2 Dw) as [DA EA]; [apply Rabs_le; lra|]. destruct (v_sub w2 w1 D2 D1) as [DB EB]; [apply Rabs_le; lra|].
  destruct (ratio_err (to_R w2 - to_R w) (to_R w2 - to_R w1)) as [F0 F1]; [lra|lra|]. pose proof (diff_pos (to_R w2 - to_R w1) ltac:(lra)) as Db.
  assert (Q1 : 0 <= rnd64 (to_R w2 - to_R w) / rnd64 (to_R w2 - to_R w1) <= 1).
  { assert (0 <= rnd64 (to_R w2 - to_R w)) by (apply rnd_nonneg; lra). assert (rnd64 (to_R w2 - to_R w) <= rnd64 (to_R w2 - to_R w1)) by (apply rnd_le; lra). split; [apply pos_quot; lra|].
    apply Rmult_le_reg_r with (rnd64 (to_R w2 - to_R w1)); [lra|]; unfold Rdiv; rewrite Rmult_assoc, Rinv_l; lra. }
  destruct (v_div _ _ DA DB) as [DF EF]; [rewrite EB; lra|rewrite EA, EB, Rabs_pos_eq; lra|]. rewrite EA, EB in EF. rewrite <- EF in F0, F1.
  set (F := SFdiv 53 1024 (SFsub 53 1024 w2 w) (SFsub 53 1024 w2 w1)) in *.
  exists i, w1, w2, r1, r2, (zip_with (fun x y => @nadd (B64N lib) (@nmul (B64N lib) (F : B64N lib) x) (@nmul (B64N lib) (@nsub (B64N lib) (nlit (B64N lib) 1 1) (F : B64N lib)) y)) r1 r2).
  split.
  { unfold wavelength_adjusted_lut. fold ws. destruct (bounds_64 lib ws a c w Dws Dw Ia La Ic Lc) as (mn & mx & Em & Ex & Lm & Lx). rewrite Em, Ex. cbn [bind]. rewrite Lm, Lx. cbn [andb negb].
    unfold get_wavelength_index_and_factor. cbv zeta. rewrite Rdef. change (num (B64N lib)) with b64 in *.
    unfold pyidx. destruct (Z.ltb_spec (Z.of_nat (S i) - 1) 0); [lia|]. unfold idx. replace (Z.to_nat (Z.of_nat (S i) - 1)) with i by lia.
    rewrite E1, E2. cbn [of_option bind]. destruct (Z.ltb_spec (Z.of_nat (S i) - 1) 0); [lia|]. replace (Z.to_nat (Z.of_nat (S i) - 1)) with i by lia.
    rewrite V1, V2. cbn [of_option bind]. rewrite S1, S2, Nat.eqb_refl. reflexivity. }
  split; [rewrite zip_len; congruence|]. split; [exact E1|]. split; [exact E2|]. split; [lra|]. split; [exact V1|]. split; [exact V2|].
  intros m x y X Y. eexists. split; [exact (nth_zip _ _ _ _ _ _ X Y)|].
  destruct (weighted lib F x y) as (Db' & Eb' & WP & WQ); [split; [exact DF|exact F0]|exact (t_vals _ _ T r1 x (nth_error_In _ _ V1) (nth_error_In _ _ X))|exact (t_vals _ _ T r2 y (nth_error_In _ _ V2) (nth_error_In _ _ Y))|].
  split; [exact Db'|]. rewrite Eb'. split; [|split].
  - pose proof (mix_err (to_R F) ((to_R w2 - to_R w) / (to_R w2 - to_R w1)) (to_R x) (to_R y) F0) as M.
    replace (between_nodes (to_R w1) (to_R w2) (to_R w) (to_R x) (to_R y)) with ((to_R w2 - to_R w) / (to_R w2 - to_R w1) * to_R x + (1 - (to_R w2 - to_R w) / (to_R w2 - to_R w1)) * to_R y) by (unfold between_nodes; field; lra).
    apply M; auto. split; [apply pos_quot; lra|]. apply Rmult_le_reg_r with (to_R w2 - to_R w1); [lra|]; unfold Rdiv; rewrite Rmult_assoc, Rinv_l; lra.
  - intros E. assert (Z0 : to_R F = 0). { rewrite EF, E. replace (to_R w2 - to_R w2) with 0 by lra. rewrite rnd_0. unfold Rdiv. rewrite Rmult_0_l. apply rnd_0. }
    unfold mix64. rewrite Z0, Rmult_0_l, rnd_0, Rplus_0_l. replace (1 - 0) with 1 by lra. rewrite rnd_1, Rmult_1_l.
    destruct (t_vals _ _ T r2 y (nth_error_In _ _ V2) (nth_error_In _ _ Y)) as ((Vy & Fy) & _). rewrite !(rnd_dbl y) by assumption. reflexivity.
  - intros P1 P2. unfold mix64. apply rnd_nonneg. apply Rplus_le_le_0_compat; apply rnd_nonneg, Rmult_le_pos; try lra. apply rnd_nonneg. lra.
Qed.
