(** How far Planck's function and its inverses in doubles are from the exact
    values: a calculus of multiplicative error factors. *)
From Coq Require Import ZArith Reals Lra Lia List Bool String SpecFloat.
From Flocq Require Import Core Relative BinarySingleNaN.
From Verif Require Import Base NumSig B64 M_Blackbody S_B64 S_Planck S_RadTb P_B64 P_B64ops P_B64mono P_B64planck.
Import ListNotations.
Local Open Scope R_scope.

(** ** Factors *)
Definition close (q x r : R) : Prop := 0 < r /\ r <= x * q /\ x <= r * q.
Definition v : R := 1 + / 4503599627370496.
Lemma v_ge : 1 <= v.
Proof. unfold v. lra. Qed.
Lemma vpow_ge k : 1 <= v ^ k.
Proof. apply pow_R1_Rle, v_ge. Qed.
Lemma close_pos q x r : 1 <= q -> close q x r -> 0 < x.
Proof. intros Q (A & B & C). destruct (Rle_or_lt x 0) as [D|]; auto. assert (x * q <= 0) by nra. lra. Qed.
Lemma close_refl q r : 1 <= q -> 0 < r -> close q r r.
Proof. intros Q R. repeat split; auto; nra. Qed.
Lemma close_weaken p q x r : 1 <= p -> p <= q -> close p x r -> close q x r.
Proof. intros P Q H. pose proof (close_pos _ _ _ P H). destruct H as (A & B & C). repeat split; auto; nra. Qed.
Lemma close_sym q x r : 1 <= q -> close q x r -> close q r x.
Proof. intros Q H. pose proof (close_pos _ _ _ Q H). destruct H as (A & B & C). repeat split; auto. Qed.
Lemma close_trans p q x y r : 1 <= p -> 1 <= q -> close p x y -> close q y r -> close (p * q) x r.
Proof.
  intros P Q X Y. pose proof (close_pos _ _ _ P X). destruct X as (A & B & C), Y as (D & E & F).
  split; [auto|]. split.
  - eapply Rle_trans; [exact E|]. replace (x * (p * q)) with (x * p * q) by ring. apply Rmult_le_compat_r; lra.
  - eapply Rle_trans; [exact C|]. replace (r * (p * q)) with (r * q * p) by ring. apply Rmult_le_compat_r; lra.
Qed.
Lemma close_mul p q x y r s : 1 <= p -> 1 <= q -> close p x r -> close q y s -> close (p * q) (x * y) (r * s).
Proof.
  intros P Q X Y. pose proof (close_pos _ _ _ P X). pose proof (close_pos _ _ _ Q Y). destruct X as (A & B & C), Y as (D & E & F).
  split; [nra|]. split.
  - replace (x * y * (p * q)) with (x * p * (y * q)) by ring. apply Rmult_le_compat; lra.
  - replace (r * s * (p * q)) with (r * p * (s * q)) by ring. apply Rmult_le_compat; lra.
Qed.
Lemma close_inv q x r : 1 <= q -> close q x r -> close q (/ x) (/ r).
Proof.
  intros Q X. pose proof (close_pos _ _ _ Q X). destruct X as (A & B & C). split; [apply Rinv_0_lt_compat; auto|]. split.
  - apply Rmult_le_reg_l with (x * r); [nra|]. replace (x * r * / r) with x by (field; lra). replace (x * r * (/ x * q)) with (r * q) by (field; lra). lra.
  - apply Rmult_le_reg_l with (x * r); [nra|]. replace (x * r * / x) with r by (field; lra). replace (x * r * (/ r * q)) with (x * q) by (field; lra). lra.
Qed.
Lemma close_div p q x y r s : 1 <= p -> 1 <= q -> close p x r -> close q y s -> close (p * q) (x / y) (r / s).
Proof. intros P Q X Y. apply close_mul; auto. apply close_inv; auto. Qed.
Lemma close_add q x y r s : 1 <= q -> close q x r -> close q y s -> close q (x + y) (r + s).
Proof. intros Q (A & B & C) (D & E & F). repeat split; [lra|nra|nra]. Qed.
Lemma close_abs e x r : 0 <= e -> close (1 + e) x r -> Rabs (x - r) <= e * r.
Proof. intros E H. pose proof (close_pos (1 + e) x r ltac:(lra) H). destruct H as (A & B & C). apply Rabs_le. split; nra. Qed.
Lemma close_of_abs e x r : 0 < r -> 0 <= e <= / 2 -> Rabs (x - r) <= e * r -> close (1 + 2 * e) x r.
Proof.
  intros R E H. apply Rabs_le_inv in H. repeat split; [auto| |nra].
  assert (K : r * (1 - e) * (1 + 2 * e) <= x * (1 + 2 * e)) by (apply Rmult_le_compat_r; lra). nra.
Qed.
Lemma close_rnd x : bpow radix2 (-1022) <= x -> close v (rnd64 x) x.
Proof.
  intros H. pose proof (bpow_gt_0 radix2 (-1022)). assert (X : 0 < x) by lra.
  pose proof (relative_error_N_FLT radix2 (-1074) 53 ltac:(lia) (fun z => negb (Z.even z)) x) as E.
  change (-1074 + 53 - 1)%Z with (-1022)%Z in E. rewrite (Rabs_right x) in E by lra. specialize (E H).
  change (round radix2 (FLT_exp (-1074) 53) (Znearest (fun z => negb (Z.even z))) x) with (rnd64 x) in E.
  change (bpow radix2 (-53 + 1)) with (/ 4503599627370496) in E.
  apply (close_weaken (1 + 2 * (/ 2 * / 4503599627370496))); [lra|unfold v; lra|]. apply close_of_abs; [auto|lra|exact E].
Qed.

(** ** Rounded operations on magnitudes *)
Definition near (a b : Z) (q : R) (x : b64) (r : R) : Prop := mag a b x /\ 1 <= q /\ close q (to_R x) r.
Lemma mag_normal a b x : mag a b x -> (-1022 <= a)%Z -> bpow radix2 (-1022) <= to_R x.
Proof. intros (_ & _ & H) A. eapply Rle_trans; [apply bpow_le, A|apply H]. Qed.
Lemma near_step a b q x r y : mag a b x -> to_R x = rnd64 y -> bpow radix2 (-1022) <= y -> 1 <= q -> close q y r -> near a b (q * v) x r.
Proof.
  intros M E L Q C. pose proof v_ge. split; [auto|]. split; [nra|]. rewrite E. rewrite Rmult_comm. eapply close_trans; eauto. now apply close_rnd.
Qed.
Lemma near_mul a b c d p q x y r s : near a b p x r -> near c d q y s -> (-1022 <= a + c)%Z -> (-1022 <= b + d < 1024)%Z ->
  near (a + c) (b + d) (p * q * v) (SFmul 53 1024 x y) (r * s).
Proof.
  intros (X & P & CX) (Y & Q & CY) A B. destruct (mag_mul _ _ _ _ _ _ X Y) as [M E]; [lia|lia|].
  eapply near_step; eauto; [|nra|now apply close_mul].
  destruct X as (_ & _ & X), Y as (_ & _ & Y). pose proof (bpow_ge_0 radix2 a). pose proof (bpow_ge_0 radix2 c).
  eapply Rle_trans; [apply bpow_le, A|]. rewrite bpow_plus. apply Rmult_le_compat; lra.
Qed.
Lemma near_div a b c d p q x y r s : near a b p x r -> near c d q y s -> (-1022 <= a - d)%Z -> (-1022 <= b - c < 1024)%Z ->
  near (a - d) (b - c) (p * q * v) (SFdiv 53 1024 x y) (r / s).
Proof.
  intros (X & P & CX) (Y & Q & CY) A B. destruct (mag_div _ _ _ _ _ _ X Y) as [M E]; [lia|lia|].
  eapply near_step; eauto; [|nra|now apply close_div].
  pose proof (mag_pos _ _ _ Y). destruct X as (_ & _ & X), Y as (_ & _ & Y). pose proof (bpow_ge_0 radix2 a).
  eapply Rle_trans; [apply bpow_le, A|]. unfold Zminus. rewrite bpow_plus, bpow_opp. unfold Rdiv. apply Rmult_le_compat; try lra.
  - left. apply Rinv_0_lt_compat, bpow_gt_0.
  - apply Rinv_le_contravar; lra.
Qed.
Lemma near_add a b q x y r s : near a b q x r -> near a b q y s -> (-1022 <= a)%Z -> (-1022 <= b + 1 < 1024)%Z ->
  near a (b + 1) (q * v) (SFadd 53 1024 x y) (r + s).
Proof.
  intros (X & P & CX) (Y & Q & CY) A B. destruct (mag_add _ _ _ _ X Y) as [M E]; [lia|lia|].
  eapply near_step; eauto; [|now apply close_add].
  pose proof (mag_pos _ _ _ Y). destruct X as (_ & _ & X). pose proof (bpow_le radix2 _ _ A). lra.
Qed.
Lemma near_weaken a b c d p q x r : near a b p x r -> (c <= a)%Z -> (b <= d)%Z -> p <= q -> near c d q x r.
Proof. intros (X & P & C) A B Q. split; [eapply mag_weaken; eauto|]. split; [lra|]. eapply close_weaken; eauto. Qed.
Lemma near_exact a b x : mag a b x -> near a b 1 x (to_R x).
Proof. intros M. split; [auto|]. split; [lra|]. apply close_refl; [lra|eapply mag_pos; eauto]. Qed.
Lemma near_eq a b q x r s : near a b q x r -> r = s -> near a b q x s.
Proof. now intros H <-. Qed.

(** ** Constants *)
(** the value of a literal double as a fraction *)
Ltac const_R := cbn [SF2R cond_Zopp]; unfold F2R; cbn [Fnum Fexp];
  match goal with |- context [bpow radix2 (Zneg ?p)] =>
    let d := eval vm_compute in (2 ^ (Zpos p))%Z in
    replace (bpow radix2 (Zneg p)) with (/ IZR d) by (cbn [bpow]; apply (f_equal (fun z => / IZR z)); vm_compute; reflexivity) end.
Definition rc1 : R := h_planck * c_light / k_boltz.
Definition rc2 : R := 2 * h_planck * c_light ^ 2.
Section Lib.
  Context (lib : libm).
  Notation N := (B64N lib).
  Lemma c1_near : near (-7) (-6) (v ^ 2) (@PLANCK_C1 N) rc1.
  Proof.
    split; [apply c1_mag|]. split; [apply vpow_ge|].
    let x := eval vm_compute in (@PLANCK_C1 N) in change (@PLANCK_C1 N) with x.
    const_R.
    unfold close, rc1, v, h_planck, c_light, k_boltz. repeat split; lra.
  Qed.
  Lemma c2_near : near (-53) (-52) (v ^ 2) (@PLANCK_C2 N) rc2.
  Proof.
    split; [apply c2_mag|]. split; [apply vpow_ge|].
    let x := eval vm_compute in (@PLANCK_C2 N) in change (@PLANCK_C2 N) with x.
    const_R.
    unfold close, rc2, v, h_planck, c_light, k_boltz. repeat split; lra.
  Qed.
End Lib.

(** ** exp x - 1 *)
Lemma exp_small y : 0 <= y <= / 200 -> exp y <= 1 + 101 / 100 * y.
Proof.
  intros H. pose proof (exp_ineq1_le (- y)) as E. rewrite exp_Ropp in E. pose proof (exp_pos y) as P.
  assert (K : exp y * (1 - y) <= 1). { apply (Rmult_le_compat_l (exp y)) in E; [|lra]. rewrite Rinv_r in E by lra. lra. }
  apply Rmult_le_reg_r with (1 - y); [lra|]. nra.
Qed.
Lemma expm1_upper d a a' : 0 < a <= 102 -> 0 <= d <= 12 / 10 ^ 16 -> a' <= a * (1 + d) -> exp a' - 1 <= (exp a - 1) * (1 + 13 / 10 ^ 14).
Proof.
  intros A D H. pose proof (exp_ineq1_le a) as E1. assert (Y : 0 <= a * d <= 102 * (12 / 10 ^ 16)) by (split; [nra|apply Rmult_le_compat; lra]).
  assert (E2 : exp a' <= exp a * exp (a * d)). { rewrite <- exp_plus. apply Raux.exp_le. lra. }
  pose proof (exp_small (a * d) ltac:(lra)) as E3. pose proof (exp_pos a).
  assert (E4 : exp a' <= exp a * (1 + 101 / 100 * (a * d))) by (eapply Rle_trans; [exact E2|apply Rmult_le_compat_l; lra]).
  assert (E5 : a * d <= (exp a - 1) * (12 / 10 ^ 16)) by (apply Rmult_le_compat; lra).
  assert (E6 : (exp a - 1) * (a * d) <= (exp a - 1) * (102 * (12 / 10 ^ 16))) by (apply Rmult_le_compat_l; lra).
  lra.
Qed.
Lemma expm1_close d a a' : 0 < a <= 101 -> 0 <= d <= 12 / 10 ^ 16 -> close (1 + d) a' a -> close (1 + 13 / 10 ^ 14) (exp a' - 1) (exp a - 1).
Proof.
  intros A D C. pose proof (close_pos (1 + d) a' a ltac:(lra) C) as P. destruct C as (_ & C1 & C2).
  pose proof (exp_ineq1_le a). split; [lra|]. split; [eapply expm1_upper; eauto; split; [lra|]|eapply expm1_upper; eauto; lra].
  eapply Rle_trans; [exact C2|]. nra.
Qed.
Lemma exp_quad x : 0 <= x -> 1 + x + x ^ 2 / 2 <= exp x.
Proof.
  intros H. set (g := fun t => exp t - (1 + t + t ^ 2 / 2)).
  assert (D : forall c, derivable_pt_lim g c (exp c - (1 + c))).
  { intros c. unfold g. apply derivable_pt_lim_minus; [apply derivable_pt_lim_exp|].
    replace (1 + c) with (0 + 1 + (INR 2 * c ^ Nat.pred 2) * / 2) by (cbn; field). apply derivable_pt_lim_plus.
    - apply derivable_pt_lim_plus; [apply derivable_pt_lim_const|apply derivable_pt_lim_id].
    - replace (INR 2 * c ^ Nat.pred 2 * / 2) with (INR 2 * c ^ Nat.pred 2 * / 2 + c ^ 2 * 0) by ring. apply (derivable_pt_lim_mult (fun t => t ^ 2) (fun _ => / 2)); [apply derivable_pt_lim_pow|apply derivable_pt_lim_const]. }
  destruct H as [H| <-]; [|rewrite exp_0; lra].
  destruct (MVT_cor2 g (fun c => exp c - (1 + c)) 0 x H) as (c & E & _); [intros; apply D|].
  pose proof (exp_ineq1_le c) as K. assert (G0 : g 0 = 0) by (unfold g; rewrite exp_0; field). rewrite G0 in E. unfold g in E.
  assert (0 <= (exp c - (1 + c)) * (x - 0)) by (apply Rmult_le_pos; lra). lra.
Qed.
Lemma exp_4 n : exp (INR n) <= 4 ^ n.
Proof.
  induction n as [|n IH]; [change (INR 0) with 0; rewrite exp_0; cbn; lra|]. rewrite S_INR, exp_plus. cbn [pow]. rewrite Rmult_comm. pose proof (exp_pos (INR n)). pose proof (exp_pos 1).
  apply Rmult_le_compat; try lra. pose proof exp_le_3. lra.
Qed.
Lemma exp_102 x : x <= 102 -> exp x <= bpow radix2 204.
Proof.
  intros H. eapply Rle_trans; [apply Raux.exp_le, H|]. replace 102 with (INR 102) by (rewrite INR_IZR_INZ; reflexivity).
  eapply Rle_trans; [apply exp_4|]. right. rewrite <- IZR_Zpower by lia. rewrite pow_IZR. apply f_equal. reflexivity.
Qed.

Section Planck.
  Context (lib : libm).
  Notation N := (B64N lib).
  Section Exp.
  Context (AC : accurate_exp (1 / 10 ^ 15) (m_exp lib)).
  Lemma expm1_near a b x r d : near a b (1 + d) x r -> 99 / 1000 <= r <= 101 -> 0 <= d <= 12 / 10 ^ 16 ->
    near (-4) 205 ((1 + 3 / 10 ^ 14) * (1 + 13 / 10 ^ 14) * v) (SFsub 53 1024 (m_exp lib x) (b64_ratio 1 1)) (exp r - 1).
  Proof.
    intros (M & _ & C) R D. pose proof (expm1_close d r (to_R x) ltac:(lra) D C) as CE.
    destruct C as (_ & C1 & C2). assert (X : 98 / 1000 <= to_R x <= 102) by (split; nra).
    pose proof M as ([V _] & F & _). destruct (AC x) as [[VE FE] H]; [now split|lra|].
    pose proof (exp_ineq1_le (to_R x)) as G. pose proof (exp_102 (to_R x) ltac:(lra)) as G2.
    set (e := to_R (m_exp lib x)) in *. set (ex := exp (to_R x)) in *.
    assert (K : close (1 + 3 / 10 ^ 14) (e - 1) (ex - 1)).
    { replace (1 + 3 / 10 ^ 14) with (1 + 2 * (3 / (2 * 10 ^ 14))) by lra. apply close_of_abs; [lra|lra|].
      replace (e - 1 - (ex - 1)) with (e - ex) by ring. eapply Rle_trans; [exact H|]. lra. }
    apply Rabs_le_inv in H. assert (Lo : 1 + 97 / 1000 <= e) by lra.
    assert (Ne : nn (m_exp lib x)) by (apply nn_of_fin; auto; apply sign_pos; auto; fold e; lra).
    destruct one_mag as (N1 & F1 & _).
    destruct (sub_nn (m_exp lib x) (b64_ratio 1 1)) as (Ns & Fs & Es); auto; [rewrite one_R; fold e; lra|].
    rewrite one_R in Es. fold e in Es.
    assert (B4 : bpow radix2 (-4) = / 16) by reflexivity.
    eapply near_step; [| exact Es| | |].
    - split; [auto|]. split; [auto|]. rewrite Es. apply rnd_bounds; [lia|lia|]. rewrite B4. split; [lra|].
      change (bpow radix2 205) with (bpow radix2 (204 + 1)). rewrite (bpow_plus radix2 204 1). change (bpow radix2 1) with 2. lra.
    - eapply Rle_trans; [apply (bpow_le radix2 _ (-4)); lia|]. rewrite B4. lra.
    - lra.
    - eapply close_trans; [lra|lra|exact K|exact CE].
  Qed.

  Lemma pow3_near w r : near (-40) 40 1 w r -> near (-120) 120 (v ^ 2) (@npow N w 3) (r ^ 3).
  Proof.
    intros W. cbn [npow]. pose proof (near_mul _ _ _ _ _ _ _ _ _ _ W W ltac:(lia) ltac:(lia)) as W2.
    pose proof (near_mul _ _ _ _ _ _ _ _ _ _ W2 W ltac:(lia) ltac:(lia)) as W3.
    eapply near_eq; [eapply near_weaken; [exact W3|lia|lia|]|ring]. right. ring.
  Qed.
  Lemma pow5_near w r : near (-40) 40 1 w r -> near (-200) 200 (v ^ 4) (@npow N w 5) (r ^ 5).
  Proof.
    intros W. cbn [npow]. pose proof (near_mul _ _ _ _ _ _ _ _ _ _ W W ltac:(lia) ltac:(lia)) as W2.
    pose proof (near_mul _ _ _ _ _ _ _ _ _ _ W2 W ltac:(lia) ltac:(lia)) as W3.
    pose proof (near_mul _ _ _ _ _ _ _ _ _ _ W3 W ltac:(lia) ltac:(lia)) as W4.
    pose proof (near_mul _ _ _ _ _ _ _ _ _ _ W4 W ltac:(lia) ltac:(lia)) as W5.
    eapply near_eq; [eapply near_weaken; [exact W5|lia|lia|]|ring]. right. ring.
  Qed.
  Definition nom_R (wl : bool) (w : R) : R := if wl then rc2 / w ^ 5 else rc2 * w ^ 3.
  Definition arg_R (wl : bool) (w : R) : R := if wl then rc1 / w else rc1 * w.
  Lemma nom_near wl w r : near (-40) 40 1 w r -> near (-253) 148 (v ^ 7) (@planck_nom N wl w) (nom_R wl r).
  Proof.
    intros W. unfold planck_nom, nom_R. pose proof v_ge. destruct wl.
    - pose proof (near_div _ _ _ _ _ _ _ _ _ _ (c2_near lib) (pow5_near w r W) ltac:(lia) ltac:(lia)) as H'.
      eapply near_weaken; [exact H'|lia|lia|]. right. ring.
    - pose proof (near_mul _ _ _ _ _ _ _ _ _ _ (c2_near lib) (pow3_near w r W) ltac:(lia) ltac:(lia)) as H'.
      eapply near_weaken; [exact H'|lia|lia|]. replace (v ^ 2 * v ^ 2 * v) with (v ^ 5) by ring. apply Rle_pow; [lra|lia].
  Qed.
  Lemma arg1_near wl w r : near (-40) 40 1 w r -> near (-47) 34 (v ^ 3) (@planck_arg1 N wl w) (arg_R wl r).
  Proof.
    intros W. unfold planck_arg1, arg_R. destruct wl.
    - pose proof (near_div _ _ _ _ _ _ _ _ _ _ (c1_near lib) W ltac:(lia) ltac:(lia)) as H'.
      eapply near_weaken; [exact H'|lia|lia|]. right. ring.
    - pose proof (near_mul _ _ _ _ _ _ _ _ _ _ (c1_near lib) W ltac:(lia) ltac:(lia)) as H'.
      eapply near_weaken; [exact H'|lia|lia|]. right. ring.
  Qed.
  Lemma v5 : v ^ 5 <= 1 + 12 / 10 ^ 16.
  Proof. unfold v. lra. Qed.
  Lemma planck1_near wl w t rw rt : near (-40) 40 1 w rw -> near (-10) 20 1 t rt -> le_double (b64_ratio 1 1000) t ->
    99 / 1000 <= arg_R wl rw / rt <= 101 ->
    near (-458) 152 (1 + 18 / 10 ^ 14) (@planck1 N wl w t) (nom_R wl rw / (exp (arg_R wl rw / rt) - 1)).
  Proof.
    intros W T L R. unfold planck1. rewrite arg2_hot by (split; auto; apply T).
    pose proof (near_exact _ _ _ one_mag) as O. rewrite one_R in O.
    pose proof (near_div _ _ _ _ _ _ _ _ _ _ O T ltac:(lia) ltac:(lia)) as I.
    pose proof (near_mul _ _ _ _ _ _ _ _ _ _ (arg1_near wl w rw W) I ltac:(lia) ltac:(lia)) as A.
    pose proof (near_weaken _ _ _ _ _ (1 + 12 / 10 ^ 16) _ _ A (Z.le_refl _) (Z.le_refl _)) as A'.
    assert (Q : v ^ 3 * (1 * 1 * v) * v <= 1 + 12 / 10 ^ 16) by (replace (v ^ 3 * (1 * 1 * v) * v) with (v ^ 5) by ring; exact v5).
    specialize (A' Q). pose proof (expm1_near _ _ _ _ _ A') as E.
    replace (arg_R wl rw * (1 / rt)) with (arg_R wl rw / rt) in E by (unfold Rdiv; ring).
    specialize (E R ltac:(lra)).
    pose proof (near_div _ _ _ _ _ _ _ _ _ _ (nom_near wl w rw W) E ltac:(lia) ltac:(lia)) as H.
    eapply near_weaken; [exact H|lia|lia|]. unfold v. lra.
  Qed.
  End Exp.
End Planck.

(** ** The inverses *)
Lemma ln_le' x y : 0 < x -> x <= y -> ln x <= ln y.
Proof. intros X [H| ->]; [left; now apply ln_increasing|lra]. Qed.
Lemma ln_1p q : 0 <= q -> ln (1 + q) <= q.
Proof. intros H. pose proof (exp_ineq1_le q) as E. rewrite <- (ln_exp q) at 2. apply ln_le'; lra. Qed.
Lemma ln_close d z r : 0 <= d <= 3 / 10 ^ 15 -> 99 / 1000 <= ln r -> close (1 + d) z r -> close (1 + 32 / 10 ^ 15) (ln z) (ln r).
Proof.
  intros D R C. pose proof (close_pos (1 + d) z r ltac:(lra) C) as P. destruct C as (A & B & E).
  pose proof (ln_1p d ltac:(lra)) as L.
  apply ln_le' in B; [|auto]. apply ln_le' in E; [|auto]. rewrite ln_mult in B, E by lra. repeat split; lra.
Qed.
Section Inverse.
  Context (lib : libm) (AL : accurate_log (1 / 10 ^ 15) (m_log lib)).
  Notation N := (B64N lib).
  Lemma log1_near a b y r d : near a b (1 + d) y r -> 0 <= d <= 21 / 10 ^ 16 -> 99 / 1000 <= ln (r + 1) <= 102 ->
    near (-4) 7 (1 + 35 / 10 ^ 15) (m_log lib (SFadd 53 1024 y (b64_ratio 1 1))) (ln (r + 1)).
  Proof.
    intros (M & _ & C) D R. pose proof (close_pos (1 + d) _ _ ltac:(lra) C) as PY. destruct C as (PR & C1 & C2).
    assert (E0 : r + 1 = exp (ln (r + 1))) by (rewrite exp_ln; lra).
    assert (R1 : 99 / 1000 <= r). { pose proof (exp_ineq1_le (ln (r + 1))). lra. }
    pose proof (exp_102 (ln (r + 1)) ltac:(lra)) as R2. rewrite <- E0 in R2.
    assert (Y1 : / 16 <= to_R y) by nra.
    assert (Y2 : to_R y <= bpow radix2 205). { change (bpow radix2 205) with (bpow radix2 (204 + 1)). rewrite (bpow_plus radix2 204 1). change (bpow radix2 1) with 2. nra. }
    assert (M' : near (-4) 205 (1 + d) y r).
    { split; [|split; [lra|repeat split; auto]]. destruct M as (NY & FY & _). repeat split; auto; apply NY. }
    pose proof (near_exact _ _ _ one_mag) as O. rewrite one_R in O.
    pose proof (near_weaken _ _ (-4) 205 _ (1 + d) _ _ O ltac:(lia) ltac:(lia) ltac:(lra)) as O'.
    destruct (near_add _ _ _ _ _ _ _ M' O' ltac:(lia) ltac:(lia)) as (MZ & QZ & CZ).
    set (z := SFadd 53 1024 y (b64_ratio 1 1)) in *.
    assert (CZ' : close (1 + 3 / 10 ^ 15) (to_R z) (r + 1)) by (eapply close_weaken; [exact QZ| |exact CZ]; unfold v; nra).
    pose proof (ln_close (3 / 10 ^ 15) _ _ ltac:(lra) (proj1 R) CZ') as CL.
    assert (Z1 : 11 / 10 <= to_R z).
    { assert (X1 : exp (99 / 1000) <= r + 1) by (rewrite E0; apply Raux.exp_le; lra).
      assert (X2 : 1 + 99 / 1000 + (99 / 1000) ^ 2 / 2 <= exp (99 / 1000)) by (apply exp_quad; lra). destruct CZ' as (_ & CZ1 & _). nra. }
    pose proof MZ as ([VZ _] & FZ & _). destruct (AL z) as [[VE FE] H]; [now split|exact Z1|].
    destruct CL as (CLp & CL1 & CL2). set (l := ln (to_R z)) in *.
    assert (L1 : 98 / 1000 <= l <= 103) by (split; lra).
    assert (K : close (1 + 2 * (1 / 10 ^ 15)) (to_R (m_log lib z)) l) by (apply close_of_abs; [lra|lra|exact H]).
    apply Rabs_le_inv in H. assert (B4 : bpow radix2 (-4) = / 16) by reflexivity. assert (B7 : bpow radix2 7 = 128) by reflexivity.
    split; [|split; [lra|]].
    - split; [apply nn_of_fin; auto; apply sign_pos; auto; lra|]. split; [auto|]. rewrite B4, B7. split; lra.
    - eapply close_weaken; [| |eapply close_trans; [| |exact K|]]; [| | | |split; [exact CLp|split; [exact CL1|exact CL2]]]; lra.
  Qed.
  Definition r2t_R (wl : bool) (w b : R) : R := if wl then rc1 / (w * ln (rc2 / (b * w ^ 5) + 1)) else rc1 * w / ln (rc2 * w ^ 3 / b + 1).
  Definition ratio_R (wl : bool) (w b : R) : R := if wl then rc2 / (b * w ^ 5) else rc2 * w ^ 3 / b.
  Lemma v8 : v ^ 8 <= 1 + 19 / 10 ^ 16.
  Proof. unfold v. lra. Qed.
  Lemma rad2temp_near wl w b rw : near (-40) 40 1 w rw -> mag (-458) 152 b -> 99 / 1000 <= ln (ratio_R wl rw (to_R b) + 1) <= 102 ->
    near (-60) 60 (1 + 4 / 10 ^ 14) (if wl then @rad2temp N w b else @wn_rad2temp N w b) (r2t_R wl rw (to_R b)).
  Proof.
    intros W B R. pose proof (near_exact _ _ _ B) as NB. pose proof v_ge as V. destruct wl; cbn [ratio_R r2t_R] in *.
    - unfold rad2temp.
      pose proof (near_mul _ _ _ _ _ _ _ _ _ _ NB (pow5_near lib w rw W) ltac:(lia) ltac:(lia)) as A1.
      pose proof (near_div _ _ _ _ _ _ _ _ _ _ (c2_near lib) A1 ltac:(lia) ltac:(lia)) as A2.
      pose proof (near_weaken _ _ _ _ _ (1 + 19 / 10 ^ 16) _ _ A2 (Z.le_refl _) (Z.le_refl _)) as A2'.
      assert (Q : v ^ 2 * (1 * v ^ 4 * v) * v <= 1 + 19 / 10 ^ 16) by (replace (v ^ 2 * (1 * v ^ 4 * v) * v) with (v ^ 8) by ring; exact v8).
      specialize (A2' Q). pose proof (log1_near _ _ _ _ _ A2' ltac:(lra) R) as A3.
      pose proof (near_mul _ _ _ _ _ _ _ _ _ _ W A3 ltac:(lia) ltac:(lia)) as A4.
      pose proof (near_div _ _ _ _ _ _ _ _ _ _ (c1_near lib) A4 ltac:(lia) ltac:(lia)) as A5.
      eapply near_weaken; [exact A5|lia|lia|]. unfold v. lra.
    - unfold wn_rad2temp.
      pose proof (near_mul _ _ _ _ _ _ _ _ _ _ (c2_near lib) (pow3_near lib w rw W) ltac:(lia) ltac:(lia)) as A1.
      pose proof (near_div _ _ _ _ _ _ _ _ _ _ A1 NB ltac:(lia) ltac:(lia)) as A2.
      pose proof (near_weaken _ _ _ _ _ (1 + 19 / 10 ^ 16) _ _ A2 (Z.le_refl _) (Z.le_refl _)) as A2'.
      assert (Q : v ^ 2 * v ^ 2 * v * 1 * v <= 1 + 19 / 10 ^ 16) by (eapply Rle_trans; [|exact v8]; replace (v ^ 2 * v ^ 2 * v * 1 * v) with (v ^ 6) by ring; apply Rle_pow; [lra|lia]).
      specialize (A2' Q). pose proof (log1_near _ _ _ _ _ A2' ltac:(lra) R) as A3.
      pose proof (near_mul _ _ _ _ _ _ _ _ _ _ (c1_near lib) W ltac:(lia) ltac:(lia)) as A4.
      pose proof (near_div _ _ _ _ _ _ _ _ _ _ A4 A3 ltac:(lia) ltac:(lia)) as A5.
      eapply near_weaken; [exact A5|lia|lia|]. unfold v. lra.
  Qed.
End Inverse.

(** ** In terms of Planck's law *)
Lemma rc_pos : 0 < rc1 /\ 0 < rc2.
Proof. unfold rc1, rc2, h_planck, c_light, k_boltz. split; lra. Qed.
Lemma k_pos : 0 < k_boltz.
Proof. unfold k_boltz. lra. Qed.
Lemma photon_R wn w t : 0 < w -> 0 < t -> arg_R (negb wn) w / t = photon wn w t.
Proof. intros W T. pose proof k_pos. unfold arg_R, photon, rc1. destruct wn; cbn [negb]; field; repeat split; lra. Qed.
Lemma planck_R wn w t : 0 < w -> 0 < t -> nom_R (negb wn) w / (exp (arg_R (negb wn) w / t) - 1) = Planck wn w t.
Proof.
  intros W T. rewrite photon_R by auto. unfold nom_R, Planck, B_nu, B_lambda, photon, rc2. destruct wn; cbn [negb]; reflexivity.
Qed.
Lemma ratio_pos wl w b : 0 < w -> 0 < b -> 0 < ratio_R wl w b.
Proof.
  intros W B. destruct rc_pos as [_ C]. unfold ratio_R. pose proof (pow_lt w 5 W). pose proof (pow_lt w 3 W).
  destruct wl; (apply Rdiv_lt_0_compat; [|auto using Rmult_lt_0_compat]); auto using Rmult_lt_0_compat.
Qed.
Lemma ln_ratio_pos wl w b : 0 < w -> 0 < b -> 0 < ln (ratio_R wl w b + 1).
Proof. intros W B. pose proof (ratio_pos wl w b W B). rewrite <- ln_1. apply ln_increasing; lra. Qed.
Lemma brightness_R wn w b : 0 < w -> 0 < b -> r2t_R (negb wn) w b = brightness wn w b.
Proof.
  intros W B. pose proof k_pos. pose proof (ln_ratio_pos (negb wn) w b W B) as L. unfold r2t_R, brightness, T_nu, T_lambda, ratio_R, rc1, rc2 in *.
  destruct wn; cbn [negb] in *; field; repeat split; lra.
Qed.
Lemma r2t_arg wl w b : 0 < w -> 0 < b -> r2t_R wl w b = arg_R wl w / ln (ratio_R wl w b + 1).
Proof.
  intros W B. pose proof (ln_ratio_pos wl w b W B) as L. unfold r2t_R, arg_R, ratio_R in *. destruct wl; [|reflexivity]. field. lra.
Qed.
Lemma arg_pos wl w : 0 < w -> 0 < arg_R wl w.
Proof. intros W. destruct rc_pos as [C _]. unfold arg_R. destruct wl; [apply Rdiv_lt_0_compat|apply Rmult_lt_0_compat]; auto. Qed.
Lemma photon_brightness wn w b : 0 < w -> 0 < b -> photon wn w (brightness wn w b) = ln (ratio_R (negb wn) w b + 1).
Proof.
  intros W B. rewrite <- brightness_R by auto. pose proof (ln_ratio_pos (negb wn) w b W B) as L. pose proof (arg_pos (negb wn) w W) as A.
  rewrite <- photon_R; auto; rewrite r2t_arg by auto; [|apply Rdiv_lt_0_compat; auto]. field. lra.
Qed.
Lemma within_near a b q x r e : near a b q x r -> q <= 1 + e -> 0 <= e -> within e x r.
Proof.
  intros (([V _] & F & _) & Q & C) L E. split; [now split|]. apply close_abs; auto. eapply close_weaken; eauto.
Qed.
Lemma lnp1_upper e x y : 0 <= x -> 0 <= e -> 0 < y -> y <= (exp x - 1) * (1 + e) -> ln (y + 1) <= x * (1 + e).
Proof.
  intros X E Y H. rewrite <- (ln_exp (x * (1 + e))). apply ln_le'; [lra|].
  replace (x * (1 + e)) with (x + e * x) by ring. rewrite exp_plus. pose proof (exp_ineq1_le (e * x)) as G.
  pose proof (exp_ineq1_le (- x)) as G2. rewrite exp_Ropp in G2. pose proof (exp_pos x) as P.
  assert (K : exp x - 1 <= exp x * x). { apply (Rmult_le_compat_l (exp x)) in G2; [|lra]. rewrite Rinv_r in G2 by lra. lra. }
  assert (K2 : e * (exp x - 1) <= e * (exp x * x)) by (apply Rmult_le_compat_l; lra).
  assert (K3 : exp x * (1 + e * x) <= exp x * exp (e * x)) by (apply Rmult_le_compat_l; lra). lra.
Qed.
Lemma lnp1_close e x y : 0 < x -> 0 <= e -> close (1 + e) y (exp x - 1) -> close (1 + e) (ln (y + 1)) x.
Proof.
  intros X E C. pose proof (close_pos (1 + e) _ _ ltac:(lra) C) as P. destruct C as (A & B & D). split; [auto|]. split.
  - pose proof (lnp1_upper e (ln (y + 1)) (exp x - 1)) as U. replace (exp x - 1 + 1) with (exp x) in U by ring. rewrite ln_exp in U. apply U; auto.
    + rewrite <- ln_1. apply ln_le'; lra.
    + rewrite exp_ln by lra. replace (y + 1 - 1) with y by ring. exact B.
  - apply lnp1_upper; auto; lra.
Qed.

Section Api.
  Context (lib : libm).
  Notation N := (B64N lib).
  Lemma wave_near w : double_between (1 / 10 ^ 12) (10 ^ 12) w -> near (-40) 40 1 w (to_R w) /\ 0 < to_R w.
  Proof. intros H. split; [apply near_exact, wave_mag, H|]. destruct H as [_ H]. lra. Qed.
  Lemma temp_near t : double_between (1 / 100) (10 ^ 6) t -> near (-10) 20 1 t (to_R t) /\ 0 < to_R t /\ le_double (b64_ratio 1 1000) t.
  Proof.
    intros H. assert (M : mag (-7) 20 t) by (eapply double_mag; [exact H| |]; cbn; lra).
    split; [eapply near_weaken; [apply near_exact, M|lia|lia|lra]|]. split; [eapply mag_pos; eauto|].
    assert (K : mag (-10) (-9) (b64_ratio 1 1000)) by mag_const.
    apply to_R_le; [apply K|apply M|apply K|apply M|]. destruct K as (_ & _ & K), M as (_ & _ & M).
    assert (bpow radix2 (-9) <= bpow radix2 (-7)) by (apply bpow_le; lia). lra.
  Qed.
  Lemma planck_within wn w t : accurate_exp (1 / 10 ^ 15) (m_exp lib) -> double_between (1 / 10 ^ 12) (10 ^ 12) w -> double_between (1 / 100) (10 ^ 6) t ->
    1 / 10 <= photon wn (to_R w) (to_R t) <= 100 ->
    near (-458) 152 (1 + 18 / 10 ^ 14) (@planck1 N (negb wn) w t) (Planck wn (to_R w) (to_R t)).
  Proof.
    intros AC W T R. destruct (wave_near w W) as [NW PW]. destruct (temp_near t T) as (NT & PT & LT).
    rewrite <- planck_R by auto. apply planck1_near; auto. rewrite photon_R by auto. lra.
  Qed.
  Lemma temp_within wn w b : accurate_log (1 / 10 ^ 15) (m_log lib) -> double_between (1 / 10 ^ 12) (10 ^ 12) w -> mag (-458) 152 b ->
    99 / 1000 <= photon wn (to_R w) (brightness wn (to_R w) (to_R b)) <= 102 ->
    near (-60) 60 (1 + 4 / 10 ^ 14) (if negb wn then @rad2temp N w b else @wn_rad2temp N w b) (brightness wn (to_R w) (to_R b)).
  Proof.
    intros AL W B R. destruct (wave_near w W) as [NW PW]. pose proof (mag_pos _ _ _ B) as PB. rewrite photon_brightness in R by auto.
    rewrite <- brightness_R by auto. now apply rad2temp_near.
  Qed.
  Lemma round_trip wn w t : accurate_exp (1 / 10 ^ 15) (m_exp lib) -> accurate_log (1 / 10 ^ 15) (m_log lib) ->
    double_between (1 / 10 ^ 12) (10 ^ 12) w -> double_between (1 / 100) (10 ^ 6) t -> 1 / 10 <= photon wn (to_R w) (to_R t) <= 100 ->
    let b := @planck1 N (negb wn) w t in
    within (3 / 10 ^ 13) (if negb wn then @rad2temp N w b else @wn_rad2temp N w b) (to_R t).
  Proof.
    intros AC AL W T R b. pose proof (planck_within wn w t AC W T R) as (MB & _ & CB). fold b in MB, CB.
    destruct (wave_near w W) as [NW PW]. destruct (temp_near t T) as (NT & PT & LT). pose proof (mag_pos _ _ _ MB) as PB.
    set (x := photon wn (to_R w) (to_R t)) in *. set (e := 18 / 10 ^ 14) in *.
    assert (X1 : close (1 + e) (ratio_R (negb wn) (to_R w) (to_R b)) (exp x - 1)).
    { rewrite <- planck_R, photon_R in CB by auto. fold x in CB. pose proof (exp_ineq1_le x).
      assert (N0 : 0 < nom_R (negb wn) (to_R w)).
      { destruct rc_pos as [_ C]. pose proof (pow_lt (to_R w) 5 PW). pose proof (pow_lt (to_R w) 3 PW). unfold nom_R. destruct (negb wn); [apply Rdiv_lt_0_compat|apply Rmult_lt_0_compat]; auto. }
      assert (E1 : ratio_R (negb wn) (to_R w) (to_R b) = nom_R (negb wn) (to_R w) / to_R b).
      { unfold ratio_R, nom_R. destruct (negb wn); [|reflexivity]. field. split; lra. }
      assert (E2 : exp x - 1 = nom_R (negb wn) (to_R w) / (nom_R (negb wn) (to_R w) / (exp x - 1))) by (field; split; lra).
      rewrite E1, E2. replace (1 + e) with (1 * (1 + e)) by ring. apply close_div; [lra|unfold e; lra|apply close_refl; lra|exact CB]. }
    apply lnp1_close in X1; [|lra|unfold e; lra].
    assert (X2 : 99 / 1000 <= photon wn (to_R w) (brightness wn (to_R w) (to_R b)) <= 102).
    { rewrite photon_brightness by auto. destruct X1 as (_ & Y1 & Y2). unfold e in *. split; nra. }
    pose proof (temp_within wn w b AL W MB X2) as (MT & QT & CT).
    assert (X3 : close (1 + e) (brightness wn (to_R w) (to_R b)) (to_R t)).
    { rewrite <- brightness_R, r2t_arg by auto. replace (to_R t) with (arg_R (negb wn) (to_R w) / x).
      - replace (1 + e) with (1 * (1 + e)) by ring. apply close_div; [lra|unfold e; lra| |exact X1]. apply close_refl; [lra|now apply arg_pos].
      - unfold x. rewrite <- photon_R by auto. pose proof (arg_pos (negb wn) _ PW). field. lra. }
    eapply (within_near (-60) 60 ((1 + 4 / 10 ^ 14) * (1 + e))); [|unfold e; lra|lra].
    split; [exact MT|]. split; [unfold e; nra|]. eapply close_trans; [lra|unfold e; lra|exact CT|exact X3].
  Qed.
End Api.
