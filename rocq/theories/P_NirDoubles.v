(** The reflectance of one pixel in doubles: C109. *)
From Coq Require Import Reals Lra ZArith String List Bool Lia SpecFloat.
From Flocq Require Import Core BinarySingleNaN Relative.
From Verif Require Import Base NumSig B64 M_Tables M_Utils M_Rsr M_Blackbody M_RadTb M_Nir S_B64 S_Nir S_NirDoubles P_B64 P_B64ops P_Arr P_Nir.
Import ListNotations.
Local Open Scope R_scope.

(** ** Rounding errors *)
Definition u : R := / 9007199254740992.
Definition eta : R := bpow radix2 (-1075).
Lemma rnd_err x : Rabs (rnd64 x - x) <= u * Rabs x + eta.
Proof.
  destruct (error_N_FLT radix2 (-1074) 53 eq_refl (fun z => negb (Z.even z)) x) as (e & h & He & Hh & _ & E).
  change (round radix2 (FLT_exp (-1074) 53) (Znearest (fun z => negb (Z.even z))) x) with (rnd64 x) in E. rewrite E.
  replace (x * (1 + e) + h - x) with (x * e + h) by ring. eapply Rle_trans; [apply Rabs_triang|].
  rewrite Rabs_mult. apply Rplus_le_compat.
  - rewrite Rmult_comm. apply Rmult_le_compat_r; [apply Rabs_pos|]. eapply Rle_trans; [exact He|]. cbn -[IZR]. unfold u. lra.
  - eapply Rle_trans; [exact Hh|]. unfold eta. change (-1075)%Z with (-1 + -1074)%Z. rewrite bpow_plus. apply Req_le. f_equal.
Qed.
Lemma eta_tiny : 0 < eta <= / 10 ^ 300.
Proof.
  unfold eta. split; [apply bpow_gt_0|]. change (-1075)%Z with (- (1075))%Z. rewrite bpow_opp. apply Rinv_le; [apply pow_lt; lra|].
  rewrite pow_IZR, <- IZR_Zpower by lia. apply IZR_le. vm_compute. discriminate.
Qed.
Lemma big_fin x : Rabs x <= bpow radix2 1000 -> Rabs (rnd64 x) < bpow radix2 1024.
Proof.
  intros H. apply rnd_abs_lt with (b := bpow radix2 1000); auto.
  - apply generic_format_bpow. cbn. lia.
  - apply bpow_lt. lia.
Qed.
Lemma big_value : 10 ^ 300 <= bpow radix2 1000.
Proof. rewrite pow_IZR, <- IZR_Zpower by lia. apply IZR_le. vm_compute. discriminate. Qed.
Lemma mul_between x y A B : double_between 0 A x -> double_between 0 B y -> A * B <= 10 ^ 30 ->
  is_double (SFmul 53 1024 x y) /\ to_R (SFmul 53 1024 x y) = rnd64 (to_R x * to_R y) /\ 0 <= to_R x * to_R y <= A * B.
Proof.
  intros ((Vx & Fx) & Rx) ((Vy & Fy) & Ry) H.
  assert (P : 0 <= to_R x * to_R y <= A * B) by (split; [apply Rmult_le_pos; lra|apply Rmult_le_compat; lra]).
  destruct (mul_R x y Vx Vy) as [E F]; auto.
  { apply big_fin. rewrite Rabs_pos_eq by lra. pose proof big_value. assert (10 ^ 30 <= 10 ^ 300) by (apply Rle_pow; [lra|lia]). lra. }
  split; [split; [apply mul_dbl; auto|exact F]|]. auto.
Qed.
Lemma sub_small x y : is_double x -> is_double y -> Rabs (to_R x) <= 10 ^ 30 -> Rabs (to_R y) <= 10 ^ 30 ->
  is_double (SFsub 53 1024 x y) /\ to_R (SFsub 53 1024 x y) = rnd64 (to_R x - to_R y).
Proof.
  intros (Vx & Fx) (Vy & Fy) Hx Hy. destruct (sub_R x y Vx Vy Fx Fy) as [E F].
  { apply big_fin. pose proof big_value. assert (2 * 10 ^ 30 <= 10 ^ 300) by lra. apply Rabs_le. apply Rabs_le_inv in Hx, Hy. lra. }
  split; [split; [apply sub_dbl; auto|exact F]|exact E].
Qed.

(** ** Real numbers *)
Definition tiny : R := / 10 ^ 200.
Lemma u_val : 0 < u <= 12 / 10 ^ 17.
Proof. unfold u. lra. Qed.
Lemma tiny_val : 0 < tiny <= / 10 ^ 40.
Proof. unfold tiny. split; [apply Rinv_0_lt_compat, pow_lt; lra|]. apply Rinv_le; [apply pow_lt; lra|]. apply Rle_pow; [lra|lia]. Qed.
Lemma eta_tiny' : 0 < eta <= tiny / 10 ^ 20.
Proof.
  destruct eta_tiny as [A B]. split; auto. eapply Rle_trans; [exact B|]. unfold tiny, Rdiv.
  rewrite <- Rinv_mult. apply Rinv_le; [apply Rmult_lt_0_compat; apply pow_lt; lra|].
  rewrite <- pow_add. apply Rle_pow; [lra|lia].
Qed.
Lemma product_err T I F : 0 <= T <= 10 ^ 12 -> 0 <= I <= 10 ^ 6 -> 0 <= F <= 10 ^ 3 ->
  0 <= rnd64 (T * I) <= 10 ^ 19 /\ 0 <= rnd64 (rnd64 (T * I) * F) /\
  Rabs (rnd64 (rnd64 (T * I) * F) - T * I * F) <= 21 / 10 * u * (T * I * F) + tiny.
Proof.
  intros HT HI HF. pose proof (rnd_err (T * I)) as E1. assert (P : 0 <= T * I <= 10 ^ 18).
  { split; [apply Rmult_le_pos; lra|]. replace (10 ^ 18) with (10 ^ 12 * 10 ^ 6) by lra. apply Rmult_le_compat; lra. }
  rewrite (Rabs_pos_eq (T * I)) in E1 by lra. pose proof eta_tiny' as He. pose proof u_val as Hu. pose proof tiny_val as Ht.
  set (a := rnd64 (T * I)) in *. set (p := T * I) in *. assert (Pa : 0 <= a) by (apply rnd_nonneg; lra).
  apply Rabs_le_inv in E1.
  assert (Hup : 0 <= u * p <= 12 / 10 ^ 17 * 10 ^ 18). { split; [apply Rmult_le_pos; lra|apply Rmult_le_compat; lra]. }
  assert (Ba : a <= 10 ^ 19) by lra.
  split; [lra|]. pose proof (rnd_err (a * F)) as E2. assert (PaF : 0 <= a * F) by (apply Rmult_le_pos; lra).
  rewrite (Rabs_pos_eq (a * F)) in E2 by lra. split; [apply rnd_nonneg; lra|]. apply Rabs_le_inv in E2.
  assert (D : - (u * (p * F) + eta * 10 ^ 3) <= a * F - p * F <= u * (p * F) + eta * 10 ^ 3).
  { replace (a * F - p * F) with ((a - p) * F) by ring. assert (eta * F <= eta * 10 ^ 3) by (apply Rmult_le_compat_l; lra).
    split.
    - apply Rle_trans with (- (u * p + eta) * F); [|apply Rmult_le_compat_r; lra]. replace (- (u * p + eta) * F) with (- (u * (p * F) + eta * F)) by ring. lra.
    - apply Rle_trans with ((u * p + eta) * F); [apply Rmult_le_compat_r; lra|]. replace ((u * p + eta) * F) with (u * (p * F) + eta * F) by ring. lra. }
  set (q := p * F) in *. assert (Pq : 0 <= q) by (apply Rmult_le_pos; lra).
  assert (Hq : u * (a * F) <= u * q + u * (u * q + eta * 10 ^ 3)).
  { rewrite <- Rmult_plus_distr_l. apply Rmult_le_compat_l; lra. }
  assert (Hqq : u * (u * q + eta * 10 ^ 3) <= 1 / 100 * (u * q + eta * 10 ^ 3)).
  { assert (0 <= u * q) by (apply Rmult_le_pos; lra). apply Rmult_le_compat_r; lra. }
  assert (0 <= u * q) by (apply Rmult_le_pos; lra).
  assert (2 * (eta * 10 ^ 3) + eta <= tiny) by lra.
  apply Rabs_le. lra.
Qed.
Lemma product_err1 L I : 0 <= L <= 10 ^ 12 -> 0 <= I <= 10 ^ 6 ->
  0 <= rnd64 (L * I) <= 10 ^ 19 /\ Rabs (rnd64 (L * I) - L * I) <= u * (L * I) + tiny.
Proof.
  intros HL HI. destruct (product_err L I 0 HL HI) as (A & _); [lra|]. split; [exact A|].
  assert (0 <= L * I) by (apply Rmult_le_pos; lra).
  pose proof (rnd_err (L * I)) as E. rewrite (Rabs_pos_eq (L * I)) in E by lra. pose proof eta_tiny'. pose proof tiny_val. lra.
Qed.

(** the denominator *)
Lemma contrast_err S e q : 0 <= S <= 10 ^ 6 -> 0 <= e -> 0 <= q -> Rabs (e - q) <= 21 / 10 * u * q + tiny ->
  Rabs (rnd64 (S - e) - (S - q)) <= u * S + 32 / 10 * u * q + 2 * tiny.
Proof.
  intros HS He Hq D. pose proof (rnd_err (S - e)) as E. pose proof eta_tiny' as Ht. pose proof tiny_val. pose proof u_val as Hu.
  assert (B : Rabs (S - e) <= S + e) by (apply Rabs_le; lra).
  assert (u * Rabs (S - e) <= u * (S + e)) by (apply Rmult_le_compat_l; lra).
  apply Rabs_le_inv in D, E. apply Rabs_le.
  assert (u * e <= 1 / 100 * (21 / 10 * u * q) + u * q + tiny / 2).
  { apply Rle_trans with (u * (q + 21 / 10 * u * q + tiny)); [apply Rmult_le_compat_l; lra|].
    assert (0 <= u * q) by (apply Rmult_le_pos; lra).
    replace (u * (q + 21 / 10 * u * q + tiny)) with (u * q + u * (21 / 10 * u * q) + u * tiny) by ring.
    assert (u * (21 / 10 * u * q) <= 1 / 100 * (21 / 10 * u * q)) by (apply Rmult_le_compat_r; lra).
    assert (u * tiny <= 1 / 2 * tiny) by (apply Rmult_le_compat_r; lra). lra. }
  assert (0 <= u * q) by (apply Rmult_le_pos; lra). assert (0 <= u * S) by (apply Rmult_le_pos; lra). lra.
Qed.

(** the whole *)
Lemma quotient_err S l e p q : 0 <= S <= 10 ^ 6 -> 0 <= l -> 0 <= e -> 0 <= p -> 0 <= q ->
  Rabs (l - p) <= u * p + tiny -> Rabs (e - q) <= 21 / 10 * u * q + tiny -> 4 / 1000 <= rnd64 (S - e) ->
  let n := rnd64 (l - e) in let d := rnd64 (S - e) in
  39 / 10000 <= S - q /\ Rabs (rnd64 (n / d) - (p - q) / (S - q)) <= 1 / 10 ^ 15 * (1 + Rabs ((p - q) / (S - q))) * ((p + q + S) / (S - q)).
Proof.
  intros HS Hl He Hp Hq Dl De Hd n d. pose proof (contrast_err S e q HS He Hq De) as Ed. fold d in Ed, Hd.
  pose proof eta_tiny' as Ht. pose proof tiny_val as Ht'. pose proof u_val as Hu.
  assert (Pu : forall x, 0 <= x -> 0 <= u * x) by (intros; apply Rmult_le_pos; lra).
  pose proof (Pu _ Hp) as Up. pose proof (Pu _ Hq) as Uq. pose proof (Pu _ (proj1 HS)) as US.
  (* e does not exceed S by much, so neither does q *)
  assert (Hse : 0 < S - e).
  { destruct (Rlt_or_le 0 (S - e)) as [H|H]; auto. exfalso. assert (d <= 0); [|lra]. unfold d. rewrite <- rnd_0. apply rnd_le. lra. }
  assert (Uq2 : u * q <= 1 / 100 * q) by (apply Rmult_le_compat_r; lra).
  assert (Hq6 : q <= 2 * 10 ^ 6). { apply Rabs_le_inv in De. lra. }
  assert (Uq3 : u * q <= 12 / 10 ^ 17 * (2 * 10 ^ 6)) by (apply Rmult_le_compat; lra).
  assert (US3 : u * S <= 12 / 10 ^ 17 * 10 ^ 6) by (apply Rmult_le_compat; lra).
  set (D := S - q) in *. set (N := p - q). set (A := p + q + S).
  apply Rabs_le_inv in Ed.
  assert (HD : 39 / 10000 <= D) by lra. split; [exact HD|].
  assert (HdD : D * (1 - 1 / 10 ^ 6) <= d) by lra.
  (* numerator *)
  pose proof (rnd_err (l - e)) as En. fold n in En.
  assert (B : Rabs (l - e) <= l + e) by (apply Rabs_le; lra).
  assert (UB : u * Rabs (l - e) <= u * (l + e)) by (apply Rmult_le_compat_l; lra).
  assert (UL : u * (l + e) <= u * (103 / 100 * (p + q) + 2 * tiny)).
  { assert (u * p <= 1 / 100 * p) by (apply Rmult_le_compat_r; lra). apply Rmult_le_compat_l; [lra|]. apply Rabs_le_inv in Dl, De. lra. }
  assert (Ut : u * (2 * tiny) <= tiny) by (assert (u * (2 * tiny) <= 1 / 2 * (2 * tiny)) by (apply Rmult_le_compat_r; lra); lra).
  assert (HA : 39 / 10000 <= A) by (unfold A; unfold D in HD; lra).
  assert (UA : u * A <= 12 / 10 ^ 17 * A) by (apply Rmult_le_compat_r; lra).
  assert (EA : u * A = u * p + u * q + u * S) by (unfold A; ring).
  assert (En' : Rabs (n - N) <= 4 / 10 ^ 16 * A).
  { unfold N. apply Rabs_le_inv in Dl, De, En. replace (u * (103 / 100 * (p + q) + 2 * tiny)) with (103 / 100 * (u * p) + 103 / 100 * (u * q) + u * (2 * tiny)) in UL by ring.
    apply Rabs_le. lra. }
  assert (Ed' : Rabs (d - D) <= 4 / 10 ^ 16 * A) by (apply Rabs_le; lra).
  set (x := N / D). assert (EN : N = x * D) by (unfold x; field; lra).
  set (h := 4 / 10 ^ 16 * A) in *. assert (Hh : 0 <= h) by (unfold h; lra).
  assert (Q : Rabs (n / d - x) <= h * (1 + Rabs x) / d).
  { replace (n / d - x) with (((n - N) - x * (d - D)) / d) by (rewrite EN; field; lra).
    unfold Rdiv. rewrite Rabs_mult, (Rabs_pos_eq (/ d)) by (left; apply Rinv_0_lt_compat; lra).
    apply Rmult_le_compat_r; [left; apply Rinv_0_lt_compat; lra|].
    eapply Rle_trans; [apply Rabs_triang|]. rewrite Rabs_Ropp, Rabs_mult. rewrite Rmult_plus_distr_l, Rmult_1_r, (Rmult_comm h).
    apply Rplus_le_compat; auto. apply Rmult_le_compat_l; auto. apply Rabs_pos. }
  set (w := Rabs x) in *. assert (Hw : 0 <= w) by apply Rabs_pos.
  set (g := (1 + w) * (A / D)).
  assert (HAD : 1 <= A / D). { apply Rmult_le_reg_r with D; [lra|]. unfold Rdiv. rewrite Rmult_assoc, Rinv_l, Rmult_1_r by lra. unfold A, D. lra. }
  assert (Hg1 : 1 + w <= g). { unfold g. rewrite <- (Rmult_1_r (1 + w)) at 1. apply Rmult_le_compat_l; lra. }
  assert (Q' : h * (1 + w) / d <= 41 / 10 ^ 17 * g).
  { unfold h, g, Rdiv. apply Rmult_le_reg_r with d; [lra|]. replace (4 * / 10 ^ 16 * A * (1 + w) * / d * d) with (4 * / 10 ^ 16 * (A * (1 + w))) by (field; lra).
    replace (41 * / 10 ^ 17 * ((1 + w) * (A * / D)) * d) with (41 * / 10 ^ 17 * (A * (1 + w)) * (d / D)) by (field; lra).
    assert (1 - 1 / 10 ^ 6 <= d / D). { apply Rmult_le_reg_r with D; [lra|]. unfold Rdiv at 2. rewrite Rmult_assoc, Rinv_l by lra. lra. }
    assert (0 <= A * (1 + w)) by (apply Rmult_le_pos; lra).
    apply Rle_trans with (41 * / 10 ^ 17 * (A * (1 + w)) * (1 - 1 / 10 ^ 6)); [|apply Rmult_le_compat_l; lra]. lra. }
  pose proof (rnd_err (n / d)) as Ev.
  assert (Bn : Rabs (n / d) <= w + 41 / 10 ^ 17 * g).
  { replace (n / d) with (x + (n / d - x)) by ring. eapply Rle_trans; [apply Rabs_triang|]. fold w. lra. }
  assert (Un : u * Rabs (n / d) <= 12 / 10 ^ 17 * (w + 41 / 10 ^ 17 * g)).
  { apply Rmult_le_compat; try lra. apply Rabs_pos. }
  replace (rnd64 (n / d) - x) with ((rnd64 (n / d) - n / d) + (n / d - x)) by ring.
  eapply Rle_trans; [apply Rabs_triang|].
  replace (1 / 10 ^ 15 * (1 + w) * (A / D)) with (1 / 10 ^ 15 * g) by (unfold g; ring). lra.
Qed.

(** ** One pixel *)
Section Pixel.
  Variable lib : libm.
  Notation N := (B64N lib).
  Lemma flag_zero64 b : neqb N (@flag N b) n0 = negb b.
  Proof. destruct b; reflexivity. Qed.
  Lemma nor_zero64 (a b : N) : neqb N (@nor N a b) n0 = (neqb N a n0 && neqb N b n0)%bool.
  Proof. unfold nor. destruct (neqb N a n0 && neqb N b n0)%bool; [apply (flag_zero64 false)|apply (flag_zero64 true)]. Qed.
  Definition eps64 : b64 := b64_ratio 5 1000.
  Definition e64 (I T F : b64) : b64 := SFmul 53 1024 (SFmul 53 1024 T I) F.
  Definition d64 (I T F S : b64) : b64 := SFsub 53 1024 S (e64 I T F).
  Definition n64 (I L T F : b64) : b64 := SFsub 53 1024 (SFmul 53 1024 L I) (e64 I T F).
  Definition out64 (lim : option b64) (z tn d : b64) : bool :=
    (b64_nan tn || SFltb d eps64 || match lim with Some l => SFltb z (S754_zero false) || SFltb l z | None => false end)%bool.
  Lemma pixel64 (lim : option b64) (I S z tn L T F : b64) :
    @pixel_raw N lim I S z tn L T F = if out64 lim z tn (d64 I T F S) then S754_nan else SFdiv 53 1024 (n64 I L T F) (d64 I T F S).
  Proof.
    unfold pixel_raw. cbv zeta. rewrite nor_zero64.
    change (nsub N S (nmul N (nmul N T I) F)) with (d64 I T F S).
    change (nsub N (nmul N L I) (nmul N (nmul N T I) F)) with (n64 I L T F).
    rewrite flag_zero64. unfold out64. change (nltb N (d64 I T F S) NIR_EPSILON) with (SFltb (d64 I T F S) eps64).
    change (nisnan N tn) with (b64_nan tn). destruct lim as [l|].
    - rewrite nor_zero64, !flag_zero64. change (nltb N z n0) with (SFltb z (S754_zero false)). change (nltb N l z) with (SFltb l z).
      destruct (b64_nan tn), (SFltb (d64 I T F S) eps64), (SFltb z (S754_zero false)), (SFltb l z); reflexivity.
    - rewrite flag_zero64. destruct (b64_nan tn), (SFltb (d64 I T F S) eps64); reflexivity.
  Qed.

  Lemma eps64_R : Rabs (to_R eps64 - 5 / 1000) <= / 10 ^ 18 /\ is_double eps64.
  Proof.
    unfold eps64. split; [|split; reflexivity]. destruct (ratio_R 5 1000) as (_ & _ & E).
    { apply big_fin. pose proof big_value. assert (1 <= 10 ^ 300) by (apply pow_R1_Rle; lra). apply Rabs_le. lra. }
    rewrite E. pose proof (rnd_err (5 / 1000)) as R. rewrite (Rabs_pos_eq (5 / 1000)) in R by lra.
    pose proof u_val. pose proof eta_tiny'. pose proof tiny_val. eapply Rle_trans; [exact R|].
    assert (u * (5 / 1000) <= 12 / 10 ^ 17 * (5 / 1000)) by (apply Rmult_le_compat_r; lra). lra.
  Qed.

  (** the operations on ordinary numbers *)
  Lemma energies I L T F S : ordinary I L T F S ->
    (is_double (SFmul 53 1024 L I) /\ to_R (SFmul 53 1024 L I) = rnd64 (to_R L * to_R I) /\ 0 <= to_R (SFmul 53 1024 L I) <= 10 ^ 19) /\
    (is_double (e64 I T F) /\ to_R (e64 I T F) = rnd64 (rnd64 (to_R T * to_R I) * to_R F) /\ 0 <= to_R (e64 I T F) <= 10 ^ 30) /\
    (is_double (d64 I T F S) /\ to_R (d64 I T F S) = rnd64 (to_R S - to_R (e64 I T F))) /\
    (is_double (n64 I L T F) /\ to_R (n64 I L T F) = rnd64 (to_R (SFmul 53 1024 L I) - to_R (e64 I T F))).
  Proof.
    intros (HI & HL & HT & HF & HS).
    destruct (mul_between L I _ _ HL HI) as (D1 & E1 & _); [lra|].
    destruct (mul_between T I _ _ HT HI) as (D2 & E2 & _); [lra|].
    destruct (product_err1 (to_R L) (to_R I)) as [B1 _]; [apply HL|apply HI|].
    destruct (product_err (to_R T) (to_R I) (to_R F)) as (B2 & B3 & B4); [apply HT|apply HI|apply HF|].
    assert (HTI : double_between 0 (10 ^ 19) (SFmul 53 1024 T I)) by (split; [exact D2|rewrite E2; exact B2]).
    destruct (mul_between _ F _ _ HTI HF) as (D3 & E3 & _); [lra|]. rewrite E2 in E3.
    assert (B5 : to_R (e64 I T F) <= 10 ^ 30).
    { unfold e64. rewrite E3. pose proof tiny_val. pose proof u_val. apply Rabs_le_inv in B4.
      assert (P : 0 <= to_R T * to_R I * to_R F <= 10 ^ 12 * 10 ^ 6 * 10 ^ 3).
      { destruct HT as [_ ?], HI as [_ ?], HF as [_ ?]. split; [repeat apply Rmult_le_pos; lra|]. repeat apply Rmult_le_compat; try lra. apply Rmult_le_pos; lra. }
      assert (21 / 10 * u * (to_R T * to_R I * to_R F) <= 1 * (to_R T * to_R I * to_R F)) by (apply Rmult_le_compat_r; lra). lra. }
    assert (B6 : 0 <= to_R (e64 I T F) <= 10 ^ 30) by (split; [unfold e64; rewrite E3; exact B3|exact B5]).
    rewrite <- E1 in B1.
    split; [auto|]. split; [auto|].
    destruct HS as [DS RS]. split.
    - apply sub_small; auto; rewrite Rabs_pos_eq; lra.
    - apply sub_small; auto; rewrite Rabs_pos_eq; lra.
  Qed.
  Lemma energy_err I L T F S : ordinary I L T F S ->
    Rabs (to_R (SFmul 53 1024 L I) - to_R L * to_R I) <= u * (to_R L * to_R I) + tiny /\
    Rabs (to_R (e64 I T F) - to_R T * to_R I * to_R F) <= 21 / 10 * u * (to_R T * to_R I * to_R F) + tiny /\
    0 <= to_R L * to_R I /\ 0 <= to_R T * to_R I * to_R F /\
    Rabs (to_R (d64 I T F S) - contrast I T F S) <= u * to_R S + 32 / 10 * u * (to_R T * to_R I * to_R F) + 2 * tiny.
  Proof.
    intros H. destruct (energies _ _ _ _ _ H) as ((_ & E1 & B1) & (_ & E2 & B2) & (_ & E3) & _). destruct H as (HI & HL & HT & HF & HS).
    destruct (product_err1 (to_R L) (to_R I)) as [_ A1]; [apply HL|apply HI|].
    destruct (product_err (to_R T) (to_R I) (to_R F)) as (_ & _ & A2); [apply HT|apply HI|apply HF|].
    rewrite <- E1 in A1. rewrite <- E2 in A2.
    assert (P : 0 <= to_R T * to_R I * to_R F) by (destruct HT as [_ ?], HI as [_ ?], HF as [_ ?]; repeat apply Rmult_le_pos; lra).
    split; [exact A1|]. split; [exact A2|]. split; [destruct HL as [_ ?], HI as [_ ?]; apply Rmult_le_pos; lra|]. split; [exact P|].
    rewrite E3. apply contrast_err; auto; [apply HS|apply B2].
  Qed.

  Lemma ltb64 x y : is_double x -> is_double y -> (SFltb x y = true <-> to_R x < to_R y).
  Proof. intros [] []. rewrite ltb_R by auto. case Rlt_bool_spec; intuition; try lra; discriminate. Qed.
  Lemma leb64 x y : is_double x -> is_double y -> (le_double x y <-> to_R x <= to_R y).
  Proof. intros [] []. unfold le_double. rewrite leb_R by auto. case Rle_bool_spec; intuition; try lra; discriminate. Qed.
  Lemma zero_double : is_double (S754_zero false).
  Proof. split; reflexivity. Qed.
  Lemma sun_iff lim z : is_double z -> limit_like lim ->
    match lim with Some l => SFltb z (S754_zero false) || SFltb l z | None => false end = true <-> sun_out64 lim z.
  Proof.
    intros Hz Hl. destruct lim as [l|]; cbn [limit_like sun_out64] in *; [|split; [discriminate|contradiction]].
    rewrite orb_true_iff, !ltb64 by auto using zero_double. reflexivity.
  Qed.
  Lemma out64_iff lim z tn d : is_double z -> limit_like lim -> is_double d ->
    (out64 lim z tn d = true <-> tn = S754_nan \/ sun_out64 lim z \/ to_R d < to_R eps64).
  Proof.
    intros Hz Hl Hd. unfold out64. rewrite !orb_true_iff. rewrite (sun_iff lim z Hz Hl).
    rewrite ltb64 by (auto; apply eps64_R). destruct tn; cbn [b64_nan]; intuition; discriminate.
  Qed.

  (** the quotient *)
  Lemma quotient I L T F S : ordinary I L T F S -> to_R eps64 <= to_R (d64 I T F S) ->
    is_double (SFdiv 53 1024 (n64 I L T F) (d64 I T F S)) /\
    to_R (SFdiv 53 1024 (n64 I L T F) (d64 I T F S)) = rnd64 (to_R (n64 I L T F) / to_R (d64 I T F S)) /\ 4 / 1000 <= to_R (d64 I T F S).
  Proof.
    intros H Hd. destruct (energies _ _ _ _ _ H) as ((_ & _ & B1) & (_ & _ & B2) & ((V3 & F3) & E3) & ((V4 & F4) & E4)).
    destruct eps64_R as [Ee _]. apply Rabs_le_inv in Ee. assert (H4 : 4 / 1000 <= to_R (d64 I T F S)) by lra.
    assert (Bn : Rabs (to_R (n64 I L T F)) <= 10 ^ 31).
    { rewrite E4. pose proof (rnd_err (to_R (SFmul 53 1024 L I) - to_R (e64 I T F))) as R.
      assert (Q : Rabs (to_R (SFmul 53 1024 L I) - to_R (e64 I T F)) <= 2 * 10 ^ 30) by (apply Rabs_le; lra).
      pose proof u_val. pose proof eta_tiny'. pose proof tiny_val.
      assert (u * Rabs (to_R (SFmul 53 1024 L I) - to_R (e64 I T F)) <= 1 * (2 * 10 ^ 30)) by (apply Rmult_le_compat; try lra; apply Rabs_pos).
      apply Rabs_le_inv in R, Q. apply Rabs_le. lra. }
    destruct (div_R (n64 I L T F) (d64 I T F S) V4 V3 F4) as [E F0].
    - lra.
    - apply big_fin. unfold Rdiv. rewrite Rabs_mult, Rabs_inv, (Rabs_pos_eq (to_R (d64 I T F S))) by lra.
      pose proof big_value. assert (10 ^ 34 <= 10 ^ 300) by (apply Rle_pow; [lra|lia]).
      apply Rle_trans with (10 ^ 31 * / (4 / 1000)); [|lra].
      apply Rmult_le_compat; auto using Rabs_pos; [left; apply Rinv_0_lt_compat; lra|]. apply Rinv_le; lra.
    - split; [split; [apply div_dbl; auto|exact F0]|]. auto.
  Qed.
End Pixel.
