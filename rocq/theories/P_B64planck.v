(** Planck's function and its inverses in doubles: no order is ever reversed. *)
From Coq Require Import ZArith Reals Lra Lia List Bool String SpecFloat.
From Flocq Require Import Core BinarySingleNaN.
From Verif Require Import Base NumSig B64 M_Blackbody S_B64 P_B64 P_B64ops P_B64mono.
Import ListNotations.
Local Open Scope R_scope.

(** ** Magnitudes in powers of two *)
Definition mag (a b : Z) (x : b64) : Prop := nn x /\ fin64 x = true /\ bpow radix2 a <= to_R x <= bpow radix2 b.
Lemma mag_pos a b x : mag a b x -> 0 < to_R x.
Proof. intros (_ & _ & H). pose proof (bpow_gt_0 radix2 a). lra. Qed.
Lemma mag_weaken a b c d x : mag a b x -> (c <= a)%Z -> (b <= d)%Z -> mag c d x.
Proof.
  intros (N & F & H) C D. repeat split; auto; try apply N.
  - eapply Rle_trans; [apply bpow_le, C|apply H].
  - eapply Rle_trans; [apply H|apply bpow_le, D].
Qed.
Lemma bpow_format e : (-1074 <= e)%Z -> generic_format radix2 fexp64 (bpow radix2 e).
Proof. intros H. apply generic_format_bpow. unfold SpecFloat.fexp, SpecFloat.emin. lia. Qed.
Lemma rnd_bounds a b r : (-1074 <= a)%Z -> (-1074 <= b)%Z -> bpow radix2 a <= r <= bpow radix2 b -> bpow radix2 a <= rnd64 r <= bpow radix2 b.
Proof.
  intros A B H. split.
  - apply round_ge_generic; auto with typeclass_instances; [apply bpow_format; auto|lra].
  - apply round_le_generic; auto with typeclass_instances; [apply bpow_format; auto|lra].
Qed.
Lemma ov_small r : r < bpow radix2 1024 -> ov r = r.
Proof. intros H. unfold ov. apply Rmin_left. lra. Qed.
Lemma mag_of x a b r : nn x -> pv x = ov (rnd64 r) -> (-1074 <= a)%Z -> (-1074 <= b)%Z -> (b < 1024)%Z ->
  bpow radix2 a <= r <= bpow radix2 b -> mag a b x /\ to_R x = rnd64 r.
Proof.
  intros N E A B C H. pose proof (rnd_bounds a b r A B H) as K.
  assert (L : rnd64 r < bpow radix2 1024) by (eapply Rle_lt_trans; [apply K|apply bpow_lt; auto]).
  rewrite ov_small in E by auto.
  assert (F : fin64 x = true) by (apply nn_fin_lt; auto; rewrite E; auto).
  rewrite fin_pv in E by auto. rewrite E. repeat split; auto; try apply N; rewrite E; apply K.
Qed.
Lemma mag_mul a b c d x y : mag a b x -> mag c d y -> (-1074 <= a + c)%Z -> (-1074 <= b + d < 1024)%Z ->
  mag (a + c) (b + d) (SFmul 53 1024 x y) /\ to_R (SFmul 53 1024 x y) = rnd64 (to_R x * to_R y).
Proof.
  intros X Y A B. pose proof (mag_pos _ _ _ X). pose proof (mag_pos _ _ _ Y). destruct X as (Nx & Fx & Bx), Y as (Ny & Fy & By).
  destruct (mul_nn x y) as [N E]; auto. eapply mag_of; eauto; try lia.
  rewrite !bpow_plus. pose proof (bpow_ge_0 radix2 a). pose proof (bpow_ge_0 radix2 c). split; apply Rmult_le_compat; lra.
Qed.
Lemma mag_div a b c d x y : mag a b x -> mag c d y -> (-1074 <= a - d)%Z -> (-1074 <= b - c < 1024)%Z ->
  mag (a - d) (b - c) (SFdiv 53 1024 x y) /\ to_R (SFdiv 53 1024 x y) = rnd64 (to_R x / to_R y).
Proof.
  intros X Y A B. pose proof (mag_pos _ _ _ X). pose proof (mag_pos _ _ _ Y) as P. destruct X as (Nx & Fx & Bx), Y as (Ny & Fy & By).
  destruct (div_nn x y) as [N E]; auto. eapply mag_of; eauto; try lia.
  unfold Zminus. rewrite !bpow_plus, !bpow_opp. pose proof (bpow_gt_0 radix2 a). pose proof (bpow_gt_0 radix2 d). pose proof (bpow_gt_0 radix2 c).
  unfold Rdiv. split; apply Rmult_le_compat; try lra; try (left; apply Rinv_0_lt_compat; lra); apply Rinv_le_contravar; lra.
Qed.
Lemma mag_add a b x y : mag a b x -> mag a b y -> (-1074 <= a)%Z -> (-1074 <= b + 1 < 1024)%Z ->
  mag a (b + 1) (SFadd 53 1024 x y) /\ to_R (SFadd 53 1024 x y) = rnd64 (to_R x + to_R y).
Proof.
  intros X Y A B. pose proof (mag_pos _ _ _ X). pose proof (mag_pos _ _ _ Y). destruct X as (Nx & Fx & Bx), Y as (Ny & Fy & By).
  destruct (add_nn x y) as [N E]; auto. eapply mag_of; eauto; try lia.
  rewrite bpow_plus. change (bpow radix2 1) with 2. lra.
Qed.
Lemma mag_finite m e : SpecFloat.valid_binary 53 1024 (S754_finite false m e) = true ->
  mag (Z.log2 (Zpos m) + e) (Z.log2 (Zpos m) + e + 1) (S754_finite false m e).
Proof.
  intros V. split; [split; auto|]. split; [auto|]. cbn [SF2R cond_Zopp]. unfold F2R. cbn [Fnum Fexp].
  destruct (Z.log2_spec (Zpos m) eq_refl) as [L U]. pose proof (Z.log2_nonneg (Zpos m)).
  rewrite !bpow_plus. pose proof (bpow_gt_0 radix2 e). rewrite <- !IZR_Zpower by lia. change (radix_val radix2) with 2%Z.
  split; [apply Rmult_le_compat_r; [lra|]; apply IZR_le; auto|].
  apply IZR_le in L. apply IZR_lt in U. rewrite Z.pow_succ_r, mult_IZR in U by auto. change (bpow radix2 1) with 2.
  rewrite Rmult_assoc, (Rmult_comm (bpow radix2 e) 2), <- Rmult_assoc. apply Rmult_le_compat_r; lra.
Qed.
Ltac mag_const := match goal with |- mag ?a ?b ?x => let v := eval vm_compute in x in
  change (mag a b v); eapply mag_weaken; [apply mag_finite; reflexivity| |]; vm_compute; discriminate end.

Lemma one_mag : mag 0 0 (b64_ratio 1 1).
Proof.
  vm_compute b64_ratio. split; [split; reflexivity|]. split; [reflexivity|]. change (b64_ratio 1 1) with (S754_finite false 4503599627370496 (-52)).
  replace (to_R (S754_finite false 4503599627370496 (-52))) with 1; [change (bpow radix2 0) with 1; lra|].
  cbn. unfold F2R. cbn. lra.
Qed.
Lemma one_R : to_R (b64_ratio 1 1) = 1.
Proof. destruct one_mag as (_ & _ & H). change (bpow radix2 0) with 1 in H. lra. Qed.

Section Lib.
  Context (lib : libm).
  Lemma c1_mag : mag (-7) (-6) (@PLANCK_C1 (B64N lib)).
  Proof. mag_const. Qed.
  Lemma c2_mag : mag (-53) (-52) (@PLANCK_C2 (B64N lib)).
  Proof. mag_const. Qed.
  Lemma eps_mag : mag (-20) (-19) (@BB_EPSILON (B64N lib)).
  Proof. mag_const. Qed.
End Lib.

Lemma SFmul_comm x y : SFmul 53 1024 x y = SFmul 53 1024 y x.
Proof.
  destruct x as [s|s| |s m e], y as [s'|s'| |s' m' e']; cbn [SFmul]; rewrite ?(xorb_comm s s'), ?(Pos.mul_comm m m'), ?(Z.add_comm e e'); reflexivity.
Qed.

(** ** Planck's function *)
Lemma double_mag lo hi a b x : double_between lo hi x -> bpow radix2 a <= lo -> hi <= bpow radix2 b -> mag a b x.
Proof.
  intros ([V F] & H) A B. pose proof (bpow_gt_0 radix2 a). split; [|split; [auto|lra]].
  apply nn_of_fin; auto. apply sign_pos; auto. lra.
Qed.
Lemma wave_mag w : double_between (1 / 10 ^ 12) (10 ^ 12) w -> mag (-40) 40 w.
Proof. intros H. eapply double_mag; [exact H| |]; cbn; lra. Qed.

Section Mono.
  Context (lib : libm).
  Notation N := (B64N lib).

  Lemma pow3_mag w : mag (-40) 40 w -> mag (-120) 120 (@npow N w 3).
  Proof.
    intros W. cbn [npow]. destruct (mag_mul _ _ _ _ w w W W) as [W2 _]; [lia|lia|].
    destruct (mag_mul _ _ _ _ _ _ W2 W) as [W3 _]; [lia|lia|]. exact W3.
  Qed.
  Lemma pow5_mag w : mag (-40) 40 w -> mag (-200) 200 (@npow N w 5).
  Proof.
    intros W. cbn [npow]. destruct (mag_mul _ _ _ _ w w W W) as [W2 _]; [lia|lia|].
    destruct (mag_mul _ _ _ _ _ _ W2 W) as [W3 _]; [lia|lia|]. destruct (mag_mul _ _ _ _ _ _ W3 W) as [W4 _]; [lia|lia|].
    destruct (mag_mul _ _ _ _ _ _ W4 W) as [W5 _]; [lia|lia|]. exact W5.
  Qed.
  Lemma nom_mag wl w : mag (-40) 40 w -> mag (-253) 148 (@planck_nom N wl w).
  Proof.
    intros W. unfold planck_nom. destruct wl.
    - destruct (mag_div _ _ _ _ _ _ (c2_mag lib) (pow5_mag w W)) as [H _]; [lia|lia|]. eapply mag_weaken; [exact H|lia|lia].
    - destruct (mag_mul _ _ _ _ _ _ (c2_mag lib) (pow3_mag w W)) as [H _]; [lia|lia|]. eapply mag_weaken; [exact H|lia|lia].
  Qed.
  Lemma arg1_mag wl w : mag (-40) 40 w -> mag (-47) 34 (@planck_arg1 N wl w).
  Proof.
    intros W. unfold planck_arg1. destruct wl.
    - destruct (mag_div _ _ _ _ _ _ (c1_mag lib) W) as [H _]; [lia|lia|]. eapply mag_weaken; [exact H|lia|lia].
    - destruct (mag_mul _ _ _ _ _ _ (c1_mag lib) W) as [H _]; [lia|lia|]. eapply mag_weaken; [exact H|lia|lia].
  Qed.
  (** temperatures of at least a millikelvin *)
  Notation hot t := (encodable t /\ le_double (b64_ratio 1 1000) t).
  Lemma hot_nn t : hot t -> nn t.
  Proof.
    intros [V L]. assert (M : mag (-10) (-9) (b64_ratio 1 1000)) by mag_const.
    destruct (le_nn _ _ (proj1 M) V L) as [H|H]; auto. pose proof (mag_pos _ _ _ M). destruct M as (_ & F & _).
    rewrite fin_pv in H by auto. lra.
  Qed.
  Lemma ltb_pv x y : nn x -> nn y -> SFltb x y = Rlt_bool (pv x) (pv y).
  Proof.
    intros Nx Ny. destruct (nn_cases x Nx) as [Fx| ->]; destruct (nn_cases y Ny) as [Fy| ->].
    - rewrite !fin_pv by auto. apply ltb_R; auto; [apply Nx|apply Ny].
    - rewrite Rlt_bool_true by (apply (nn_fin_lt x Nx); auto). destruct Nx as [_ Nx]; destruct x; try discriminate; reflexivity.
    - rewrite Rlt_bool_false by (cbn [pv]; apply nn_range; auto). destruct Ny as [_ Ny]; destruct y; try discriminate; reflexivity.
    - rewrite Rlt_bool_false by (cbn [pv]; lra). reflexivity.
  Qed.
  Lemma nabs_nn (t : N) : nn t -> @nabs N t = t.
  Proof.
    intros H. unfold nabs. change (nltb N t (@n0 N)) with (SFltb t (S754_zero false)).
    rewrite ltb_pv by auto using nn_zero. rewrite Rlt_bool_false; auto. apply nn_range; auto.
  Qed.
  Lemma arg2_hot t : hot t -> @planck_arg2 N t = SFdiv 53 1024 (b64_ratio 1 1) t.
  Proof.
    intros H. pose proof (hot_nn t H) as Nt. unfold planck_arg2. rewrite nabs_nn by auto.
    change (nltb N (@BB_EPSILON N) t) with (SFltb (@BB_EPSILON N) t). rewrite ltb_pv by (auto; apply (eps_mag lib)).
    rewrite Rlt_bool_true; auto. destruct H as [_ H]. assert (M : mag (-10) (-9) (b64_ratio 1 1000)) by mag_const.
    apply le_pv in H; auto; [|apply M]. destruct M as (_ & F & M). rewrite fin_pv in H by auto.
    destruct (eps_mag lib) as (_ & F' & M'). rewrite fin_pv by auto. cbn [bpow radix_val radix2] in M, M'.
    enough (bpow radix2 (-19) < bpow radix2 (-10)) by lra. apply bpow_lt. lia.
  Qed.

  Section Exp.
  Context (EX : monotone_exp (m_exp lib)).
  Lemma exp_nn x : nn x -> nn (m_exp lib x) /\ le64 (b64_ratio 1 1) (m_exp lib x).
  Proof.
    intros Nx. assert (L : le64 (b64_ratio 1 1) (m_exp lib x)).
    { rewrite <- (exp_zero _ EX). apply (exp_order _ EX); [reflexivity|apply Nx|]. apply le_zero; auto. }
    split; auto. destruct (le_nn _ _ (proj1 one_mag) (exp_encodable _ EX x (proj1 Nx)) L) as [H|H]; auto.
    exfalso. destruct one_mag as (_ & F & _). rewrite fin_pv, one_R in H by auto. lra.
  Qed.
  Lemma planck1_mono wl w t t' : mag (-40) 40 w -> hot t -> encodable t' -> le_double t t' ->
    nn (@planck1 N wl w t) /\ nn (@planck1 N wl w t') /\ le64 (@planck1 N wl w t) (@planck1 N wl w t').
  Proof.
    intros W H V' L. assert (H' : hot t').
    { split; auto. assert (M : mag (-10) (-9) (b64_ratio 1 1000)) by mag_const. pose proof (hot_nn t H) as Nt.
      destruct (le_nn t t' Nt V' L) as [Nt'|Z].
      - eapply le_trans with (y := t); auto; [apply M|apply H].
      - exfalso. destruct H as [_ H]. apply le_pv in H; auto; [|apply M]. pose proof (mag_pos _ _ _ M). destruct M as (_ & F & _). rewrite fin_pv in H by auto. lra. }
    pose proof (hot_nn t H) as Nt. pose proof (hot_nn t' H') as Nt'.
    unfold planck1. rewrite !arg2_hot by auto.
    pose proof (nom_mag wl w W) as MN. pose proof (arg1_mag wl w W) as MA.
    pose proof (mag_pos _ _ _ MN) as PN. pose proof (mag_pos _ _ _ MA) as PA.
    set (nom := @planck_nom N wl w) in *. set (a := @planck_arg1 N wl w) in *. clearbody nom a.
    destruct MN as (NN & FN & _), MA as (NA & FA & _). destruct one_mag as (N1 & F1 & _).
    destruct (div_anti (b64_ratio 1 1) t t') as (D1 & D2 & D3); auto; [rewrite one_R; lra|].
    destruct (mul_mono a _ _ NA D2 D1 FA PA D3) as (E1 & E2 & E3).
    destruct (exp_nn _ E1) as [X1 Y1]. destruct (exp_nn _ E2) as [X2 Y2].
    assert (X3 : le64 (m_exp lib (SFmul 53 1024 a (SFdiv 53 1024 (b64_ratio 1 1) t'))) (m_exp lib (SFmul 53 1024 a (SFdiv 53 1024 (b64_ratio 1 1) t)))).
    { apply (exp_order _ EX); auto; [apply E1|apply E2]. }
    destruct (sub_mono (b64_ratio 1 1) _ _ N1 X1 X2 F1 Y1 X3) as (S1 & S2 & S3).
    destruct (div_anti nom _ _ NN S1 S2 FN PN S3) as (Q1 & Q2 & Q3).
    split; [exact Q2|]. split; [exact Q1|exact Q3].
  Qed.
  End Exp.

  (** ** The inverses *)
  Section Log.
  Context (LG : monotone_log (m_log lib)).
  Lemma nn_sandwich y : encodable y -> le64 (S754_zero false) y -> y <> S754_zero true -> nn y.
  Proof.
    intros V L D. split; auto. unfold le64, SFleb in L. destruct y as [s|s| |s m e]; cbn in L; try discriminate; destruct s; try discriminate; auto; now elim D.
  Qed.
  Lemma log_nn x : nn x -> le64 (b64_ratio 1 1) x -> nn (m_log lib x).
  Proof.
    intros Nx L. apply nn_sandwich; [apply (log_encodable _ LG), Nx| |apply (log_plus _ LG)].
    rewrite <- (log_one _ LG). apply (log_order _ LG); [apply one_mag|apply Nx|apply le_refl, one_mag|exact L].
  Qed.
  (** log (x + 1) *)
  Lemma log1_mono x y : nn x -> nn y -> le64 x y ->
    nn (m_log lib (SFadd 53 1024 x (b64_ratio 1 1))) /\ nn (m_log lib (SFadd 53 1024 y (b64_ratio 1 1))) /\
    le64 (m_log lib (SFadd 53 1024 x (b64_ratio 1 1))) (m_log lib (SFadd 53 1024 y (b64_ratio 1 1))).
  Proof.
    intros Nx Ny L. pose proof (proj1 one_mag) as N1.
    destruct (add_mono _ _ _ _ Nx Ny N1 N1 L (le_refl _ N1)) as (A & B & C).
    assert (Z : forall z, nn z -> le64 (b64_ratio 1 1) (SFadd 53 1024 z (b64_ratio 1 1))).
    { intros z Nz. destruct (add_mono _ _ _ _ nn_zero Nz N1 N1 (le_zero z Nz) (le_refl _ N1)) as (_ & _ & K). exact K. }
    split; [apply log_nn; auto|]. split; [apply log_nn; auto|]. apply (log_order _ LG); [apply A|apply B|apply Z; auto|exact C].
  Qed.
  Lemma rad2temp_mono w r r' : mag (-40) 40 w -> nn r -> nn r' -> le64 r r' ->
    nn (@rad2temp N w r) /\ nn (@rad2temp N w r') /\ le64 (@rad2temp N w r) (@rad2temp N w r').
  Proof.
    intros W Nr Nr' L. unfold rad2temp. pose proof (pow5_mag w W) as P5. pose proof (mag_pos _ _ _ P5) as Q5.
    pose proof (c1_mag lib) as M1. pose proof (mag_pos _ _ _ M1) as Q1. pose proof (c2_mag lib) as M2. pose proof (mag_pos _ _ _ M2) as Q2.
    pose proof (mag_pos _ _ _ W) as QW.
    set (p5 := @npow N w 5) in *. set (c1 := @PLANCK_C1 N) in *. set (c2 := @PLANCK_C2 N) in *. clearbody p5 c1 c2.
    destruct P5 as (N5 & F5 & _), M1 as (N1 & F1 & _), M2 as (N2 & F2 & _), W as (NW & FW & _).
    change (nmul N r p5) with (SFmul 53 1024 r p5). change (nmul N r' p5) with (SFmul 53 1024 r' p5).
    rewrite (SFmul_comm r p5), (SFmul_comm r' p5).
    destruct (mul_mono p5 r r') as (A1 & A2 & A3); auto.
    destruct (div_anti c2 _ _ N2 A1 A2 F2 Q2 A3) as (B1 & B2 & B3).
    destruct (log1_mono _ _ B2 B1 B3) as (C1 & C2 & C3).
    destruct (mul_mono w _ _ NW C1 C2 FW QW C3) as (D1 & D2 & D3).
    destruct (div_anti c1 _ _ N1 D1 D2 F1 Q1 D3) as (E1 & E2 & E3).
    split; [exact E2|]. split; [exact E1|exact E3].
  Qed.
  Lemma wn_rad2temp_mono w r r' : mag (-40) 40 w -> nn r -> nn r' -> le64 r r' ->
    nn (@wn_rad2temp N w r) /\ nn (@wn_rad2temp N w r') /\ le64 (@wn_rad2temp N w r) (@wn_rad2temp N w r').
  Proof.
    intros W Nr Nr' L. unfold wn_rad2temp. pose proof (pow3_mag w W) as P3.
    destruct (mag_mul _ _ _ _ _ _ (c1_mag lib) W) as [M1 _]; [lia|lia|]. destruct (mag_mul _ _ _ _ _ _ (c2_mag lib) P3) as [M2 _]; [lia|lia|].
    pose proof (mag_pos _ _ _ M1) as Q1. pose proof (mag_pos _ _ _ M2) as Q2.
    change (nmul N (@PLANCK_C1 N) w) with (SFmul 53 1024 (@PLANCK_C1 N) w).
    change (nmul N (@PLANCK_C2 N) (@npow N w 3)) with (SFmul 53 1024 (@PLANCK_C2 N) (@npow N w 3)).
    set (c1 := SFmul 53 1024 (@PLANCK_C1 N) w) in *. set (c2 := SFmul 53 1024 (@PLANCK_C2 N) _) in *. clearbody c1 c2.
    destruct M1 as (N1 & F1 & _), M2 as (N2 & F2 & _).
    destruct (div_anti c2 _ _ N2 Nr Nr' F2 Q2 L) as (B1 & B2 & B3).
    destruct (log1_mono _ _ B2 B1 B3) as (C1 & C2 & C3).
    destruct (div_anti c1 _ _ N1 C1 C2 F1 Q1 C3) as (E1 & E2 & E3).
    split; [exact E2|]. split; [exact E1|exact E3].
  Qed.
  End Log.
End Mono.
