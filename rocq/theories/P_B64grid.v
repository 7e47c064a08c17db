(** The resampling grid in doubles. *)
From Coq Require Import ZArith Reals Lra Lia List Bool String SpecFloat Sorting.Sorted.
From Flocq Require Import Core BinarySingleNaN Relative.
From Verif Require Import Base NumSig XR B64 M_Utils M_Solar S_B64 P_Utils P_B64 P_B64ops.
Import ListNotations.
Local Open Scope R_scope.

Definition u64 : R := bpow radix2 (-53).
Lemma u64_bounds : 0 < u64 <= / 4 * / IZR (2 ^ 50) /\ u64 <= / 1000.
Proof.
  unfold u64. split; [split|].
  - apply bpow_gt_0.
  - change 2%Z with (radix_val radix2). rewrite IZR_Zpower by lia. rewrite <- bpow_opp. change (bpow radix2 (-53)) with (/ IZR 9007199254740992).
    change (bpow radix2 (-(50))) with (/ IZR 1125899906842624). lra.
  - change (bpow radix2 (-53)) with (/ IZR 9007199254740992). lra.
Qed.
Lemma rnd_rel x : bpow radix2 (-1022) <= Rabs x -> Rabs (rnd64 x - x) <= u64 * Rabs x.
Proof.
  intros H. pose proof (relative_error_N_FLT radix2 (-1074) 53 ltac:(lia) (fun z => negb (Z.even z)) x H) as E.
  eapply Rle_trans; [exact E|]. right. unfold u64. f_equal.
  replace (bpow radix2 (- (53) + 1)) with (2 * bpow radix2 (-53)) by (change 2 with (bpow radix2 1); rewrite <- bpow_plus; reflexivity). lra.
Qed.
Lemma rnd_rel_pos x : bpow radix2 (-1022) <= x -> (1 - u64) * x <= rnd64 x <= (1 + u64) * x.
Proof.
  intros H. pose proof (bpow_gt_0 radix2 (-1022)). pose proof (rnd_rel x) as E. rewrite Rabs_pos_eq in E by lra. specialize (E H).
  apply Rabs_le_inv in E. lra.
Qed.

Lemma Rdiv_nonneg a b : 0 <= a -> 0 < b -> 0 <= a / b.
Proof. intros. apply Rmult_le_pos; [auto|]. left. now apply Rinv_0_lt_compat. Qed.

(** magnitudes: from 1e-100 to 1e100, and down by 2^60 *)
Lemma small100 : bpow radix2 (-400) <= 1 / 10 ^ 100.
Proof.
  unfold Rdiv. rewrite Rmult_1_l. replace (bpow radix2 (-400)) with (/ 16 ^ 100).
  - apply Rinv_le_contravar; [apply pow_lt; lra|]. apply pow_incr. lra.
  - change (-400)%Z with (- (400))%Z. rewrite bpow_opp. f_equal.
    change (bpow radix2 400) with (IZR (Z.pow_pos 2 400)). replace (Z.pow_pos 2 400) with (16 ^ 100)%Z by reflexivity.
    change 100%Z with (Z.of_nat 100). now rewrite <- pow_IZR.
Qed.
Lemma big100 : 10 ^ 100 <= bpow radix2 400.
Proof.
  replace (bpow radix2 400) with (16 ^ 100).
  - apply pow_incr. lra.
  - change (bpow radix2 400) with (IZR (Z.pow_pos 2 400)). replace (Z.pow_pos 2 400) with (16 ^ 100)%Z by reflexivity.
    change 100%Z with (Z.of_nat 100). now rewrite <- pow_IZR.
Qed.
Lemma bpow_small x : Rabs x <= bpow radix2 1000 -> Rabs (rnd64 x) < bpow radix2 1024.
Proof.
  intros H. apply (rnd_abs_lt x (bpow radix2 1000)); auto.
  - apply generic_format_bpow. cbn. lia.
  - apply bpow_lt. lia.
Qed.

Section Grid.
  Variables (lib : libm) (start stop : b64) (k : Z).
  Hypotheses (Ds : is_double start) (De : is_double stop) (Hk : (1 <= k <= 2 ^ 50)%Z).
  Let D := to_R stop - to_R start.
  Hypothesis HD : 1 / 10 ^ 100 <= D <= 10 ^ 100.

  Let delta := SFsub 53 1024 stop start.
  Let step := SFdiv 53 1024 delta (b64_ratio k 1).

  Lemma k_R : dbl (b64_ratio k 1) /\ fin64 (b64_ratio k 1) = true /\ to_R (b64_ratio k 1) = IZR k.
  Proof. apply ratio_int. lia. Qed.
  Lemma k_pos : 1 <= IZR k <= bpow radix2 50.
  Proof. split; [apply IZR_le; lia|]. change (bpow radix2 50) with (IZR (2 ^ 50)). apply IZR_le. lia. Qed.

  Lemma D_big : bpow radix2 (-400) <= D <= bpow radix2 400.
  Proof. pose proof small100. pose proof big100. lra. Qed.

  Lemma delta_R : dbl delta /\ fin64 delta = true /\ (1 - u64) * D <= to_R delta <= (1 + u64) * D.
  Proof.
    destruct Ds as [Vs Fs], De as [Ve Fe]. pose proof D_big as B. pose proof (bpow_gt_0 radix2 (-400)).
    destruct (sub_R stop start Ve Vs Fe Fs) as [E F].
    { apply bpow_small. fold D. rewrite Rabs_pos_eq by lra. apply Rle_trans with (bpow radix2 400); [lra|apply bpow_le; lia]. }
    split; [apply sub_dbl; auto|]. split; [exact F|]. unfold delta. rewrite E. fold D. apply rnd_rel_pos.
    apply Rle_trans with (bpow radix2 (-400)); [apply bpow_le; lia|lra].
  Qed.

  Lemma delta_mag : bpow radix2 (-401) <= to_R delta <= bpow radix2 401.
  Proof.
    destruct delta_R as (_ & _ & H1 & H2). pose proof D_big as [B1 B2]. pose proof u64_bounds as ((U1 & _) & U2).
    pose proof (bpow_gt_0 radix2 (-400)).
    split.
    - replace (bpow radix2 (-401)) with (/ 2 * bpow radix2 (-400)) by (change (-401)%Z with (-1 + -400)%Z; rewrite bpow_plus; reflexivity).
      assert (/ 2 * D <= (1 - u64) * D) by (apply Rmult_le_compat_r; lra). lra.
    - change 401%Z with (1 + 400)%Z. rewrite bpow_plus. change (bpow radix2 1) with 2.
      assert ((1 + u64) * D <= 2 * D) by (apply Rmult_le_compat_r; lra). lra.
  Qed.

  Lemma step_R : dbl step /\ fin64 step = true /\ bpow radix2 (-460) <= to_R step /\
    to_R step <= (1 + u64) * (to_R delta / IZR k).
  Proof.
    destruct k_R as (Vk & Fk & Ek). destruct delta_R as (Vd & Fd & _). pose proof delta_mag as [M1 M2]. pose proof k_pos as [K1 K2].
    pose proof (bpow_gt_0 radix2 (-401)).
    assert (Q1 : bpow radix2 (-451) <= to_R delta / IZR k).
    { apply Rmult_le_reg_r with (IZR k); [lra|]. unfold Rdiv. rewrite Rmult_assoc, Rinv_l, Rmult_1_r by lra.
      apply Rle_trans with (bpow radix2 (-451) * bpow radix2 50); [apply Rmult_le_compat_l; [apply bpow_ge_0|lra]|].
      rewrite <- bpow_plus. exact M1. }
    assert (Q2 : to_R delta / IZR k <= bpow radix2 401).
    { apply Rmult_le_reg_r with (IZR k); [lra|]. unfold Rdiv. rewrite Rmult_assoc, Rinv_l, Rmult_1_r by lra.
      apply Rle_trans with (bpow radix2 401 * 1); [lra|apply Rmult_le_compat_l; [apply bpow_ge_0|lra]]. }
    pose proof (bpow_gt_0 radix2 (-451)).
    destruct (div_R delta (b64_ratio k 1) Vd Vk Fd) as [E F].
    { rewrite Ek. lra. }
    { rewrite Ek. apply bpow_small. rewrite Rabs_pos_eq by lra. apply Rle_trans with (bpow radix2 401); [lra|apply bpow_le; lia]. }
    rewrite Ek in E. unfold step. split; [apply div_dbl; auto|]. split; [exact F|]. rewrite E.
    split.
    - apply round_ge_generic; auto with typeclass_instances. { apply generic_format_bpow. cbn. lia. }
      apply Rle_trans with (bpow radix2 (-451)); [apply bpow_le; lia|exact Q1].
    - apply rnd_rel_pos. apply Rle_trans with (bpow radix2 (-451)); [apply bpow_le; lia|exact Q1].
  Qed.

  Definition offset (i : Z) : b64 := SFmul 53 1024 (b64_ratio i 1) step.
  Lemma step_big : to_R step <= bpow radix2 403.
  Proof.
    destruct step_R as (_ & _ & _ & H). pose proof delta_mag as [M1 M2]. pose proof k_pos as [K1 K2]. pose proof u64_bounds as ((U1 & _) & U2).
    pose proof (bpow_gt_0 radix2 (-401)).
    assert (to_R delta / IZR k <= to_R delta).
    { apply Rmult_le_reg_r with (IZR k); [lra|]. unfold Rdiv. rewrite Rmult_assoc, Rinv_l, Rmult_1_r by lra.
      rewrite <- (Rmult_1_r (to_R delta)) at 1. apply Rmult_le_compat_l; lra. }
    change 403%Z with (2 + 401)%Z. rewrite bpow_plus. change (bpow radix2 2) with 4.
    assert (0 <= to_R delta / IZR k) by (apply Rdiv_nonneg; lra).
    apply Rle_trans with (4 * (to_R delta / IZR k)); [|lra]. eapply Rle_trans; [exact H|]. apply Rmult_le_compat_r; lra.
  Qed.
  Lemma offset_R i : (0 <= i < k)%Z -> dbl (offset i) /\ fin64 (offset i) = true /\
    to_R (offset i) = rnd64 (IZR i * to_R step) /\ 0 <= to_R (offset i) <= D.
  Proof.
    intros Hi. destruct (ratio_int i ltac:(lia)) as (Vi & Fi & Ei). destruct step_R as (Vs & Fs & S1 & S2).
    pose proof step_big as S3. pose proof k_pos as [K1 K2]. pose proof (bpow_gt_0 radix2 (-460)). pose proof D_big as [D1 D2].
    pose proof (bpow_gt_0 radix2 (-400)). destruct delta_R as (_ & _ & _ & De2). pose proof u64_bounds as ((U1 & U3) & U2).
    assert (I0 : 0 <= IZR i <= IZR k - 1). { split; [apply IZR_le; lia|]. rewrite <- minus_IZR. apply IZR_le. lia. }
    assert (P0 : 0 <= IZR i * to_R step) by (apply Rmult_le_pos; lra).
    assert (P1 : IZR i * to_R step <= bpow radix2 453).
    { change 453%Z with (50 + 403)%Z. rewrite bpow_plus. apply Rmult_le_compat; lra. }
    destruct (mul_R (b64_ratio i 1) step Vi Vs Fi Fs) as [E F].
    { rewrite Ei. apply bpow_small. rewrite Rabs_pos_eq by lra. apply Rle_trans with (bpow radix2 453); [lra|apply bpow_le; lia]. }
    rewrite Ei in E. unfold offset. split; [apply mul_dbl; auto|]. split; [exact F|]. split; [exact E|]. rewrite E.
    split; [apply rnd_nonneg; auto|].
    destruct (Z.eq_dec i 0) as [->|Ni]. { rewrite Rmult_0_l, rnd_0. lra. }
    assert (I1 : 1 <= IZR i) by (apply IZR_le; lia).
    assert (R1 : rnd64 (IZR i * to_R step) <= (1 + u64) * (IZR i * to_R step)).
    { apply rnd_rel_pos. apply Rle_trans with (1 * to_R step); [|apply Rmult_le_compat_r; lra].
      rewrite Rmult_1_l. apply Rle_trans with (bpow radix2 (-460)); [apply bpow_le; lia|lra]. }
    eapply Rle_trans; [exact R1|].
    (* (1+u)^3 (k-1)/k D <= D *)
    apply Rle_trans with ((1 + u64) * ((IZR k - 1) * ((1 + u64) * ((1 + u64) * D / IZR k)))).
    { apply Rmult_le_compat_l; [lra|]. apply Rmult_le_compat; try lra.
      eapply Rle_trans; [exact S2|]. apply Rmult_le_compat_l; [lra|]. unfold Rdiv. apply Rmult_le_compat_r; [|exact De2].
      left. apply Rinv_0_lt_compat. lra. }
    replace ((1 + u64) * ((IZR k - 1) * ((1 + u64) * ((1 + u64) * D / IZR k)))) with (((1 + u64) ^ 3 * (IZR k - 1)) * (D / IZR k)) by (field; lra).
    replace D with (IZR k * (D / IZR k)) at 2 by (field; lra).
    apply Rmult_le_compat_r. { apply Rdiv_nonneg; lra. }
    assert (C3 : (1 + u64) ^ 3 <= 1 + 4 * u64).
    { assert (0 <= u64 * u64) by (apply Rmult_le_pos; lra).
      assert (u64 * u64 <= / 1000 * u64) by (apply Rmult_le_compat_r; lra).
      assert (u64 * (u64 * u64) <= / 1000 * (u64 * u64)) by (apply Rmult_le_compat_r; lra). simpl. lra. }
    assert (KU : u64 * (IZR k - 1) <= / 4).
    { apply Rle_trans with (/ 4 * / IZR (2 ^ 50) * IZR (2 ^ 50)).
      - apply Rmult_le_compat; try lra. change (bpow radix2 50) with (IZR (2 ^ 50)) in K2. lra.
      - rewrite Rmult_assoc, Rinv_l, Rmult_1_r; [lra|]. apply not_0_IZR. lia. }
    apply Rle_trans with ((1 + 4 * u64) * (IZR k - 1)); [apply Rmult_le_compat_r; lra|]. lra.
  Qed.

  Definition gpoint (i : Z) : b64 := SFadd 53 1024 start (offset i).
  Lemma gpoint_R i : (0 <= i < k)%Z -> is_double (gpoint i) /\
    to_R (gpoint i) = rnd64 (to_R start + rnd64 (IZR i * to_R step)) /\ to_R start <= to_R (gpoint i) <= to_R stop.
  Proof.
    intros Hi. destruct (offset_R i Hi) as (Vo & Fo & Eo & O1 & O2). destruct Ds as [Vs Fs], De as [Ve Fe].
    assert (B : to_R start <= rnd64 (to_R start + to_R (offset i)) <= to_R stop).
    { split; [apply rnd_ge; auto; lra|apply rnd_le_dbl; auto]. unfold D in O2. lra. }
    destruct (add_R start (offset i) Vs Vo Fs Fo) as [E F].
    { pose proof (fin_bound start Vs Fs). pose proof (fin_bound stop Ve Fe). apply Rabs_lt. apply Rabs_def2 in H, H0. lra. }
    unfold gpoint. split; [split; [apply add_dbl; auto|exact F]|]. rewrite E, <- Eo. auto.
  Qed.
  Lemma gpoint_0 : to_R (gpoint 0) = to_R start.
  Proof.
    destruct (gpoint_R 0 ltac:(lia)) as (_ & -> & _). rewrite Rmult_0_l, rnd_0, Rplus_0_r. destruct Ds. apply rnd_dbl; auto.
  Qed.
  Lemma gpoint_mono i j : (0 <= i <= j)%Z -> (j < k)%Z -> to_R (gpoint i) <= to_R (gpoint j).
  Proof.
    intros Hi Hj. destruct (gpoint_R i ltac:(lia)) as (_ & -> & _). destruct (gpoint_R j ltac:(lia)) as (_ & -> & _).
    apply rnd_le. apply Rplus_le_compat_l. apply rnd_le. apply Rmult_le_compat_r; [|apply IZR_le; lia].
    destruct step_R as (_ & _ & H & _). pose proof (bpow_gt_0 radix2 (-460)). lra.
  Qed.

  Lemma linspace_gpoints : @linspace (B64N lib) start stop (k + 1) =
    Ok (map (fun i => gpoint (Z.of_nat i)) (seq 0 (Z.to_nat k)) ++ [stop])%list.
  Proof.
    unfold linspace. destruct (Z.ltb_spec (k + 1) 0); [lia|]. destruct (Z.eqb_spec (k + 1) 0) as [Q|Q]; [lia|]. destruct (Z.eqb_spec (k + 1) 1) as [Q'|Q']; [lia|].
    replace (k + 1 - 1)%Z with k by lia.
    cbv zeta.
    change (ndiv (B64N lib) (nsub (B64N lib) stop start) (@nZ (B64N lib) k)) with step.
    assert (E : neqb (B64N lib) step (@n0 (B64N lib)) = false).
    { change (SFeqb step (S754_zero false) = false). destruct step_R as (V & F & HS & _). pose proof (bpow_gt_0 radix2 (-460)).
      rewrite eqb_R; auto. cbn [SF2R]. apply Req_bool_false. lra. }
    rewrite E. reflexivity.
  Qed.
End Grid.

Lemma linspace64 lib start stop num g : is_double start -> is_double stop ->
  1 / 10 ^ 100 <= to_R stop - to_R start <= 10 ^ 100 -> @linspace (B64N lib) start stop num = Ok g -> (num <= 2 ^ 50)%Z ->
  Forall (in_band start stop) g /\ Sorted Rle (map to_R g) /\ List.length g = Z.to_nat num /\
  ((1 <= num)%Z -> exists x, hd_error g = Some x /\ to_R x = to_R start) /\ ((2 <= num)%Z -> last g start = stop).
Proof.
  intros Ds De HD E Hn. assert (P : 0 < 1 / 10 ^ 100) by (apply Rdiv_lt_0_compat; [lra|apply pow_lt; lra]).
  destruct (Z_lt_dec num 2) as [L|L].
  - unfold linspace in E. destruct (Z.ltb_spec num 0); [discriminate|]. destruct (Z.eqb_spec num 0) as [->|].
    { injection E as <-. split; [constructor|]. split; [constructor|]. split; [reflexivity|]. split; lia. }
    destruct (Z.eqb_spec num 1) as [->|]; [|lia]. injection E as <-.
    assert (B : in_band start stop (SFadd 53 1024 start (SFmul 53 1024 (S754_zero false) (SFsub 53 1024 stop start))) /\
                to_R (SFadd 53 1024 start (SFmul 53 1024 (S754_zero false) (SFsub 53 1024 stop start))) = to_R start).
    { pose proof (delta_R start stop Ds De HD) as (Vd & Fd & _).
      assert (Ez : exists s, SFmul 53 1024 (S754_zero false) (SFsub 53 1024 stop start) = S754_zero s).
      { destruct (SFsub 53 1024 stop start); try discriminate; cbn; eauto. }
      destruct Ez as [s ->].
      assert (Es : to_R (SFadd 53 1024 start (S754_zero s)) = to_R start /\ is_double (SFadd 53 1024 start (S754_zero s))).
      { destruct Ds as [V F]. destruct start as [t|t| |t m e]; try discriminate; cbn; [|split; [reflexivity|split; auto]].
        destruct (Bool.eqb t s); (split; [reflexivity|split; reflexivity]). }
      destruct Es as [E1 E2]. split; [split; [exact E2|]|exact E1]. rewrite E1. lra. }
    destruct B as [B1 B2]. split; [constructor; [exact B1|constructor]|]. split; [repeat constructor|]. split; [reflexivity|].
    split; [|lia]. intros _. eexists. split; [reflexivity|exact B2].
  - replace num with (num - 1 + 1)%Z in E by lia. rewrite linspace_gpoints in E by (auto; lia). injection E as <-.
    set (k := (num - 1)%Z) in *. assert (Hk : (1 <= k <= 2 ^ 50)%Z) by lia.
    assert (G : forall i, In i (seq 0 (Z.to_nat k)) -> in_band start stop (gpoint start stop k (Z.of_nat i))).
    { intros i Hi. apply in_seq in Hi. destruct (gpoint_R start stop k Ds De Hk HD (Z.of_nat i) ltac:(lia)) as (A & _ & B). split; auto. }
    split; [|split; [|split; [|split]]].
    + apply Forall_app. split.
      * apply Forall_forall. intros x Hx. apply in_map_iff in Hx. destruct Hx as (i & <- & Hi). auto.
      * constructor; [|constructor]. split; [exact De|lra].
    + rewrite map_app. cbn [map].
      assert (S : forall n i, (i + n <= Z.to_nat k)%nat ->
        Sorted Rle (map to_R (map (fun i => gpoint start stop k (Z.of_nat i)) (seq i n)) ++ [to_R stop])).
      { induction n as [|n IH]; intros i Hi; cbn [seq map app]; [repeat constructor|]. constructor; [apply IH; lia|].
        destruct n as [|n]; cbn [seq map app].
        - constructor. apply (G i). apply in_seq. lia.
        - constructor. apply gpoint_mono; auto; lia. }
      apply (S (Z.to_nat k) 0%nat). lia.
    + rewrite app_length, map_length, seq_length. cbn. lia.
    + intros _. replace (Z.to_nat k) with (S (Z.to_nat (k - 1))) by lia. cbn [seq map app hd_error].
      eexists. split; [reflexivity|]. apply gpoint_0; auto.
    + intros _. apply last_last.
Qed.

Lemma keep_all {A} (m : list bool) : forall l : list A, List.length l = List.length m -> Forall (eq true) m -> keep m l = l.
Proof.
  induction m as [|b m IH]; intros [|a l] L H; try discriminate; [reflexivity|]. inversion H; subst. cbn. f_equal. apply IH; auto.
Qed.

Lemma band_double : forall lib spline (s : spectrum (B64N lib)) rsr scale det flux wvl resp start stop x respf irrf g,
  rsr_curve s rsr det scale = Ok (wvl, resp) -> hd_error wvl = Some start -> last wvl start = stop ->
  is_double start -> is_double stop -> 1 / 10 ^ 100 <= to_R stop - to_R start <= 10 ^ 100 ->
  resample_grid start stop (so_dlambda s) = Ok g -> (Z.of_nat (List.length g) <= 2 ^ 50)%Z ->
  coord s = Some x -> spline wvl resp = Ok respf -> spline x (so_irradiance s) = Ok irrf ->
  Forall (in_band start stop) g /\ Sorted Rle (map to_R g) /\
  exists v, snd (band_calculations spline s rsr flux scale det) = Ok v /\
            so_ipol (fst (band_calculations spline s rsr flux scale det)) = Some (g, map irrf g).
Proof.
  intros lib spline s rsr scale det flux wvl resp start stop x respf irrf g Er Eh El Ds De HD Eg Ln Ex E1 E2.
  assert (Eg' := Eg). unfold resample_grid in Eg'. destruct (n_points start stop (so_dlambda s)) as [num|] eqn:En; [|discriminate]. cbn [bind] in Eg'.
  assert (Hnum : (num <= 2 ^ 50)%Z).
  { destruct (Z_le_dec num (2 ^ 50)); auto. exfalso.
    unfold linspace in Eg'. destruct (Z.ltb_spec num 0); [discriminate|]. destruct (Z.eqb_spec num 0); [lia|]. destruct (Z.eqb_spec num 1); [lia|].
    injection Eg' as <-. rewrite app_length, map_length, seq_length in Ln. cbn [List.length] in Ln. lia. }
  destruct (linspace64 lib start stop num g Ds De HD Eg' Hnum) as (F & S & _). split; [exact F|]. split; [exact S|].
  unfold band_calculations. rewrite Er. cbn [bind]. unfold first_last_of. rewrite Eh. cbn [of_option bind]. rewrite El.
  rewrite Eg. cbn [bind]. rewrite E1. cbn [bind].
  unfold interpolate. change (coord (with_dlambda s (so_dlambda s))) with (coord s). cbn [bind so_dlambda with_dlambda so_irradiance].
  rewrite Eg. cbn [bind]. rewrite Ex. cbn [of_option bind]. rewrite E2. cbn [bind with_ipol so_ipol of_option fst snd].
  set (m := map (fun x0 => (nleb (B64N lib) start x0 && nleb (B64N lib) x0 stop)%bool) g).
  assert (Hm : Forall (eq true) m).
  { apply Forall_map. eapply Forall_impl; [|exact F]. cbn beta. intros a [[Va Fa] [B1 B2]].
    destruct Ds as [Vs Fs], De as [Ve Fe]. change (nleb (B64N lib)) with SFleb. rewrite !leb_R by auto.
    rewrite !Rle_bool_true by auto. reflexivity. }
  assert (Lm : List.length g = List.length m) by (unfold m; now rewrite map_length).
  change (NumSig.num (B64N lib)) with spec_float in *. change b64 with spec_float in *.
  rewrite !keep_all; [|exact Lm|exact Hm|rewrite map_length; exact Lm|exact Hm].
  unfold vmul. rewrite !map_length, Nat.eqb_refl. cbn [bind]. unfold trapezoid. rewrite !map_length, combine_length, !map_length, Nat.min_id, Nat.eqb_refl. cbn [bind].
  destruct flux; eexists; split; reflexivity.
Qed.

Lemma grid_in_band : forall lib start stop dlambda g, is_double start -> is_double stop ->
  1 / 10 ^ 100 <= to_R stop - to_R start <= 10 ^ 100 -> @resample_grid (B64N lib) start stop dlambda = Ok g ->
  (Z.of_nat (List.length g) <= 2 ^ 50)%Z ->
  Forall (in_band start stop) g /\ Sorted Rle (map to_R g) /\
  (g <> [] -> exists x, hd_error g = Some x /\ to_R x = to_R start) /\
  ((2 <= List.length g)%nat -> last g start = stop).
Proof.
  intros lib start stop dl g Ds De HD Eg Ln. unfold resample_grid in Eg.
  destruct (@n_points (B64N lib) start stop dl) as [num|] eqn:En; [|discriminate]. cbn [bind] in Eg.
  assert (Hnum : (num <= 2 ^ 50)%Z).
  { destruct (Z_le_dec num (2 ^ 50)); auto. exfalso.
    unfold linspace in Eg. destruct (Z.ltb_spec num 0); [discriminate|]. destruct (Z.eqb_spec num 0); [lia|]. destruct (Z.eqb_spec num 1); [lia|].
    injection Eg as <-. rewrite app_length, map_length, seq_length in Ln. cbn [List.length] in Ln. lia. }
  destruct (linspace64 lib start stop num g Ds De HD Eg Hnum) as (F & S & L & A & B). split; [exact F|]. split; [exact S|].
  split.
  - intros Hg. apply A. destruct g; [congruence|]. cbn [List.length] in L. lia.
  - intros H2. apply B. rewrite L in H2. lia.
Qed.

(** a case: 0.6 to 1.0 um in steps of 0.1 um; 0.1 has no exact double *)
Definition case_grid_spectrum lib : spectrum (B64N lib) :=
  {| so_wavelength := Some [nlit (B64N lib) 5 10; nlit (B64N lib) 8 10; nlit (B64N lib) 11 10]; so_wavenumber := None;
     so_irradiance := [nlit (B64N lib) 19 1; nlit (B64N lib) 11 1; nlit (B64N lib) 6 1];
     so_wavespace := "wavelength"%string; so_dlambda := nlit (B64N lib) 1 10; so_ipol := None |}.
Definition case_grid_rsr lib : rsrarg (B64N lib) :=
  FlatRsr [("wavelength"%string, VArr [nlit (B64N lib) 6 10; nlit (B64N lib) 7 10; nlit (B64N lib) 1 1]); ("response"%string, VArr [nlit (B64N lib) 1 10; nlit (B64N lib) 1 1; nlit (B64N lib) 2 10])].
Definition first_value lib (x y : list (B64N lib)) : res (B64N lib -> B64N lib) := Ok (fun _ => hd (S754_zero false) y).
Lemma case_grid lib : exists wvl resp start stop x respf irrf g,
  rsr_curve (case_grid_spectrum lib) (case_grid_rsr lib) "det-1" (nlit (B64N lib) 1 1) = Ok (wvl, resp) /\ hd_error wvl = Some start /\ last wvl start = stop /\
  is_double start /\ is_double stop /\ 1 / 10 ^ 100 <= to_R stop - to_R start <= 10 ^ 100 /\
  resample_grid start stop (so_dlambda (case_grid_spectrum lib)) = Ok g /\ List.length g = 5%nat /\
  coord (case_grid_spectrum lib) = Some x /\ first_value lib wvl resp = Ok respf /\ first_value lib x (so_irradiance (case_grid_spectrum lib)) = Ok irrf.
Proof.
  exists [b64_ratio 6 10; b64_ratio 7 10; b64_ratio 1 1], [b64_ratio 1 10; b64_ratio 1 1; b64_ratio 2 10], (b64_ratio 6 10), (b64_ratio 1 1).
  eexists _, _, _, _. split; [reflexivity|]. split; [reflexivity|]. split; [reflexivity|].
  split; [split; reflexivity|]. split; [split; reflexivity|]. split.
  { assert (P : 10 <= 10 ^ 100).
    { rewrite <- (pow_1 10) at 1. apply Rle_pow; [lra|lia]. }
    assert (Q : 1 / 10 ^ 100 <= / 10). { unfold Rdiv. rewrite Rmult_1_l. apply Rinv_le_contravar; lra. }
    destruct (ratio_int 1 ltac:(lia)) as (_ & _ & E1).
    assert (E6 : / 2 <= to_R (b64_ratio 6 10) <= 7 / 10). { vm_compute (b64_ratio 6 10). cbn -[IZR]. unfold F2R. cbn -[IZR]. lra. }
    rewrite E1. cbn [IZR IPR] in *. lra. }
  split; [vm_compute; reflexivity|]. split; [reflexivity|]. repeat split.
Qed.
