(** Interpolation in the Rayleigh table in doubles (C112). *)
From Coq Require Import Reals Lra ZArith String List Bool Arith Lia SpecFloat.
From Flocq Require Import Core BinarySingleNaN.
From Verif Require Import Base NumSig B64 XR M_Tables M_Utils M_Rsr M_RadTb M_Nir M_Rayleigh S_B64 S_Nir S_RayDoubles S_RayDoubles2
     P_Arr P_Nir P_Rayleigh P_Rayleigh2 P_Rayleigh3 P_B64 P_B64ops P_NirDoubles P_RayDoubles P_RayDoubles2.
Import ListNotations.
Local Open Scope R_scope.

(** ** One axis *)
Lemma INR_double n : INR n <= 10 ^ 6 -> (Z.of_nat n <= 10 ^ 6)%Z.
Proof. intros H. rewrite INR_IZR_INZ in H. apply le_IZR. replace (IZR (10 ^ 6)) with (10 ^ 6) by (cbn; lra). exact H. Qed.
Lemma axis_cell_64 lib oob lo hi n s : is_double lo -> is_double hi -> is_double s -> Rabs (to_R lo) <= 10 ^ 6 -> Rabs (to_R hi) <= 10 ^ 6 ->
  to_R lo + 1 / 1000 <= to_R hi -> to_R lo <= to_R s <= to_R hi -> (2 <= n)%nat -> INR n <= 10 ^ 6 ->
  exists q l, @axis_cell (B64N lib) oob lo hi n s = (q, l) /\ is_double l /\ (q + 1 < n)%nat /\ 0 <= to_R l <= 1 /\
    Rabs (INR q + to_R l - (to_R s - to_R lo) / (to_R hi - to_R lo) * (INR n - 1)) <= 1 / 10 ^ 15 * INR n.
Proof.
  intros Dl Dh Ds Bl Bh G Hs Hn Bn. apply Rabs_le_inv in Bl, Bh. pose proof (INR_double n Bn) as Zn.
  assert (B : 10 ^ 300 = 10 ^ 20 * 10 ^ 280) by (rewrite <- pow_add; reflexivity). assert (B' : 1 <= 10 ^ 280) by (apply pow_R1_Rle; lra).
  pose proof u_val as [U0 U1]. pose proof eta_small as (E0 & E1 & E2).
  destruct (v_sub s lo Ds Dl) as [DA EA]; [apply Rabs_le; lra|]. destruct (v_sub hi lo Dh Dl) as [DB EB]; [apply Rabs_le; lra|].
  destruct (ratio_err (to_R s - to_R lo) (to_R hi - to_R lo)) as [F0 F1]; [lra|lra|]. pose proof (diff_pos (to_R hi - to_R lo) ltac:(lra)) as Db.
  assert (Q1 : 0 <= rnd64 (to_R s - to_R lo) / rnd64 (to_R hi - to_R lo) <= 1).
  { assert (0 <= rnd64 (to_R s - to_R lo)) by (apply rnd_nonneg; lra). assert (rnd64 (to_R s - to_R lo) <= rnd64 (to_R hi - to_R lo)) by (apply rnd_le; lra). split; [apply pos_quot; lra|].
    apply Rmult_le_reg_r with (rnd64 (to_R hi - to_R lo)); [lra|]; unfold Rdiv; rewrite Rmult_assoc, Rinv_l; lra. }
  destruct (v_div _ _ DA DB) as [DF EF]; [rewrite EB; lra|rewrite EA, EB, Rabs_pos_eq; lra|]. rewrite EA, EB in EF. rewrite <- EF in F0, F1.
  set (F := SFdiv 53 1024 (SFsub 53 1024 s lo) (SFsub 53 1024 hi lo)) in *.
  destruct (int_R (Z.of_nat n - 1) ltac:(lia)) as [DN RN]. assert (RN' : IZR (Z.of_nat n - 1) = INR n - 1) by (rewrite minus_IZR, <- INR_IZR_INZ; reflexivity). rewrite RN' in RN.
  assert (N2 : 2 <= INR n) by (change 2 with (INR 2); now apply le_INR).
  destruct (v_mul F _ DF DN) as [DT ET]; [rewrite RN, Rabs_pos_eq by (apply Rmult_le_pos; lra); nra|]. rewrite RN in ET.
  set (t := SFmul 53 1024 F (b64_ratio (Z.of_nat n - 1) 1)) in *.
  assert (T0 : 0 <= to_R t <= INR n - 1).
  { rewrite ET. split; [apply rnd_nonneg; apply Rmult_le_pos; lra|]. rewrite <- RN' at 2. rewrite <- (rnd_IZR (Z.of_nat n - 1)) by lia. apply rnd_le. rewrite RN'. nra. }
  assert (T1 : Rabs (to_R t - (to_R s - to_R lo) / (to_R hi - to_R lo) * (INR n - 1)) <= 54 / 10 * u * (INR n - 1) + eta).
  { set (x := (to_R s - to_R lo) / (to_R hi - to_R lo)) in *. pose proof (rnd_err (to_R F * (INR n - 1))) as R. rewrite (Rabs_pos_eq (to_R F * (INR n - 1))) in R by (apply Rmult_le_pos; lra). rewrite <- ET in R.
    assert (u * (to_R F * (INR n - 1)) <= u * (1 * (INR n - 1))) by (apply Rmult_le_compat_l; [lra|apply Rmult_le_compat_r; lra]).
    assert (D : Rabs ((to_R F - x) * (INR n - 1)) <= 43 / 10 * u * (INR n - 1)) by (rewrite Rabs_mult, (Rabs_pos_eq (INR n - 1)) by lra; apply Rmult_le_compat_r; lra).
    assert (0 <= u * (INR n - 1)) by (apply Rmult_le_pos; lra).
    replace (to_R t - x * (INR n - 1)) with ((to_R t - to_R F * (INR n - 1)) + (to_R F - x) * (INR n - 1)) by ring. eapply Rle_trans; [apply Rabs_triang|]. lra. }
  set (q := Z.max (Z.min (Zfloor (to_R t)) (Z.of_nat n - 2)) 0).
  assert (Fl : IZR (Zfloor (to_R t)) <= to_R t < IZR (Zfloor (to_R t)) + 1) by (split; [apply Zfloor_lb|apply Zfloor_ub]).
  assert (Z0 : (0 <= Zfloor (to_R t))%Z) by (change 0%Z with (Zfloor (IZR 0)) || (rewrite <- (Zfloor_IZR 0)); apply Zfloor_le; lra).
  assert (Z1 : (Zfloor (to_R t) <= Z.of_nat n - 1)%Z) by (apply le_IZR; rewrite RN'; lra).
  assert (Q0 : (0 <= q <= Z.of_nat n - 2)%Z) by (unfold q; lia).
  assert (Q2 : 0 <= to_R t - IZR q <= 1).
  { destruct (Z.le_gt_cases (Zfloor (to_R t)) (Z.of_nat n - 2)).
    - replace q with (Zfloor (to_R t)) by (unfold q; lia). lra.
    - replace q with (Z.of_nat n - 2)%Z by (unfold q; lia). assert (Zfloor (to_R t) = Z.of_nat n - 1)%Z as Ez by lia. rewrite Ez, RN' in Fl.
      replace (IZR (Z.of_nat n - 2)) with (INR n - 2) by (rewrite minus_IZR, <- INR_IZR_INZ; reflexivity). lra. }
  destruct (int_R q ltac:(lia)) as [DQ RQ]. destruct (v_sub t _ DT DQ) as [DL EL]; [rewrite RQ; apply Rabs_le; lra|]. rewrite RQ in EL.
  exists (Z.to_nat q), (SFsub 53 1024 t (b64_ratio q 1)). split; [|split; [exact DL|split; [lia|split]]].
  - change (@axis_cell (B64N lib) oob lo hi n s) with
      (let c := match b64_trunc t with Some z => if in_int32 z then z else oob t | None => oob t end in
       let q := Z.max (Z.min c (Z.of_nat n - 2)) 0 in (Z.to_nat q, SFsub 53 1024 t (b64_ratio q 1))).
    rewrite trunc_floor; [|apply DT|lra]. assert (in_int32 (Zfloor (to_R t)) = true) as -> by (unfold in_int32; rewrite andb_true_iff, Z.leb_le, Z.ltb_lt; lia). reflexivity.
  - rewrite EL. split; [apply rnd_nonneg; lra|]. rewrite <- rnd_1. apply rnd_le. lra.
  - replace (INR (Z.to_nat q)) with (IZR q) by (rewrite INR_IZR_INZ, Z2Nat.id by lia; reflexivity). rewrite EL. pose proof (rnd_err (to_R t - IZR q)) as R. rewrite (Rabs_pos_eq (to_R t - IZR q)) in R by lra.
    assert (u * (to_R t - IZR q) <= u * 1) by (apply Rmult_le_compat_l; lra). assert (u * INR n <= 12 / 10 ^ 17 * INR n) by (apply Rmult_le_compat_r; lra). assert (u * 2 <= u * INR n) by (apply Rmult_le_compat_l; lra).
    apply Rabs_le_inv in R, T1. apply Rabs_le. lra.
Qed.

(** ** Linear interpolation *)
Definition lerp64 (l a b : R) : R := mix64 l b a.
Lemma lerp_ok lib (l a b : b64) M : double_between 0 1 l -> is_double a -> is_double b -> Rabs (to_R a) <= M -> Rabs (to_R b) <= M -> M <= 10 ^ 7 ->
  let r := @nadd (B64N lib) (@nmul (B64N lib) (@nsub (B64N lib) (nlit (B64N lib) 1 1) l) a) (@nmul (B64N lib) l b) in
  is_double r /\ Rabs (to_R r - lerp (to_R l) (to_R a) (to_R b)) <= 2 / 10 ^ 15 * M + / 10 ^ 300 /\ Rabs (to_R r) <= M + 2 / 10 ^ 15 * M + / 10 ^ 300.
Proof.
  intros (DF & RF) Da Db Ba Bb HM. change (nlit (B64N lib) 1 1) with (b64_ratio 1 1). destruct one_double as [D1 R1].
  assert (B : 10 ^ 300 = 10 ^ 20 * 10 ^ 280) by (rewrite <- pow_add; reflexivity). assert (B' : 1 <= 10 ^ 280) by (apply pow_R1_Rle; lra).
  destruct (v_sub _ l D1 DF) as [DG EG]; [rewrite R1; apply Rabs_le; lra|]. rewrite R1 in EG.
  assert (G0 : 0 <= rnd64 (1 - to_R l) <= 1) by (split; [apply rnd_nonneg; lra|apply Rle_trans with (rnd64 1); [apply rnd_le; lra|rewrite rnd_1; lra]]).
  assert (BP : Rabs (to_R l * to_R b) <= Rabs (to_R b)) by (rewrite Rabs_mult, (Rabs_pos_eq (to_R l)) by lra; pose proof (Rabs_pos (to_R b)); nra).
  assert (BQ : Rabs (rnd64 (1 - to_R l) * to_R a) <= Rabs (to_R a)) by (rewrite Rabs_mult, (Rabs_pos_eq (rnd64 _)) by lra; pose proof (Rabs_pos (to_R a)); nra).
  pose proof (rnd_within b _ Db BP) as WP. pose proof (rnd_within a _ Da BQ) as WQ.
  destruct (v_mul l b DF Db) as [DP EP]; [lra|]. destruct (v_mul _ a DG Da) as [DQ EQ]; [rewrite EG; lra|]. rewrite EG in EQ.
  destruct (v_add _ _ DQ DP) as [DS ES]; [rewrite EP, EQ; eapply Rle_trans; [apply Rabs_triang|]; lra|]. rewrite EP, EQ in ES.
  intros r. split; [exact DS|]. change (to_R r) with (to_R (SFadd 53 1024 (SFmul 53 1024 (SFsub 53 1024 (b64_ratio 1 1) l) a) (SFmul 53 1024 l b))). rewrite ES, Rplus_comm.
  pose proof (mix_err (to_R l) (to_R l) (to_R b) (to_R a) RF RF) as ME. unfold mix64 in ME. rewrite Rminus_diag_eq, Rabs_R0 in ME by reflexivity. pose proof u_val. specialize (ME ltac:(lra) WP WQ).
  assert (A : Rabs (rnd64 (rnd64 (to_R l * to_R b) + rnd64 (rnd64 (1 - to_R l) * to_R a)) - lerp (to_R l) (to_R a) (to_R b)) <= 2 / 10 ^ 15 * M + / 10 ^ 300).
  { unfold lerp. rewrite (Rplus_comm ((1 - to_R l) * to_R a)). lra. }
  split; [exact A|]. assert (C : Rabs (lerp (to_R l) (to_R a) (to_R b)) <= M). { unfold lerp. apply Rabs_le_inv in Ba, Bb. apply Rabs_le. nra. }
  apply Rabs_le_inv in A, C. apply Rabs_le. lra.
Qed.
Lemma lerp_lip t a b a' b' e : 0 <= t <= 1 -> Rabs (a - a') <= e -> Rabs (b - b') <= e -> Rabs (lerp t a b - lerp t a' b') <= e.
Proof. intros H A B. unfold lerp. apply Rabs_le_inv in A, B. apply Rabs_le. nra. Qed.

Lemma cell_bound (N : Num) oob (m M : N) n s : (2 <= n)%nat -> (fst (axis_cell oob m M n s) + 1 < n)%nat.
Proof. intros H. unfold axis_cell. cbn [fst]. lia. Qed.
Lemma interp_64 lib (v : nat -> nat -> nat -> b64) (f : nat -> nat -> nat -> res b64) (l0 l1 l2 : b64) M : 0 <= M <= 10 ^ 6 ->
  double_between 0 1 l0 -> double_between 0 1 l1 -> double_between 0 1 l2 ->
  (forall i j k, (i < 2)%nat -> (j < 2)%nat -> (k < 2)%nat -> f i j k = Ok (v i j k) /\ is_double (v i j k) /\ Rabs (to_R (v i j k)) <= M) ->
  exists r, @interp3 (B64N lib) f l0 l1 l2 = Ok r /\ is_double r /\ Rabs (to_R r) <= 2 * M + 4 * / 10 ^ 300 /\
    Rabs (to_R r - trilinear (fun i j k => to_R (v i j k)) (to_R l0) (to_R l1) (to_R l2)) <= 7 / 10 ^ 15 * M + 4 * / 10 ^ 300.
Proof.
  intros HM H0 H1 H2 V. unfold interp3. rewrite !(fun i j k A B C => proj1 (V i j k A B C)) by lia. cbn [bind].
  assert (T : 0 < / 10 ^ 300) by (apply Rinv_0_lt_compat, pow_lt; lra). assert (T1 : / 10 ^ 300 <= 1) by (rewrite <- Rinv_1; apply Rinv_le; [lra|apply pow_R1_Rle; lra]).
  assert (A : forall i j, (i < 2)%nat -> (j < 2)%nat -> let r := @nadd (B64N lib) (@nmul (B64N lib) (@nsub (B64N lib) (nlit (B64N lib) 1 1) l2) (v i j 0%nat)) (@nmul (B64N lib) l2 (v i j 1%nat)) in
    is_double r /\ Rabs (to_R r - lerp (to_R l2) (to_R (v i j 0%nat)) (to_R (v i j 1%nat))) <= 2 / 10 ^ 15 * M + / 10 ^ 300 /\ Rabs (to_R r) <= M + 2 / 10 ^ 15 * M + / 10 ^ 300).
  { intros i j Hi Hj. apply lerp_ok; try exact H2; try (apply V; lia). lra. }
  set (g := fun i j => @nadd (B64N lib) (@nmul (B64N lib) (@nsub (B64N lib) (nlit (B64N lib) 1 1) l2) (v i j 0%nat)) (@nmul (B64N lib) l2 (v i j 1%nat))).
  set (M1 := M + 2 / 10 ^ 15 * M + / 10 ^ 300) in *.
  assert (C : forall i, (i < 2)%nat -> let r := @nadd (B64N lib) (@nmul (B64N lib) (@nsub (B64N lib) (nlit (B64N lib) 1 1) l1) (g i 0%nat)) (@nmul (B64N lib) l1 (g i 1%nat)) in
    is_double r /\ Rabs (to_R r - lerp (to_R l1) (to_R (g i 0%nat)) (to_R (g i 1%nat))) <= 2 / 10 ^ 15 * M1 + / 10 ^ 300 /\ Rabs (to_R r) <= M1 + 2 / 10 ^ 15 * M1 + / 10 ^ 300).
  { intros i Hi. apply lerp_ok; try exact H1; try (apply A; lia). unfold M1. lra. }
  set (h := fun i => @nadd (B64N lib) (@nmul (B64N lib) (@nsub (B64N lib) (nlit (B64N lib) 1 1) l1) (g i 0%nat)) (@nmul (B64N lib) l1 (g i 1%nat))).
  set (M2 := M1 + 2 / 10 ^ 15 * M1 + / 10 ^ 300) in *.
  destruct (lerp_ok lib l0 (h 0%nat) (h 1%nat) M2 H0) as (Dr & Er & Br); try (apply C; lia); [unfold M2, M1; lra|].
  eexists. split; [reflexivity|]. split; [exact Dr|]. split; [eapply Rle_trans; [exact Br|]; unfold M2, M1; lra|].
  assert (Q1 : forall i, (i < 2)%nat -> Rabs (to_R (h i) - lerp (to_R l1) (lerp (to_R l2) (to_R (v i 0%nat 0%nat)) (to_R (v i 0%nat 1%nat))) (lerp (to_R l2) (to_R (v i 1%nat 0%nat)) (to_R (v i 1%nat 1%nat))))
     <= (2 / 10 ^ 15 * M1 + / 10 ^ 300) + (2 / 10 ^ 15 * M + / 10 ^ 300)).
  { intros i Hi. destruct (C i Hi) as (_ & E & _). destruct (A i 0%nat Hi ltac:(lia)) as (_ & E0 & _). destruct (A i 1%nat Hi ltac:(lia)) as (_ & E1 & _). pose proof (lerp_lip (to_R l1) _ _ _ _ _ (proj2 H1) E0 E1) as L.
    eapply Rle_trans; [|apply Rplus_le_compat; [exact E|exact L]]. eapply Rle_trans; [|apply Rabs_triang]. right. f_equal. unfold h, g. ring. }
  pose proof (lerp_lip (to_R l0) _ _ _ _ _ (proj2 H0) (Q1 0%nat ltac:(lia)) (Q1 1%nat ltac:(lia))) as L.
  eapply Rle_trans; [eapply Rle_trans; [|apply Rplus_le_compat; [exact Er|exact L]]|unfold M2, M1; lra]. eapply Rle_trans; [|apply Rabs_triang]. right. f_equal. unfold trilinear, h, g. ring.
Qed.

(** ** The whole array *)
Lemma amax_last lib (l : list b64) lo hi : axis64 l lo hi -> @amax (B64N lib) l = Ok hi.
Proof.
  intros (L2 & _ & Dl & Inc & F & La & _). destruct l as [|h t]; [cbn in L2; lia|].
  assert (X : forall (t : list b64) x, is_double x -> (forall y, In y t -> is_double y) -> let m := fold_left (@nmax (B64N lib)) t x in (m = x \/ In m t) /\ forall y, y = x \/ In y t -> to_R y <= to_R m).
  { induction t0 as [|a t0 IH]; intros x Dx Dt; cbn [fold_left].
    - split; [now left|]. intros y [->|[]]. lra.
    - assert (Da : is_double a) by (apply Dt; now left). destruct (min_64 lib x a Dx Da) as [_ E].
      destruct (IH (@nmax (B64N lib) x a)) as [I Lm]; [rewrite E; destruct (Rlt_bool _ _); auto|intros y Hy; apply Dt; now right|]. split.
      + destruct I as [I|I]; [|right; now right]. cbv zeta. rewrite I, E. destruct (Rlt_bool _ _); [right; now left|now left].
      + pose proof (Lm _ (or_introl eq_refl)) as L0. set (m := fold_left (@nmax (B64N lib)) t0 (@nmax (B64N lib) x a)) in *. rewrite E in L0. intros y [->|[<-|Hy]]; [| |apply Lm; now right]; destruct (Rlt_bool_spec (to_R x) (to_R a)); lra. }
  destruct (X t h) as [I Lm]; [apply Dl; now left|intros y Hy; apply Dl; now right|]. change (@amax (B64N lib) (h :: t)) with (@Ok b64 (fold_left (@nmax (B64N lib)) t h)).
  set (m := fold_left (@nmax (B64N lib)) t h) in *. assert (In m (h :: t)) as Im by (destruct I as [->|I]; [now left|now right]).
  apply In_nth_error in Im as [i Hi]. destruct (Nat.eq_dec i (List.length (h :: t) - 1)) as [->|Ne]; [enough (Q : @Some b64 m = Some hi) by (injection Q as Q; now rewrite Q); etransitivity; [symmetry; exact Hi|exact La]|].
  assert (i < List.length (h :: t))%nat by (apply nth_error_Some; intros Z; assert (Y : None = Some m) by (etransitivity; [symmetry; exact Z|exact Hi]); discriminate Y). pose proof (Inc i (List.length (h :: t) - 1)%nat m hi ltac:(lia) Hi La).
  assert (In hi (h :: t)) as [<-|Ih] by (eapply nth_error_In; exact La); [pose proof (Lm _ (or_introl eq_refl))|pose proof (Lm _ (or_intror Ih))]; lra.
Qed.
Lemma ends_64 lib (l : list b64) lo hi : axis64 l lo hi -> @first (B64N lib) l = Ok lo /\ @lastof (B64N lib) l = Ok hi.
Proof.
  intros (L2 & _ & _ & _ & F & La & _). unfold first, lastof, idx, pyidx, idx. change (num (B64N lib)) with b64. rewrite F. split; [reflexivity|].
  change (-1 <? 0)%Z with true. cbv iota. destruct (Z.ltb_spec (-1 + Z.of_nat (List.length l)) 0); [lia|].
  replace (Z.to_nat (-1 + Z.of_nat (List.length l))) with (List.length l - 1)%nat by lia. now rewrite La.
Qed.

Lemma minterp_total (N : Num) oob (smin smax : N * N * N) o0 o1 o2 V p : (2 <= o0)%nat -> (2 <= o1)%nat -> (2 <= o2)%nat ->
  List.length V = (o0 * (o1 * o2))%nat -> exists v, @minterp N oob smin smax (o0, o1, o2) V p = Ok v.
Proof.
  intros H0 H1 H2 HV. destruct smin as [[m0 m1] m2], smax as [[M0 M1] M2], p as [[s0 s1] s2]. unfold minterp.
  pose proof (cell_bound N oob m0 M0 o0 s0 H0) as Q0. pose proof (cell_bound N oob m1 M1 o1 s1 H1) as Q1. pose proof (cell_bound N oob m2 M2 o2 s2 H2) as Q2.
  destruct (axis_cell oob m0 M0 o0 s0) as [q0 l0]. destruct (axis_cell oob m1 M1 o1 s1) as [q1 l1]. destruct (axis_cell oob m2 M2 o2 s2) as [q2 l2]. cbn [fst] in *.
  assert (I : forall i j k, (i < 2)%nat -> (j < 2)%nat -> (k < 2)%nat -> exists v, idx V (o1 * o2 * (q0 + i) + o2 * (q1 + j) + (q2 + k)) = Ok v).
  { intros i j k Hi Hj Hk. unfold idx. destruct (nth_error V _) as [v|] eqn:E; [cbn; eauto|]. apply nth_error_None in E. rewrite HV in E.
    pose proof (index_bound o0 o1 o2 (q0 + i) (q1 + j) (q2 + k)). lia. }
  unfold interp3.
  destruct (I 0 0 0)%nat as [v0 ->]; try lia. destruct (I 0 0 1)%nat as [v1 ->]; try lia. destruct (I 0 1 0)%nat as [v2 ->]; try lia. destruct (I 0 1 1)%nat as [v3 ->]; try lia.
  destruct (I 1 0 0)%nat as [v4 ->]; try lia. destruct (I 1 0 1)%nat as [v5 ->]; try lia. destruct (I 1 1 0)%nat as [v6 ->]; try lia. destruct (I 1 1 1)%nat as [v7 ->]; try lia.
  cbn [bind]. eauto.
Qed.

Lemma minterp_cells (N : Num) oob (m0 m1 m2 M0 M1 M2 s0 s1 s2 : N) o0 o1 o2 V q0 q1 q2 l0 l1 l2 : axis_cell oob m0 M0 o0 s0 = (q0, l0) -> axis_cell oob m1 M1 o1 s1 = (q1, l1) ->
  axis_cell oob m2 M2 o2 s2 = (q2, l2) ->
  minterp oob (m0, m1, m2) (M0, M1, M2) (o0, o1, o2) V (s0, s1, s2) = interp3 (fun i j k => idx V (o1 * o2 * (q0 + i) + o2 * (q1 + j) + (q2 + k))%nat) l0 l1 l2.
Proof. intros A B C. unfold minterp. now rewrite A, B, C. Qed.
(** one pixel *)
Lemma pixel_64 lib oob (lut : raylut (B64N lib)) s0 s1 t0 t1 a0 a1 (V : list b64) M (S T a : b64) : axis64 (rl_sunz lut) s0 s1 -> axis64 (rl_satz lut) t0 t1 ->
  axis64 (rl_azid lut) a0 a1 -> to_R a0 = 0 -> to_R a1 = 180 -> 0 <= M <= 10 ^ 6 -> (forall b, In b V -> is_double b /\ Rabs (to_R b) <= M) ->
  List.length V = (List.length (rl_sunz lut) * (List.length (rl_azid lut) * List.length (rl_satz lut)))%nat ->
  double_between (to_R s0) (to_R s1) S -> double_between (to_R t0) (to_R t1) T -> double_between 0 180 a ->
  exists r, @minterp (B64N lib) oob (s0, a0, t0) (s1, a1, t1) (List.length (rl_sunz lut), List.length (rl_azid lut), List.length (rl_satz lut)) V
       (S, @nsub (B64N lib) (nlit (B64N lib) 180 1) a, T) = Ok r /\ is_double r /\ Rabs (to_R r) <= 2 * M + 4 * / 10 ^ 300 /\
    exists q0 l0 q1 l1 q2 l2 v, near_position (List.length (rl_sunz lut)) (to_R s0) (to_R s1) (to_R S) q0 l0 /\
      near_position (List.length (rl_azid lut)) 0 180 (180 - to_R a) q1 l1 /\ near_position (List.length (rl_satz lut)) (to_R t0) (to_R t1) (to_R T) q2 l2 /\
      corners V (List.length (rl_azid lut)) (List.length (rl_satz lut)) q0 q1 q2 v /\
      Rabs (to_R r - trilinear v l0 l1 l2) <= 7 / 10 ^ 15 * M + 4 * / 10 ^ 300.
Proof.
  intros As At Aa A0 A1 HM HV LV (DS & RS) (DT & RT) (Da & Ra).
  destruct (int_R 180 ltac:(cbn; lia)) as [D180 R180]. destruct (v_sub _ a D180 Da) as [Dz Ez]; [rewrite R180; apply Rabs_le; assert (1 <= 10 ^ 280) by (apply pow_R1_Rle; lra); assert (10 ^ 300 = 10 ^ 20 * 10 ^ 280) by (rewrite <- pow_add; reflexivity); lra|].
  rewrite R180 in Ez. set (z := SFsub 53 1024 (b64_ratio 180 1) a) in *. change (@nsub (B64N lib) (nlit (B64N lib) 180 1) a) with z.
  assert (Rz : 0 <= to_R z <= 180). { rewrite Ez. split; [apply rnd_nonneg; lra|]. apply Rle_trans with (rnd64 180); [apply rnd_le; lra|]. change 180 with (IZR 180). rewrite rnd_IZR by (cbn; lia). lra. }
  assert (X : forall l lo hi, axis64 l lo hi -> (2 <= List.length l)%nat /\ INR (List.length l) <= 10 ^ 6 /\ is_double lo /\ is_double hi /\ Rabs (to_R lo) <= 10 ^ 6 /\ Rabs (to_R hi) <= 10 ^ 6 /\ to_R lo + 1 / 1000 <= to_R hi).
  { intros l lo hi (L2 & Ln & Dl & _ & F & La & G). apply nth_error_In in F, La. apply Dl in F as (? & ?), La as (? & ?). repeat split; auto; try apply H; try apply H1; apply Rabs_le; lra. }
  destruct (X _ _ _ As) as (L0 & N0 & Ds0 & Ds1 & Bs0 & Bs1 & Gs). destruct (X _ _ _ At) as (L2 & N2 & Dt0 & Dt1 & Bt0 & Bt1 & Gt). destruct (X _ _ _ Aa) as (L1 & N1 & Da0 & Da1 & Ba0 & Ba1 & Ga).
  destruct (axis_cell_64 lib oob s0 s1 _ S Ds0 Ds1 DS Bs0 Bs1 Gs RS L0 N0) as (q0 & l0 & E0 & D0 & Q0 & R0 & P0).
  destruct (axis_cell_64 lib oob t0 t1 _ T Dt0 Dt1 DT Bt0 Bt1 Gt RT L2 N2) as (q2 & l2 & E2 & D2 & Q2 & R2 & P2).
  destruct (axis_cell_64 lib oob a0 a1 _ z Da0 Da1 Dz Ba0 Ba1 Ga ltac:(rewrite A0, A1; exact Rz) L1 N1) as (q1 & l1 & E1 & D1 & Q1 & R1 & P1).
  assert (I : forall i j k, (i < 2)%nat -> (j < 2)%nat -> (k < 2)%nat -> exists b : b64,
     nth_error V (List.length (rl_azid lut) * List.length (rl_satz lut) * (q0 + i) + List.length (rl_satz lut) * (q1 + j) + (q2 + k)) = Some b).
  { intros i j k Hi Hj Hk. destruct (nth_error V _) as [b|] eqn:E; [eauto|]. apply nth_error_None in E. rewrite LV in E.
    pose proof (index_bound (List.length (rl_sunz lut)) (List.length (rl_azid lut)) (List.length (rl_satz lut)) (q0 + i) (q1 + j) (q2 + k)). change (num (B64N lib)) with b64 in *. lia. }
  set (v := fun i j k => match nth_error V (List.length (rl_azid lut) * List.length (rl_satz lut) * (q0 + i) + List.length (rl_satz lut) * (q1 + j) + (q2 + k)) with Some b => b | None => S754_nan end).
  destruct (interp_64 lib v (fun i j k => idx V (List.length (rl_azid lut) * List.length (rl_satz lut) * (q0 + i) + List.length (rl_satz lut) * (q1 + j) + (q2 + k))) l0 l1 l2 M HM) as (r & Er & Dr & Br & Pr);
    [split; assumption|split; assumption|split; assumption| |].
  { intros i j k Hi Hj Hk. destruct (I i j k Hi Hj Hk) as [b Hb]. unfold v, idx. rewrite Hb. split; [reflexivity|]. apply HV. eapply nth_error_In; exact Hb. }
  exists r. split; [etransitivity; [eapply (minterp_cells (B64N lib)); [exact E0|exact E1|exact E2]|exact Er]|]. split; [exact Dr|]. split; [exact Br|].
  exists q0, (to_R l0), q1, (to_R l1), q2, (to_R l2), (fun i j k => to_R (v i j k)).
  assert (W : forall n e x, (2 <= n)%nat -> Rabs x <= 1 / 10 ^ 15 * INR n -> e <= 1 / 10 ^ 15 * INR n -> Rabs x + e <= 2 / 10 ^ 15 * INR n) by (intros; lra).
  assert (Pn : forall n, 0 <= 1 / 10 ^ 15 * INR n) by (intros n; apply Rmult_le_pos; [lra|apply pos_INR]).
  split; [split; [exact Q0|split; [exact R0|pose proof (Pn (List.length (rl_sunz lut))); change (num (B64N lib)) with b64 in *; lra]]|].
  split; [split; [exact Q1|split; [exact R1|]]|].
  - change (num (B64N lib)) with b64 in *. rewrite A0, A1 in P1. pose proof (rnd_err (180 - to_R a)) as Re. rewrite <- Ez in Re. rewrite (Rabs_pos_eq (180 - to_R a)) in Re by lra. pose proof u_val as [U0 U1]. pose proof eta_small as (E3 & E4 & E5).
    assert (Re' : Rabs (to_R z - (180 - to_R a)) <= u * 181) by nra. set (n := INR (@List.length b64 (rl_azid lut))) in *. assert (2 <= n) by (unfold n; change 2 with (INR 2); now apply le_INR).
    assert (K : Rabs ((to_R z - (180 - to_R a)) / (180 - 0) * (n - 1)) <= 1 / 10 ^ 15 * n).
    { unfold Rdiv. rewrite !Rabs_mult, (Rabs_pos_eq (n - 1)), (Rabs_pos_eq (/ (180 - 0))) by lra. apply Rle_trans with (u * 181 * / (180 - 0) * n); [apply Rmult_le_compat; [apply Rmult_le_pos; [apply Rabs_pos|lra]|lra|apply Rmult_le_compat_r; lra|lra]|]. apply Rmult_le_compat_r; lra. }
    replace (INR q1 + to_R l1 - (180 - to_R a - 0) / (180 - 0) * (n - 1)) with ((INR q1 + to_R l1 - (to_R z - 0) / (180 - 0) * (n - 1)) + (to_R z - (180 - to_R a)) / (180 - 0) * (n - 1)) by (field).
    eapply Rle_trans; [apply Rabs_triang|]. lra.
  - split; [split; [exact Q2|split; [exact R2|pose proof (Pn (List.length (rl_satz lut))); change (num (B64N lib)) with b64 in *; lra]]|]. split; [|exact Pr].
    intros i j k Hi Hj Hk. destruct (I i j k Hi Hj Hk) as [b Hb]. exists b. split; [|unfold v; now rewrite Hb].
    rewrite <- Hb. f_equal. ring.
Qed.

Lemma percent_lip x y : Rabs (clampR 0 100 x - percent y) <= Rabs (x - y).
Proof. unfold clampR, percent, Rmin, Rmax. repeat destruct (Rle_dec _ _); unfold Rabs; repeat destruct (Rcase_abs _); lra. Qed.
Lemma times100 lib r t M : is_double r -> 0 <= M <= 10 ^ 6 -> Rabs (to_R r) <= 2 * M + 4 * / 10 ^ 300 -> Rabs (to_R r - t) <= 7 / 10 ^ 15 * M + 4 * / 10 ^ 300 ->
  let x := clip100 (@nmul (B64N lib) r (nlit (B64N lib) 100 1)) in is_double x /\ Rabs (to_R x - percent (100 * t)) <= 1 / 10 ^ 12 * M + / 10 ^ 290.
Proof.
  intros D HM B E. destruct (int_R 100 ltac:(cbn; lia)) as [D1 R1].
  assert (B0 : 10 ^ 300 = 10 ^ 20 * 10 ^ 280) by (rewrite <- pow_add; reflexivity). assert (B' : 1 <= 10 ^ 280) by (apply pow_R1_Rle; lra).
  assert (T : 0 < / 10 ^ 300) by (apply Rinv_0_lt_compat, pow_lt; lra). assert (T1 : / 10 ^ 300 <= 1) by (rewrite <- Rinv_1; apply Rinv_le; lra).
  assert (T2 : / 10 ^ 290 = 10 ^ 10 * / 10 ^ 300). { assert (B2 : 10 ^ 300 = 10 ^ 10 * 10 ^ 290) by (rewrite <- pow_add; reflexivity). rewrite B2, Rinv_mult. rewrite <- Rmult_assoc, Rinv_r, Rmult_1_l; [reflexivity|apply pow_nonzero; lra]. }
  assert (Q : Rabs (to_R r * 100) <= 100 * (2 * M + 4 * / 10 ^ 300)) by (rewrite Rabs_mult, (Rabs_pos_eq 100) by lra; lra).
  destruct (v_mul r _ D D1) as [DM EM]; [rewrite R1; lra|]. rewrite R1 in EM. change (@nmul (B64N lib) r (nlit (B64N lib) 100 1)) with (SFmul 53 1024 r (b64_ratio 100 1)).
  destruct (clip100_R _ DM) as [Dc Rc]. intros x. split; [exact Dc|]. unfold x. rewrite Rc, EM. eapply Rle_trans; [apply percent_lip|].
  pose proof (rnd_err (to_R r * 100)) as R. pose proof u_val as [U0 U1]. pose proof eta_small as (E3 & E4 & _).
  assert (u * Rabs (to_R r * 100) <= 12 / 10 ^ 17 * (100 * (2 * M + 4 * / 10 ^ 300))) by (apply Rmult_le_compat; try lra; apply Rabs_pos).
  apply Rabs_le_inv in R, E. apply Rabs_le. rewrite T2. lra.
Qed.

Lemma angles_64 lib oob (lut : raylut (B64N lib)) s0 s1 t0 t1 (V : list b64) (sun sat azi : list b64) : grid64 lut s0 s1 t0 t1 ->
  List.length V = (List.length (rl_sunz lut) * (List.length (rl_azid lut) * List.length (rl_satz lut)))%nat -> List.length sat = List.length sun -> List.length azi = List.length sun ->
  exists r, @interp_by_angles (B64N lib) oob lut V sun sat azi = Ok r /\ List.length r = List.length sun /\
  forall M k z t a S T, 0 <= M <= 10 ^ 6 -> (forall b, In b V -> is_double b /\ Rabs (to_R b) <= M) -> nth_error sun k = Some z -> nth_error sat k = Some t -> nth_error azi k = Some a ->
    @secant_on lib s0 s1 z S -> @secant_on lib t0 t1 t T -> double_between 0 180 a ->
  exists x : b64, nth_error r k = Some x /\ is_double (clip100 x) /\
    exists q0 l0 q1 l1 q2 l2 v, near_position (List.length (rl_sunz lut)) (to_R s0) (to_R s1) (to_R S) q0 l0 /\
      near_position (List.length (rl_azid lut)) 0 180 (180 - to_R a) q1 l1 /\ near_position (List.length (rl_satz lut)) (to_R t0) (to_R t1) (to_R T) q2 l2 /\
      corners V (List.length (rl_azid lut)) (List.length (rl_satz lut)) q0 q1 q2 v /\
      Rabs (to_R (clip100 x) - percent (100 * trilinear v l0 l1 l2)) <= 1 / 10 ^ 12 * M + / 10 ^ 290.
Proof.
  intros [As At (a0 & a1 & Aa & A0 & A1) Tb] LV Lt La. unfold interp_by_angles.
  pose proof (amax_last lib _ _ _ As) as Ms. pose proof (amax_last lib _ _ _ At) as Mt. destruct (ends_64 lib _ _ _ As) as [Fs Es]. destruct (ends_64 lib _ _ _ At) as [Ft Et]. destruct (ends_64 lib _ _ _ Aa) as [Fa Ea].
  change (num (B64N lib)) with b64 in *. rewrite Ms, Mt. cbn [bind]. rewrite Fs, Fa, Ft, Es, Ea, Et. cbn [bind]. rewrite Lt, La, Nat.eqb_refl. cbn [andb negb].
  edestruct (mapM_some (fun p : b64 * b64 * b64 => bind (@minterp (B64N lib) oob (s0, a0, t0) (s1, a1, t1) (List.length (rl_sunz lut), List.length (rl_azid lut), List.length (rl_satz lut)) V
       (fst (fst p), @nsub (B64N lib) (nlit (B64N lib) 180 1) (snd (fst p)), snd p)) (fun r => Ok (@nmul (B64N lib) r (nlit (B64N lib) 100 1))))
     (combine (combine (map (fun z => @secant (B64N lib) (@clip_angle (B64N lib) z s1)) sun) azi) (map (fun z => @secant (B64N lib) (@clip_angle (B64N lib) z t1)) sat))) as (r & Er & Lr & Pr).
  - intros p. edestruct (minterp_total (B64N lib) oob (s0, a0, t0) (s1, a1, t1) (List.length (rl_sunz lut)) (List.length (rl_azid lut)) (List.length (rl_satz lut)) V) as [v Hv]; [apply As|apply Aa|apply At|exact LV|].
    exists (@nmul (B64N lib) v (nlit (B64N lib) 100 1)). etransitivity; [apply (f_equal (fun m => bind m _)); exact Hv|]. reflexivity.
  - exists r. split; [exact Er|]. split; [etransitivity; [exact Lr|]; rewrite !combine_length, !map_length; change (num (B64N lib)) with b64 in *; lia|].
    intros M k z t a S T HM HV Hz Ht Ha (ES & RS) (ET & RT) Ra.
    destruct (pixel_64 lib oob lut s0 s1 t0 t1 a0 a1 V M S T a As At Aa A0 A1 HM HV LV RS RT Ra) as (v & Ev & Dv & Bv & q0 & l0 & q1 & l1 & q2 & l2 & w & N0 & N1 & N2 & C & P).
    destruct (Pr k (S, a, T)) as (y & Ey & Ny).
    { apply combine_nth_error; [apply combine_nth_error; [|exact Ha]|].
      - rewrite ES. exact (map_nth_error (fun z => @secant (B64N lib) (@clip_angle (B64N lib) z s1)) k sun Hz).
      - rewrite ET. exact (map_nth_error (fun z => @secant (B64N lib) (@clip_angle (B64N lib) z t1)) k sat Ht). }
    cbn [fst snd] in Ey. assert (y = @nmul (B64N lib) v (nlit (B64N lib) 100 1)) as ->.
    { enough (Q : Ok y = Ok (@nmul (B64N lib) v (nlit (B64N lib) 100 1))) by (injection Q as Q; exact Q). etransitivity; [symmetry; exact Ey|]. etransitivity; [apply (f_equal (fun m => bind m _)); exact Ev|]. reflexivity. }
    destruct (times100 lib v _ M Dv HM Bv P) as [Dx Bx]. eexists. split; [exact Ny|]. split; [exact Dx|]. exists q0, l0, q1, l1, q2, l2, w. auto.
Qed.

(** ** get_reflectance *)
Lemma interpolation : forall lib oob dask load platform sensor lut sun sat azi band s s0 s1 t0 t1 w, @grid64 lib lut s0 s1 t0 t1 ->
  effective_wavelength load platform sensor band = Ok (w : B64N lib) -> double_between 0 (10 ^ 6) w -> inside64 lut w ->
  is_image s (r_arr sun) -> is_image s (r_arr sat) -> is_image s (r_arr azi) -> a_dtype (r_arr sun) = Float64 ->
  exists r B, @get_reflectance (B64N lib) oob dask load platform sensor (Some lut) sun sat azi band None = Ok r /\ fits s r /\ wavelength_adjusted_lut (Some lut) (w : B64N lib) = Ok B /\
  forall M k z t a S T, 0 <= M <= 10 ^ 6 -> (forall b : b64, In (b : B64N lib) B -> Rabs (to_R b) <= M) -> (k < size s)%nat ->
    pix k (r_arr sun) = Some (z : B64N lib) -> pix k (r_arr sat) = Some (t : B64N lib) -> pix k (r_arr azi) = Some (a : B64N lib) ->
    @secant_on lib s0 s1 z S -> @secant_on lib t0 t1 t T -> double_between 0 180 a ->
  exists x : b64, pix k r = Some (x : B64N lib) /\ is_double x /\
    exists q0 l0 q1 l1 q2 l2 v, near_position (List.length (rl_sunz lut)) (to_R s0) (to_R s1) (to_R S) q0 l0 /\
      near_position (List.length (rl_azid lut)) 0 180 (180 - to_R a) q1 l1 /\ near_position (List.length (rl_satz lut)) (to_R t0) (to_R t1) (to_R T) q2 l2 /\
      corners B (List.length (rl_azid lut)) (List.length (rl_satz lut)) q0 q1 q2 v /\
      Rabs (to_R x - percent (100 * trilinear v l0 l1 l2)) <= 1 / 10 ^ 12 * M + / 10 ^ 290.
Proof.
  intros lib oob dask load platform sensor lut sun sat azi band s s0 s1 t0 t1 w G Ew Dw Iw (S1 & S2) (T1 & T2) (A1 & A2) Ty.
  destruct (blend64 lib lut _ w (g_table _ _ _ _ _ G) Dw Iw) as (i & w1 & w2 & r1 & r2 & B & EB & LB & _ & _ & _ & R1 & R2 & PB).
  assert (DB : forall b : b64, In b B -> is_double b).
  { intros b Hb. apply In_nth_error in Hb as [m Hm]. assert (m < List.length B)%nat by (apply nth_error_Some; intros Z; assert (Y : None = Some b) by (etransitivity; [symmetry; exact Z|exact Hm]); discriminate Y).
    pose proof (t_size _ _ (g_table _ _ _ _ _ G) r1 (nth_error_In _ _ R1)) as L1. pose proof (t_size _ _ (g_table _ _ _ _ _ G) r2 (nth_error_In _ _ R2)) as L2.
    destruct (nth_error r1 m) as [x|] eqn:X1; [|apply nth_error_None in X1; change (num (B64N lib)) with b64 in *; lia]. destruct (nth_error r2 m) as [y|] eqn:X2; [|apply nth_error_None in X2; change (num (B64N lib)) with b64 in *; lia].
    destruct (PB m x y X1 X2) as (b' & Hb' & Db & _). assert (Y : @Some b64 b' = Some b) by (etransitivity; [symmetry; exact Hb'|exact Hm]). injection Y as <-. exact Db. }
  destruct (angles_64 lib oob lut s0 s1 t0 t1 B (a_data (r_arr sun)) (a_data (r_arr sat)) (a_data (r_arr azi)) G LB) as (r & Er & Lr & Pr);
    [etransitivity; [exact T2|symmetry; exact S2]|etransitivity; [exact A2|symmetry; exact S2]|].
  set (A := {| a_dtype := Float64; a_shape := a_shape (r_arr sun); a_data := r |} : arr (B64N lib)).
  exists (arr_map (fun x => nclip x n0 (nlit (B64N lib) 100 1)) A), B. split; [|split; [|split; [exact EB|]]].
  - unfold get_reflectance. cbv zeta. rewrite Ew. cbn [bind]. rewrite EB, Ty. match goal with |- context [interp_by_angles ?o ?l ?b ?x ?y ?z] => assert (Q : interp_by_angles o l b x y z = Ok r) by exact Er; rewrite Q end. cbn [bind].
    fold A. destruct dask, (r_kind sun); reflexivity.
  - apply fits_map. left. split; [exact S1|]. etransitivity; [exact Lr|exact S2].
  - intros M k z t a S T HM HB Hk Pz Pt Pa HS HT Ra.
    destruct (Pr M k z t a S T HM) as (x & Hx & Dx & Rest); [intros b Hb; split; [apply DB|apply HB]; exact Hb| | | |exact HS|exact HT|exact Ra|]; 
      [apply (pix_nth (r_arr sun)); [change (num (B64N lib)) with b64 in *; lia|exact Pz]|apply (pix_nth (r_arr sat)); [change (num (B64N lib)) with b64 in *; lia|exact Pt]|apply (pix_nth (r_arr azi)); [change (num (B64N lib)) with b64 in *; lia|exact Pa]|].
    exists (clip100 x). split; [|split; [exact Dx|exact Rest]].
    rewrite pix_map. rewrite (proj2 (pix_nth A k (x : B64N lib) ltac:(change (a_data A) with r; change (num (B64N lib)) with b64 in *; lia)) Hx). cbn [option_map]. now rewrite clip100_is.
Qed.

Lemma lerp_in t a b lo hi : 0 <= t <= 1 -> lo <= a <= hi -> lo <= b <= hi -> lo <= lerp t a b <= hi.
Proof. intros. unfold lerp. nra. Qed.
Lemma tri_in v x y z lo hi : 0 <= x <= 1 -> 0 <= y <= 1 -> 0 <= z <= 1 -> (forall i j k, (i < 2)%nat -> (j < 2)%nat -> (k < 2)%nat -> lo <= v i j k <= hi) -> lo <= trilinear v x y z <= hi.
Proof. intros X Y Z V. unfold trilinear. cbv zeta. repeat (apply lerp_in; [assumption| |]); apply V; lia. Qed.
Lemma interpolation_bounds : forall lib oob dask load platform sensor lut sun sat azi band s s0 s1 t0 t1 w lo hi, @grid64 lib lut s0 s1 t0 t1 ->
  effective_wavelength load platform sensor band = Ok (w : B64N lib) -> double_between 0 (10 ^ 6) w -> inside64 lut w ->
  is_image s (r_arr sun) -> is_image s (r_arr sat) -> is_image s (r_arr azi) -> a_dtype (r_arr sun) = Float64 ->
  0 <= lo -> hi <= 1 -> (forall row (x : b64), In row (rl_refl lut) -> In (x : B64N lib) row -> lo <= to_R x <= hi) ->
  exists r, @get_reflectance (B64N lib) oob dask load platform sensor (Some lut) sun sat azi band None = Ok r /\
  forall k z t a S T, (k < size s)%nat ->
    pix k (r_arr sun) = Some (z : B64N lib) -> pix k (r_arr sat) = Some (t : B64N lib) -> pix k (r_arr azi) = Some (a : B64N lib) ->
    @secant_on lib s0 s1 z S -> @secant_on lib t0 t1 t T -> double_between 0 180 a ->
  exists x : b64, pix k r = Some (x : B64N lib) /\ is_double x /\ 100 * lo - 2 / 10 ^ 12 <= to_R x <= 100 * hi + 2 / 10 ^ 12.
Proof.
  intros lib oob dask load platform sensor lut sun sat azi band s s0 s1 t0 t1 w lo hi G Ew Dw Iw IS IT IA Ty Hlo Hhi HV.
  destruct (interpolation lib oob dask load platform sensor lut sun sat azi band s s0 s1 t0 t1 w G Ew Dw Iw IS IT IA Ty) as (r & B & Er & _ & EB & P).
  exists r. split; [exact Er|]. intros k z t a S T Hk Pz Pt Pa HS HT Ra.
  destruct (blend64 lib lut _ w (g_table _ _ _ _ _ G) Dw Iw) as (i & w1 & w2 & r1 & r2 & B' & EB' & LB & _ & _ & W & R1 & R2 & PB).
  assert (Y : Ok B = Ok B') by (etransitivity; [symmetry; exact EB|exact EB']). injection Y as <-.
  assert (T0 : 0 < / 10 ^ 300) by (apply Rinv_0_lt_compat, pow_lt; lra). assert (B2 : 10 ^ 300 = 10 ^ 20 * 10 ^ 280) by (rewrite <- pow_add; reflexivity). assert (B3 : 1 <= 10 ^ 280) by (apply pow_R1_Rle; lra).
  assert (T1 : / 10 ^ 300 <= / 10 ^ 20) by (apply Rinv_le; [apply pow_lt; lra|lra]).
  assert (T2 : / 10 ^ 290 <= / 10 ^ 20). { apply Rinv_le; [apply pow_lt; lra|]. apply Rle_pow; [lra|lia]. }
  assert (VB : forall b : b64, In b B -> lo - 3 / 10 ^ 15 <= to_R b <= hi + 3 / 10 ^ 15).
  { intros b Hb. apply In_nth_error in Hb as [m Hm]. assert (m < List.length B)%nat by (apply nth_error_Some; intros Z; assert (Y : None = Some b) by (etransitivity; [symmetry; exact Z|exact Hm]); discriminate Y).
    pose proof (t_size _ _ (g_table _ _ _ _ _ G) r1 (nth_error_In _ _ R1)) as L1. pose proof (t_size _ _ (g_table _ _ _ _ _ G) r2 (nth_error_In _ _ R2)) as L2.
    destruct (nth_error r1 m) as [x|] eqn:X1; [|apply nth_error_None in X1; change (num (B64N lib)) with b64 in *; lia]. destruct (nth_error r2 m) as [y|] eqn:X2; [|apply nth_error_None in X2; change (num (B64N lib)) with b64 in *; lia].
    destruct (PB m x y X1 X2) as (b' & Hb' & Db & Ac & _). assert (Y : @Some b64 b' = Some b) by (etransitivity; [symmetry; exact Hb'|exact Hm]). injection Y as <-.
    pose proof (HV r1 x (nth_error_In _ _ R1) (nth_error_In _ _ X1)) as Vx. pose proof (HV r2 y (nth_error_In _ _ R2) (nth_error_In _ _ X2)) as Vy. change (num (B64N lib)) with b64 in *.
    rewrite (Rabs_pos_eq (to_R x)), (Rabs_pos_eq (to_R y)) in Ac by lra.
    assert (In01 : lo <= between_nodes (to_R w1) (to_R w2) (to_R w) (to_R x) (to_R y) <= hi).
    { replace (between_nodes (to_R w1) (to_R w2) (to_R w) (to_R x) (to_R y)) with (lerp ((to_R w - to_R w1) / (to_R w2 - to_R w1)) (to_R x) (to_R y)) by (unfold between_nodes, lerp; field; lra).
      apply lerp_in; auto. assert (0 < to_R w2 - to_R w1) by lra. split; [apply pos_quot; lra|]. apply Rmult_le_reg_r with (to_R w2 - to_R w1); [lra|]. unfold Rdiv. rewrite Rmult_assoc, Rinv_l; lra. }
    apply Rabs_le_inv in Ac. lra. }
  destruct (P (1 + 1 / 10) k z t a S T) as (x & Px & Dx & q0 & l0 & q1 & l1 & q2 & l2 & v & N0 & N1 & N2 & C & E); try assumption; [lra|intros b Hb; pose proof (VB b Hb); apply Rabs_le; lra|].
  exists x. split; [exact Px|]. split; [exact Dx|].
  assert (Tr : lo - 3 / 10 ^ 15 <= trilinear v l0 l1 l2 <= hi + 3 / 10 ^ 15).
  { apply tri_in; [apply N0|apply N1|apply N2|]. intros a1 b1 c1 Ha Hb Hc. destruct (C a1 b1 c1 Ha Hb Hc) as (b & Hb' & ->). apply VB. eapply nth_error_In; exact Hb'. }
  assert (Pc : 100 * lo - 7 / 10 ^ 13 <= percent (100 * trilinear v l0 l1 l2) <= 100 * hi + 7 / 10 ^ 13).
  { unfold percent, Rmin, Rmax. repeat destruct (Rle_dec _ _); lra. }
  apply Rabs_le_inv in E. lra.
Qed.
