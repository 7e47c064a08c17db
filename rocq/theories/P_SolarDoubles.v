(** The solar spectrum in doubles: C116. *)
From Coq Require Import Reals Lra ZArith String List Bool Lia SpecFloat Sorting.Sorted.
From Flocq Require Import Core BinarySingleNaN.
From Verif Require Import Base NumSig XR B64 M_Tables M_Utils M_Solar S_B64 S_Planck S_RadTb S_SolarDoubles P_B64 P_B64ops P_B642 P_B64mono P_B64planck P_B64band P_B64err P_B64err2 P_B64err3 P_NirDoubles.
Import ListNotations.
Local Open Scope list_scope.
Local Open Scope R_scope.

(** ** Rounding to integers *)
Lemma half_even_near m d : (0 < d)%Z -> Rabs (IZR m / IZR d - IZR (half_even m d)) <= 1 / 2.
Proof.
  intros Hd. unfold half_even. pose proof (Z_div_mod_eq_full m d) as E. pose proof (Z.mod_pos_bound m d Hd) as B.
  set (q := (m / d)%Z) in *. set (r := (m mod d)%Z) in *.
  assert (D : 0 < IZR d) by (apply IZR_lt; lia).
  assert (X : IZR m / IZR d = IZR q + IZR r / IZR d). { rewrite E, plus_IZR, mult_IZR. field. lra. }
  assert (R0 : 0 <= IZR r / IZR d) by (apply Rmult_le_pos; [apply IZR_le; lia|left; now apply Rinv_0_lt_compat]).
  assert (T : IZR r / IZR d * IZR d = IZR r) by (field; lra).
  assert (LE : (2 * r <= d)%Z -> IZR r / IZR d <= 1 / 2).
  { intros H. apply IZR_le in H. rewrite mult_IZR in H. apply (Rmult_le_reg_r (IZR d)); [auto|]. rewrite T. lra. }
  assert (GE : (d <= 2 * r)%Z -> 1 / 2 <= IZR r / IZR d <= 1).
  { intros H. apply IZR_le in H. rewrite mult_IZR in H. assert (IZR r <= IZR d) by (apply IZR_le; lia).
    split; apply (Rmult_le_reg_r (IZR d)); auto; rewrite T; lra. }
  rewrite X. clearbody q r. destruct (Z.compare_spec (2 * r) d) as [C|C|C].
  - destruct (Z.even q); rewrite ?plus_IZR; apply Rabs_le; [pose proof (LE ltac:(lia))|pose proof (GE ltac:(lia))]; lra.
  - pose proof (LE ltac:(lia)). apply Rabs_le. lra.
  - pose proof (GE ltac:(lia)). rewrite plus_IZR. apply Rabs_le. lra.
Qed.
Lemma round_near (x : b64) : fin64 x = true -> 0 <= to_R x -> exists k, b64_round x = Some k /\ Rabs (to_R x - IZR k) <= 1 / 2.
Proof.
  destruct x as [s|s| |s m e]; try discriminate; intros _ P.
  - exists 0%Z. split; [reflexivity|]. cbn. rewrite Rminus_0_r, Rabs_R0. lra.
  - destruct s.
    { exfalso. cbn [SF2R] in P. assert (F2R (Float radix2 (cond_Zopp true (Zpos m)) e) < 0) by (apply F2R_lt_0; reflexivity). lra. }
    eexists. split; [reflexivity|]. cbn [signed SF2R cond_Zopp]. unfold F2R. cbn [Fnum Fexp]. destruct (Z.leb_spec 0 e) as [He|He].
    + rewrite <- (IZR_Zpower radix2) by lia. rewrite <- mult_IZR. change (radix2 ^ e)%Z with (2 ^ e)%Z. unfold Rminus. rewrite Rplus_opp_r, Rabs_R0. lra.
    + replace (bpow radix2 e) with (/ IZR (2 ^ (- e))).
      * apply half_even_near. apply Z.pow_pos_nonneg; lia.
      * change (2 ^ (- e))%Z with (radix2 ^ (- e))%Z. rewrite IZR_Zpower by lia. rewrite bpow_opp, Rinv_inv. reflexivity.
Qed.

(** ** The grid *)
Definition span (a b : b64) : Prop := is_double a /\ is_double b /\ 1 / 10 ^ 3 <= to_R a /\ to_R a + 1 / 10 ^ 6 <= to_R b /\ to_R b <= 10 ^ 6.
Lemma rnd_rel x : / 10 ^ 20 <= x -> Rabs (rnd64 x - x) <= 12 / 10 ^ 17 * x.
Proof.
  intros H. pose proof (rnd_err x) as E. rewrite (Rabs_pos_eq x) in E by lra. pose proof eta_tiny as T. unfold u in E.
  assert (/ 10 ^ 300 <= / 10 ^ 20 * / 10 ^ 20). { rewrite <- Rinv_mult, <- pow_add. apply Rinv_le; [apply pow_lt; lra|]. apply Rle_pow; [lra|lia]. }
  assert (eta <= / 10 ^ 20 * x) by (apply Rle_trans with (/ 10 ^ 20 * / 10 ^ 20); [lra|apply Rmult_le_compat_l; lra]). lra.
Qed.
Lemma delta_near a b : span a b -> let d := SFsub 53 1024 b a in is_double d /\ 0 <= to_R d /\ Rabs (to_R d - (to_R b - to_R a)) <= 12 / 10 ^ 17 * (to_R b - to_R a).
Proof.
  intros (Da & Db & A & G & B). destruct (sub_small b a) as [D E]; auto; [rewrite Rabs_pos_eq; lra|rewrite Rabs_pos_eq; lra|].
  cbv zeta. split; [exact D|]. rewrite E. split; [apply rnd_nonneg; lra|]. apply rnd_rel. lra.
Qed.
Lemma div_between x y : is_double x -> is_double y -> 0 <= to_R x <= 10 ^ 20 -> / 10 ^ 20 <= to_R y ->
  is_double (SFdiv 53 1024 x y) /\ to_R (SFdiv 53 1024 x y) = rnd64 (to_R x / to_R y).
Proof.
  intros (Vx & Fx) (Vy & Fy) Hx Hy. assert (P : 0 < / 10 ^ 20) by lra.
  assert (B : 0 <= to_R x / to_R y <= 10 ^ 20 * 10 ^ 20).
  { split; [apply Rmult_le_pos; [lra|left; apply Rinv_0_lt_compat; lra]|]. apply Rmult_le_compat; [lra|left; apply Rinv_0_lt_compat; lra|lra|].
    rewrite <- (Rinv_inv (10 ^ 20)). apply Rinv_le; lra. }
  destruct (div_R x y Vx Vy) as [E F]; auto; [lra| |].
  { apply big_fin. rewrite Rabs_pos_eq by lra. pose proof big_value. assert (10 ^ 20 * 10 ^ 20 <= 10 ^ 300) by (rewrite <- pow_add; apply Rle_pow; [lra|lia]). lra. }
  split; [split; [apply div_dbl; auto|exact F]|exact E].
Qed.
Lemma quotient_near x r s e : 0 < s -> Rabs (x - r) <= e * r -> Rabs (x / s - r / s) <= e * (r / s).
Proof.
  intros S H. replace (x / s - r / s) with ((x - r) * / s) by (field; lra). rewrite Rabs_mult, (Rabs_pos_eq (/ s)) by (left; now apply Rinv_0_lt_compat).
  unfold Rdiv. rewrite <- Rmult_assoc. apply Rmult_le_compat_r; [left; now apply Rinv_0_lt_compat|exact H].
Qed.
Lemma n_points64 lib a b dl : span a b -> is_double dl -> 1 <= (to_R b - to_R a) / to_R dl <= 9990 -> 0 < to_R dl ->
  exists n, n_points (N := B64N lib) a b dl = Ok (Z.of_nat (S n)) /\ (1 <= Z.of_nat n <= 9991)%Z /\ Rabs ((to_R b - to_R a) / to_R dl - INR n) <= 1 / 2 + 1 / 10 ^ 11.
Proof.
  intros Sp Dd X Pd. destruct (delta_near a b Sp) as (D & P & E). cbv zeta in *. destruct Sp as (_ & _ & A & G & B).
  set (d := SFsub 53 1024 b a) in *. set (w := to_R b - to_R a) in *. assert (Hw : 1 / 10 ^ 6 <= w <= 10 ^ 6) by (unfold w; lra).
  assert (Ld : / 10 ^ 20 <= to_R dl).
  { apply Rle_trans with (w / 9990); [lra|]. apply (Rmult_le_reg_r 9990); [lra|]. replace (w / 9990 * 9990) with w by field.
    replace w with (w / to_R dl * to_R dl) by (field; lra). rewrite (Rmult_comm (to_R dl)). apply Rmult_le_compat_r; lra. }
  pose proof (Rabs_le_inv _ _ E) as E'. destruct (div_between d dl D Dd) as [Dq Eq]; [lra|exact Ld|].
  pose proof (quotient_near _ _ (to_R dl) _ Pd E) as Q. set (x := w / to_R dl) in *. set (y := to_R d / to_R dl) in *. apply Rabs_le_inv in Q.
  pose proof (rnd_rel y ltac:(lra)) as R. apply Rabs_le_inv in R. rewrite <- Eq in R.
  destruct (round_near (SFdiv 53 1024 d dl)) as (k & Hk & Nk); [apply Dq|lra|].
  unfold n_points. change (nround (B64N lib)) with b64_round.
  change (ndiv (B64N lib) (nsub (B64N lib) b a) dl) with (SFdiv 53 1024 d dl). rewrite Hk. apply Rabs_le_inv in Nk.
  assert (K : (1 <= k <= 9991)%Z). { split; [apply le_IZR|apply le_IZR]; [|lra]. assert (0 < k)%Z by (apply lt_IZR; lra). apply IZR_le. lia. }
  exists (Z.to_nat k). split; [f_equal; lia|]. split; [lia|]. rewrite INR_IZR_INZ, Z2Nat.id by lia. apply Rabs_le. lra.
Qed.

Lemma point_near a b m i : span a b -> (1 <= Z.of_nat m <= 9991)%Z -> (i < m)%nat ->
  let step := SFdiv 53 1024 (SFsub 53 1024 b a) (b64_ratio (Z.of_nat m) 1) in
  let x := SFadd 53 1024 a (SFmul 53 1024 (b64_ratio (Z.of_nat i) 1) step) in
  (is_double step /\ 0 < to_R step) /\ is_double x /\ to_R x = rnd64 (to_R a + rnd64 (INR i * to_R step)) /\ to_R a <= to_R x <= to_R b /\
  Rabs (to_R x - (to_R a + INR i * ((to_R b - to_R a) / INR m))) <= 1 / 10 ^ 15 * to_R b.
Proof.
  intros Sp Hm Hi. destruct (delta_near a b Sp) as (D & P & E). cbv zeta in *. destruct Sp as (Da & Db & A & G & B).
  set (d := SFsub 53 1024 b a) in *. set (w := to_R b - to_R a) in *. assert (Hw : 1 / 10 ^ 6 <= w <= 10 ^ 6) by (unfold w; lra).
  destruct (ratio_int (Z.of_nat m)) as (Vm & Fm & Em); [lia|]. destruct (ratio_int (Z.of_nat i)) as (Vi & Fi & Ei); [lia|].
  rewrite <- INR_IZR_INZ in Em, Ei. assert (Bm : 1 <= INR m <= 9991).
  { split; [apply (le_INR 1); lia|]. replace 9991 with (INR (Z.to_nat 9991)) by (rewrite INR_IZR_INZ, Z2Nat.id by lia; reflexivity). apply le_INR. lia. }
  assert (Bi : 0 <= INR i <= INR m - 1). { split; [apply pos_INR|]. pose proof (le_INR (S i) m Hi) as H. rewrite S_INR in H. lra. }
  set (mm := b64_ratio (Z.of_nat m) 1) in *. set (ii := b64_ratio (Z.of_nat i) 1) in *.
  pose proof (Rabs_le_inv _ _ E) as E'. destruct (div_between d mm D) as [Ds Es]; [split; auto|lra|lra|]. rewrite Em in Es.
  pose proof (quotient_near _ _ (INR m) _ ltac:(lra) E) as Q. set (s := w / INR m) in *.
  assert (Bs : 1 / 10 ^ 10 <= s <= 10 ^ 6 /\ INR m * s = w).
  { split; [|unfold s; field; lra]. unfold s. split.
    - apply (Rmult_le_reg_r (INR m)); [lra|]. replace (w / INR m * INR m) with w by (field; lra). lra.
    - apply (Rmult_le_reg_r (INR m)); [lra|]. replace (w / INR m * INR m) with w by (field; lra). lra. }
  destruct Bs as [Bs Ms]. apply Rabs_le_inv in Q. pose proof (rnd_rel (to_R d / INR m) ltac:(lra)) as R. apply Rabs_le_inv in R. rewrite <- Es in R.
  set (step := SFdiv 53 1024 d mm) in *. assert (S3 : - (3 / 10 ^ 16 * s) <= to_R step - s <= 3 / 10 ^ 16 * s) by lra.
  split; [split; [exact Ds|lra]|].
  destruct (mul_between ii step 9991 (2 * 10 ^ 6)) as (Dp & Ep & _); [split; [split; auto|lra]|split; [exact Ds|lra]|lra|].
  rewrite Ei in Ep. set (t := INR i * to_R step) in *. set (p := SFmul 53 1024 ii step) in *.
  assert (T : - (3 / 10 ^ 16 * (INR i * s)) <= t - INR i * s <= 3 / 10 ^ 16 * (INR i * s)).
  { assert (INR i * (to_R step - s) <= INR i * (3 / 10 ^ 16 * s)) by (apply Rmult_le_compat_l; lra).
    assert (INR i * - (3 / 10 ^ 16 * s) <= INR i * (to_R step - s)) by (apply Rmult_le_compat_l; lra). unfold t. lra. }
  assert (Is : 0 <= INR i * s <= w - s). { split; [apply Rmult_le_pos; lra|]. apply Rle_trans with ((INR m - 1) * s); [apply Rmult_le_compat_r; lra|lra]. }
  assert (Ws : w / 10 ^ 4 <= s). { assert (INR m * s <= 9991 * s) by (apply Rmult_le_compat_r; lra). lra. }
  assert (TP : 0 <= to_R p /\ - (5 / 10 ^ 16 * (INR i * s)) <= to_R p - INR i * s <= 5 / 10 ^ 16 * (INR i * s)).
  { rewrite Ep. split; [apply rnd_nonneg; unfold t; apply Rmult_le_pos; lra|]. destruct (Nat.eq_dec i 0) as [->|Ni].
    - cbn [INR] in *. unfold t. rewrite !Rmult_0_l, rnd_0. lra.
    - assert (1 <= INR i) by (apply (le_INR 1); lia). assert (s <= INR i * s) by (rewrite <- (Rmult_1_l s) at 1; apply Rmult_le_compat_r; lra).
      pose proof (rnd_rel t ltac:(lra)) as R2. apply Rabs_le_inv in R2. lra. }
  destruct TP as [P0 TP]. assert (PW : to_R p <= w) by lra.
  assert (Hs : to_R a + to_R p <= to_R b) by (unfold w in *; lra).
  destruct Da as [Va Fa]. destruct Dp as [Vp Fp]. destruct (add_R a p Va Vp Fa Fp) as [Ex Fx].
  { apply big_fin. pose proof big_value. assert (10 ^ 30 <= 10 ^ 300) by (apply Rle_pow; [lra|lia]). rewrite Rabs_pos_eq; lra. }
  split; [split; [apply add_dbl; auto|exact Fx]|]. split; [rewrite Ex, Ep; reflexivity|].
  split; [rewrite Ex; split; [apply rnd_ge; auto; lra|apply rnd_le_dbl; [apply Db|apply Db|exact Hs]]|].
  pose proof (rnd_rel (to_R a + to_R p) ltac:(lra)) as R3. rewrite <- Ex in R3. apply Rabs_le_inv in R3. apply Rabs_le. unfold w in *. lra.
Qed.
Lemma Sorted_nth {A} (R : A -> A -> Prop) l : (forall i x y, nth_error l i = Some x -> nth_error l (S i) = Some y -> R x y) -> Sorted R l.
Proof.
  induction l as [|a l IH]; intros H; constructor.
  - apply IH. intros i x y X Y. apply (H (S i)); auto.
  - destruct l as [|b l]; constructor. apply (H 0%nat); reflexivity.
Qed.
Lemma last_app_one {A} (l : list A) x d : last (l ++ [x]) d = x.
Proof. induction l as [|a [|b l] IH]; [reflexivity|reflexivity|]. exact IH. Qed.

Lemma linspace64 lib a b n : span a b -> (1 <= Z.of_nat n <= 9991)%Z ->
  exists g, linspace (N := B64N lib) a b (Z.of_nat (S n)) = Ok g /\ even_doubles a b (S n) g /\ Sorted Rle (map to_R g).
Proof.
  intros Sp Hn. set (pt := fun i => SFadd 53 1024 a (SFmul 53 1024 (b64_ratio (Z.of_nat i) 1) (SFdiv 53 1024 (SFsub 53 1024 b a) (b64_ratio (Z.of_nat n) 1)))).
  exists (map pt (seq 0 n) ++ [b]).
  destruct (point_near a b n 0 Sp Hn ltac:(lia)) as ((Ds & Ps) & _).
  assert (PN : forall i, (i < n)%nat -> nth_error (map pt (seq 0 n) ++ [b]) i = Some (pt i)).
  { intros i Hi. rewrite nth_error_app1 by (now rewrite map_length, seq_length). rewrite nth_error_map.
    rewrite (nth_error_nth' (seq 0 n) 0%nat) by (now rewrite seq_length). rewrite seq_nth by auto. reflexivity. }
  assert (PL : nth_error (map pt (seq 0 n) ++ [b]) n = Some b).
  { rewrite nth_error_app2; rewrite map_length, seq_length; [|lia]. now rewrite Nat.sub_diag. }
  split; [|split].
  - unfold linspace. destruct (Z.ltb_spec (Z.of_nat (S n)) 0); [lia|]. destruct (Z.eqb_spec (Z.of_nat (S n)) 0); [lia|]. destruct (Z.eqb_spec (Z.of_nat (S n)) 1); [lia|].
    cbv zeta. replace (Z.of_nat (S n) - 1)%Z with (Z.of_nat n) by lia. rewrite Nat2Z.id. f_equal. f_equal. apply map_ext. intros i. unfold pt.
    match goal with |- context [neqb (B64N lib) ?x ?y] => assert (Q : neqb (B64N lib) x y = false) end.
    { destruct (ratio_int 0) as (V0 & F0 & E0); [lia|].
      etransitivity; [exact (eqb_R (SFdiv 53 1024 (SFsub 53 1024 b a) (b64_ratio (Z.of_nat n) 1)) (b64_ratio 0 1) (proj1 Ds) V0 (proj2 Ds) F0)|].
      apply Req_bool_false. rewrite E0. lra. }
    rewrite Q. reflexivity.
  - split; [rewrite app_length, map_length, seq_length; cbn; lia|]. split; [|split; [apply last_app_one|]].
    + assert (X : pt 0%nat = a).
      { unfold pt. change (b64_ratio (Z.of_nat 0) 1) with (S754_zero false). destruct Sp as ((_ & Fa) & _ & A & _).
        set (st := SFdiv 53 1024 _ _) in *. clearbody st. destruct st as [?|?| |? ? ?]; cbn in Ps; try lra. cbn [SFmul].
        destruct a as [?|?| |? ? ?]; try discriminate Fa; [cbn in A; lra|reflexivity]. }
      specialize (PN 0%nat ltac:(lia)). rewrite X in PN. destruct (map pt (seq 0 n) ++ [b]); [discriminate|exact PN].
    + intros i Hi. replace (S n - 1)%nat with n by lia. destruct (Nat.eq_dec i n) as [->|Ni].
      * exists b. split; [exact PL|]. destruct Sp as (Da & Db & A & G & B). split; [exact Db|]. split; [lra|].
        assert (0 < INR n) by (apply lt_0_INR; lia).
        replace (to_R b - (to_R a + INR n * ((to_R b - to_R a) / INR n))) with 0 by (field; lra). rewrite Rabs_R0. lra.
      * exists (pt i). split; [apply PN; lia|]. destruct (point_near a b n i Sp Hn ltac:(lia)) as (_ & D & _ & R & E). auto.
  - apply Sorted_nth. intros i x y X Y. rewrite nth_error_map in X, Y.
    assert (Hy : (S i <= n)%nat).
    { destruct (nth_error (map pt (seq 0 n) ++ [b]) (S i)) eqn:K; [|discriminate]. assert (K' : nth_error (map pt (seq 0 n) ++ [b]) (S i) <> None) by (rewrite K; discriminate).
      apply nth_error_Some in K'. rewrite app_length, map_length, seq_length in K'. cbn [List.length] in K'. lia. }
    rewrite PN in X by lia. injection X as <-. destruct (point_near a b n i Sp Hn ltac:(lia)) as (_ & _ & E1 & R1 & _). fold (pt i) in E1, R1.
    destruct (Nat.eq_dec (S i) n) as [En|Ni]; [rewrite En, PL in Y; injection Y as <-; lra|].
    rewrite PN in Y by lia. injection Y as <-. destruct (point_near a b n (S i) Sp Hn ltac:(lia)) as (_ & _ & E2 & R2 & _). fold (pt (S i)) in E2, R2.
    rewrite E1, E2. apply rnd_le. apply Rplus_le_compat_l. apply rnd_le. apply Rmult_le_compat_r; [lra|]. apply le_INR. lia.
Qed.

(** ** The integrals *)
Lemma like_near x : irradiance_like x -> near0 (-40) 20 1 x (to_R x).
Proof.
  intros (((V & F) & B) & NZ & [Z|L]).
  - left. split; [|auto]. destruct x as [[|]|?| |s m e]; try discriminate F; [congruence|exact nn_zero|].
    exfalso. cbn [SF2R] in Z. assert (K : F2R (Float radix2 (cond_Zopp s (Zpos m)) e) <> 0) by (apply F2R_neq_0; destruct s; discriminate). contradiction.
  - right. apply near_exact. eapply double_mag with (lo := 1 / 10 ^ 12) (hi := 10 ^ 6); [split; [split; auto|lra]| |]; cbn; lra.
Qed.
Lemma likes_near l : Forall irradiance_like l -> Forall2 (near0 (-40) 20 1) l (map to_R l).
Proof. induction 1; cbn [map]; constructor; auto using like_near. Qed.
Lemma products_near lib l : Forall irradiance_like l -> forall m, Forall irradiance_like m -> 
  Forall2 (near0 (-80) 40 v) (map (fun p => nmul (B64N lib) (fst p) (snd p)) (combine (l : list (B64N lib)) m)) (Rvmul (map to_R l) (map to_R m)).
Proof.
  unfold Rvmul. induction 1 as [|x l X _ IH]; intros m M; [constructor|]. destruct M as [|y m Y M]; [constructor|]. cbn [map combine fst snd]. constructor; [|now apply IH].
  replace v with (1 * 1 * v) by ring. apply (near0_mul (-40) 20 (-40) 20); auto using like_near; lia.
Qed.
Lemma axis_mag ws : Forall (double_between (1 / 10 ^ 12) (10 ^ 12)) ws -> Forall (mag (-40) 40) ws.
Proof. intros H. eapply Forall_impl; [|exact H]; intros w Hw; apply wave_mag, Hw. Qed.

Lemma constant64 : forall lib (s : spectrum (B64N lib)) (ws : list b64),
  so_wavenumber s = Some (ws : list (B64N lib)) \/ so_wavenumber s = None /\ so_wavelength s = Some (ws : list (B64N lib)) ->
  List.length (so_irradiance s) = List.length ws -> (Z.of_nat (List.length ws) <= 10000)%Z -> Forall (double_between (1 / 10 ^ 12) (10 ^ 12)) ws -> Sorted Rle (map to_R ws) ->
  Forall irradiance_like (so_irradiance s) ->
  exists c, solar_constant s = Ok c /\ within (5 / 10 ^ 12) c (Rtrapz (map to_R (so_irradiance s)) (map to_R ws)).
Proof.
  intros lib s ws Hx HL HC W S I. exists (@trapz (B64N lib) (so_irradiance s) ws). split.
  - unfold solar_constant, trapezoid. destruct Hx as [->|[-> ->]]; rewrite HL, Nat.eqb_refl; reflexivity.
  - pose proof (vpow_le (4 + List.length ws) ltac:(lia)) as V1. pose proof (vpow_ge (4 + List.length ws)).
    destruct (trapz_near lib (-40) 20 1 ws ltac:(lia) ltac:(lia) ltac:(lra) ltac:(lra) (axis_mag ws W) S _ _ (likes_near _ I)) as [J _].
    eapply sumnear_within; [exact J| |]; lra.
Qed.
