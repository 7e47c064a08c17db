(** How far radiances and temperatures in doubles are from the exact ones. *)
From Coq Require Import ZArith Reals Lra Lia List Bool String SpecFloat Sorting.Sorted.
From Flocq Require Import Core Relative BinarySingleNaN.
From Verif Require Import Base NumSig XR B64 M_Tables M_Utils M_Blackbody M_Rsr M_RadTb S_B64 S_Planck S_RadTb P_RadTb P_Nir6 P_Blackbody2 P_B64 P_B642 P_B64ops P_B64mono P_B64planck P_B64band P_B64lib P_B64err P_B64err2.
Import ListNotations.
Local Open Scope R_scope.

Section Api.
  Context (lib : libm).
  Notation N := (B64N lib).
  Lemma planck_entry : forall wn waves ts i j w t, accurate_exp (1 / 10 ^ 15) (m_exp lib) -> nth_error waves i = Some w -> nth_error ts j = Some t ->
    double_between (1 / 10 ^ 12) (10 ^ 12) w -> double_between (1 / 100) (10 ^ 6) t -> 1 / 10 <= photon wn (to_R w) (to_R t) <= 100 ->
    exists row b, nth_error (@planck N waves ts (negb wn)) j = Some row /\ nth_error row i = Some b /\ within (2 / 10 ^ 13) b (Planck wn (to_R w) (to_R t)).
  Proof.
    intros wn waves ts i j w t AC Hw Ht W T R. rewrite planck_rows. rewrite (map_nth_error _ _ _ Ht). do 2 eexists. split; [reflexivity|].
    rewrite (map_nth_error _ _ _ Hw). split; [reflexivity|]. eapply within_near; [apply planck_within; eauto|lra|lra].
  Qed.
  Lemma temperatures : forall w rs, accurate_log (1 / 10 ^ 15) (m_log lib) -> double_between (1 / 10 ^ 12) (10 ^ 12) w -> Forall (double_between (1 / 10 ^ 100) (10 ^ 40)) rs ->
    (Forall (fun r => 1 / 10 <= photon false (to_R w) (brightness false (to_R w) (to_R r)) <= 100) rs -> exists ts,
      @blackbody_rad2temp N [NpScalar (w : N); NpArray (rs : list N)] = Ok (NpArray ts) /\ Forall2 (fun t r => within (5 / 10 ^ 14) t (brightness false (to_R w) (to_R r))) ts rs) /\
    (Forall (fun r => 1 / 10 <= photon true (to_R w) (brightness true (to_R w) (to_R r)) <= 100) rs -> exists ts,
      @blackbody_wn_rad2temp N [NpScalar (w : N); NpArray (rs : list N)] = Ok (NpArray ts) /\ Forall2 (fun t r => within (5 / 10 ^ 14) t (brightness true (to_R w) (to_R r))) ts rs).
  Proof.
    intros w rs AL W RS.
    assert (M : forall r, double_between (1 / 10 ^ 100) (10 ^ 40) r -> mag (-458) 152 r) by (intros r Hr; eapply double_mag; [exact Hr| |]; cbn; lra).
    split; intros P; eexists; (split; [reflexivity|]); induction rs as [|r rs IH]; cbn [map]; constructor; inversion RS; inversion P; subst; auto.
    - eapply within_near; [apply (temp_within lib false w r AL W); [auto|lra]|lra|lra].
    - eapply within_near; [apply (temp_within lib true w r AL W); [auto|lra]|lra|lra].
  Qed.
  Lemma there_and_back : forall w ts, accurate_exp (1 / 10 ^ 15) (m_exp lib) -> accurate_log (1 / 10 ^ 15) (m_log lib) ->
    double_between (1 / 10 ^ 12) (10 ^ 12) w -> Forall (double_between (1 / 100) (10 ^ 6)) ts ->
    (Forall (fun t => 1 / 10 <= photon false (to_R w) (to_R t) <= 100) ts -> exists bs ts',
      @blackbody N [w] ts = map (fun b => [b]) bs /\ @blackbody_rad2temp N [NpScalar (w : N); NpArray (bs : list N)] = Ok (NpArray ts') /\
      Forall2 (fun t' t => within (3 / 10 ^ 13) t' (to_R t)) ts' ts) /\
    (Forall (fun t => 1 / 10 <= photon true (to_R w) (to_R t) <= 100) ts -> exists bs ts',
      @blackbody_wn N [w] ts = map (fun b => [b]) bs /\ @blackbody_wn_rad2temp N [NpScalar (w : N); NpArray (bs : list N)] = Ok (NpArray ts') /\
      Forall2 (fun t' t => within (3 / 10 ^ 13) t' (to_R t)) ts' ts).
  Proof.
    intros w ts AC AL W T. split; intros P.
    - exists (map (fun t => @planck1 N true w t) ts). eexists. split; [unfold blackbody; rewrite planck_rows, map_map; reflexivity|]. split; [reflexivity|].
      rewrite map_map. induction ts as [|t ts IH]; cbn [map]; constructor; inversion T; inversion P; subst; auto. apply (round_trip lib false w t AC AL); auto.
    - exists (map (fun t => @planck1 N false w t) ts). eexists. split; [unfold blackbody_wn; rewrite planck_rows, map_map; reflexivity|]. split; [reflexivity|].
      rewrite map_map. induction ts as [|t ts IH]; cbn [map]; constructor; inversion T; inversion P; subst; auto. apply (round_trip lib true w t AC AL); auto.
  Qed.

  (** ** Band radiances *)
  Lemma vpow_le n : (Z.of_nat n <= 20100)%Z -> v ^ n <= 1 + 4512 / 10 ^ 15.
  Proof.
    intros H. assert (E : v ^ n <= exp (INR n * / 4503599627370496)).
    { clear H. induction n as [|n IH]; [change (INR 0) with 0; rewrite Rmult_0_l, exp_0; simpl; lra|].
      rewrite S_INR, Rmult_plus_distr_r, exp_plus, Rmult_1_l. change (v ^ S n) with (v * v ^ n). rewrite Rmult_comm. pose proof (vpow_ge n). pose proof v_ge.
      pose proof (exp_ineq1_le (/ 4503599627370496)). apply Rmult_le_compat; [lra|lra|lra|unfold v; lra]. }
    apply IZR_le in H. rewrite <- INR_IZR_INZ in H. pose proof (pos_INR n). eapply Rle_trans; [exact E|]. eapply Rle_trans; [apply exp_small; lra|lra].
  Qed.
  Lemma sampled_near x : sampled x -> near0 (-40) 10 1 x (to_R x).
  Proof.
    intros [[[[V F] B] Z] [H|H]].
    - left. split; [|auto]. split; [auto|]. destruct x as [s|s| |s m e]; try discriminate F.
      + destruct s; [congruence|reflexivity].
      + destruct s; [|reflexivity]. exfalso. cbn [SF2R] in B. assert (F2R (Float radix2 (cond_Zopp true (Zpos m)) e) < 0) by (apply F2R_lt_0; reflexivity). lra.
    - right. apply near_exact. eapply double_mag with (lo := 1 / 10 ^ 12) (hi := 1000); [split; [split; auto|lra]| |]; cbn; lra.
  Qed.
  Lemma row_near wn t : accurate_exp (1 / 10 ^ 15) (m_exp lib) -> double_between (1 / 100) (10 ^ 6) t -> forall ws rs,
    Forall (double_between (1 / 10 ^ 12) (10 ^ 12)) ws -> Forall sampled rs -> Forall (fun w => 1 / 10 <= photon wn (to_R w) (to_R t) <= 100) ws ->
    Forall2 (near0 (-498) 162 ((1 + 18 / 10 ^ 14) * 1 * v)) (map (fun p => @nmul N (fst p) (snd p)) (combine (map (fun w => @planck1 N (negb wn) w t) ws) rs))
      (Rvmul (map (fun w => Planck wn w (to_R t)) (map to_R ws)) (map to_R rs)).
  Proof.
    intros AC T. unfold Rvmul. induction ws as [|w ws IH]; intros rs W R P; [constructor|]. destruct rs as [|r rs]; [constructor|].
    inversion W; inversion R; inversion P; subst. cbn [map combine fst snd]. constructor; [|apply IH; auto].
    apply (near0_mul (-458) 152 (-40) 10); [right; apply planck_within; auto|apply sampled_near; auto|lia|lia].
  Qed.
  Lemma resp_near rs : Forall sampled rs -> Forall2 (near0 (-40) 10 1) rs (map to_R rs).
  Proof. induction 1; cbn [map]; constructor; auto using sampled_near. Qed.
  Lemma sumnear_within a q x r e : sumnear a q x r -> q <= 1 + e -> 1 <= q -> within e x r.
  Proof.
    intros ((V & _) & F & [(X & R)|(X & C)]) Q1 Q2; (split; [split; auto|]).
    - rewrite X, R, Rminus_0_r, Rabs_R0. lra.
    - apply close_abs; [lra|]. eapply close_weaken; [| |exact C]; lra.
  Qed.

  Lemma band_within : forall (oob : N -> Z) (c : converter N) norm ts, accurate_exp (1 / 10 ^ 15) (m_exp lib) ->
    List.length (cv_response c) = List.length (cv_waves c) -> cv_rsr_integral c = @trapz N (cv_response c) (cv_waves c) ->
    (Z.of_nat (List.length (cv_waves c)) <= 10000)%Z -> Forall (double_between (1 / 10 ^ 12) (10 ^ 12)) (cv_waves c) -> Sorted Rle (map to_R (cv_waves c)) ->
    Forall sampled (cv_response c) -> 0 < Rtrapz (map to_R (cv_response c)) (map to_R (cv_waves c)) ->
    ts <> [] -> Forall (double_between (1 / 100) (10 ^ 6)) ts ->
    (forall w t, In w (cv_waves c) -> In t ts -> 1 / 10 <= photon (String.eqb (cv_wavespace c) WAVE_NUMBER) (to_R w) (to_R t) <= 100) ->
    exists rads, tb2radiance oob c ts None norm = Ok rads /\
    Forall2 (fun b t => within (5 / 10 ^ 12) b (band_radiance (String.eqb (cv_wavespace c) WAVE_NUMBER) norm (map to_R (cv_waves c)) (map to_R (cv_response c)) (to_R t))) rads ts.
  Proof.
    intros oob c norm ts AC LEN INT CNT W S R PI NE T P. unfold tb2radiance, planck_radiance.
    destruct (cv_waves c) as [|w0 ws0] eqn:EW; [exfalso; revert PI; destruct (map to_R (cv_response c)) as [|? [|? ?]]; cbn [map Rtrapz]; intros PI; lra|]. rewrite <- EW in *. clear EW w0 ws0.
    destruct ts as [|t0 ts0] eqn:ET; [congruence|]. rewrite <- ET in *. clear ET t0 ts0 NE.
    assert (BF : blackbody_function (cv_wavespace c) (cv_waves c) ts = map (fun t => map (fun w => @planck1 N (negb (String.eqb (cv_wavespace c) WAVE_NUMBER)) w t) (cv_waves c)) ts).
    { unfold blackbody_function, blackbody_wn, blackbody. destruct String.eqb; apply planck_rows. }
    rewrite BF. clear BF. set (wn := String.eqb _ _) in *. clearbody wn.
    assert (WM : Forall (mag (-40) 40) (cv_waves c)) by (eapply Forall_impl; [|exact W]; intros w Hw; apply wave_mag, Hw).
    pose proof v_ge as V. set (n := @List.length b64 (cv_waves c)) in *. change (Z.of_nat n <= 10000)%Z in CNT. change (List.length (cv_response c) = n) in LEN.
    assert (V1 : v ^ (4 + n) <= 2) by (eapply Rle_trans; [apply vpow_le; lia|lra]).
    (* the integral of the response *)
    destruct (trapz_near lib (-40) 10 1 (cv_waves c) ltac:(lia) ltac:(lia) ltac:(lra) ltac:(fold n; lra) WM S _ _ (resp_near _ R)) as [I1 I2]. fold n in I1.
    match type of I1 with sumnear _ _ ?t _ => change t with (@trapz N (cv_response c) (cv_waves c)) in I1 end.
    rewrite <- INT in I1.
    assert (IN : near (-134) 60 (1 * v ^ (4 + n)) (cv_rsr_integral c) (Rtrapz (map to_R (cv_response c)) (map to_R (cv_waves c)))).
    { destruct I1 as (A & B & [(_ & C)|(C & D)]); [exfalso; clear - C PI; rewrite C in PI; lra|].
      split; [split; [auto|split; [auto|split; [exact C|]]]|split; [pose proof (vpow_ge (4 + n)); lra|exact D]].
      destruct D as (_ & _ & D). eapply Rle_trans; [exact D|]. eapply Rle_trans; [apply Rmult_le_compat; [lra|pose proof (vpow_ge (4 + n)); lra|exact I2|rewrite Rmult_1_l; exact V1]|].
      assert (HD : 0 <= hd 0 (map to_R (cv_waves c))) by (destruct WM as [|w ws (_ & _ & Hw) _]; [cbn; lra|cbn [map hd]; pose proof (bpow_gt_0 radix2 (-40)); lra]).
      eapply Rle_trans; [apply Rmult_le_compat_r; [lra|apply Rmult_le_compat_r with (r2 := bpow radix2 40); [apply bpow_ge_0|lra]]|]. cbn. lra. }
    clear I1 I2.
    induction ts as [|t ts IH]; [exists []; split; [reflexivity|constructor]|].
    inversion T as [|? ? T1 T2]; subst. destruct IH as (rads & E & F); auto. { intros w u Hw Hu. apply P; [auto|now right]. }
    set (p := map (fun p => @nmul N (fst p) (snd p)) (combine (map (fun w => @planck1 N (negb wn) w t) (cv_waves c)) (cv_response c))).
    exists ((if norm then ndiv N (@trapz N p (cv_waves c)) (cv_rsr_integral c) else @trapz N p (cv_waves c)) :: rads).
    split.
    - cbn [map mapM]. rewrite E. unfold vmul at 1. rewrite map_length.
      match goal with |- context [Nat.eqb ?x ?y] => replace (Nat.eqb x y) with true by (symmetry; apply Nat.eqb_eq; symmetry; exact LEN) end. cbn [bind]. fold p.
      unfold trapezoid at 1. replace (Nat.eqb (List.length p) (List.length (cv_waves c))) with true; [reflexivity|].
      symmetry. apply Nat.eqb_eq. unfold p. rewrite map_length, combine_length, map_length. change (Nat.min n (List.length (cv_response c)) = n). rewrite LEN. apply Nat.min_id.
    - constructor; [|exact F].
      assert (PH : Forall (fun w => 1 / 10 <= photon wn (to_R w) (to_R t) <= 100) (cv_waves c)) by (apply Forall_forall; intros w Hw; apply P; [auto|now left]).
      pose proof (row_near wn t AC T1 _ _ W R PH) as RN. fold p in RN. set (q := (1 + 18 / 10 ^ 14) * 1 * v) in *.
      assert (Q : 1 <= q) by (unfold q; nra). 
      assert (Q2 : q * v ^ (4 + n) <= 2).
      { unfold q. replace ((1 + 18 / 10 ^ 14) * 1 * v * v ^ (4 + n)) with ((1 + 18 / 10 ^ 14) * v ^ (5 + n)) by (cbn [Nat.add pow]; ring).
        eapply Rle_trans; [apply Rmult_le_compat_l; [lra|apply (vpow_le (5 + n)); lia]|lra]. }
      destruct (trapz_near lib (-498) 162 q (cv_waves c) ltac:(lia) ltac:(lia) Q Q2 WM S p _ RN) as [J1 J2]. fold n in J1.
      match type of J1 with sumnear _ _ ?t _ => change t with (@trapz N p (cv_waves c)) in J1 end. unfold band_radiance.
      set (X := Rtrapz (Rvmul _ _) _) in *. set (Y := Rtrapz (map to_R (cv_response c)) _) in *. set (x := @trapz N p (cv_waves c)) in *.
      destruct norm.
      + change (@ndiv N x (cv_rsr_integral c)) with (SFdiv 53 1024 x (cv_rsr_integral c)).
        assert (J : near0 (-592) 222 (q * v ^ (4 + n)) x X).
        { destruct J1 as (A & B & [(C & D)|(C & D)]); [left; auto|right].
          split; [split; [auto|split; [auto|split; [exact C|]]]|split; [pose proof (vpow_ge (4 + n)); nra|exact D]].
          destruct D as (PX & _ & D). eapply Rle_trans; [exact D|]. eapply Rle_trans; [apply Rmult_le_compat; [lra|pose proof (vpow_ge (4 + n)); nra|exact J2|exact Q2]|].
          assert (HD : 0 <= hd 0 (map to_R (cv_waves c))) by (destruct WM as [|w ws (_ & _ & Hw) _]; [cbn; lra|cbn [map hd]; pose proof (bpow_gt_0 radix2 (-40)); lra]).
          eapply Rle_trans; [apply Rmult_le_compat_r; [lra|apply Rmult_le_compat_r with (r2 := bpow radix2 40); [apply bpow_ge_0|lra]]|]. rewrite <- bpow_plus.
          change 2 with (bpow radix2 1). rewrite <- bpow_plus. apply bpow_le. lia. }
        pose proof (near0_div _ _ _ _ _ _ _ _ _ _ J IN ltac:(lia) ltac:(lia)) as D. apply near0_sum in D.
        eapply sumnear_within; [exact D| |].
        * unfold q. replace ((1 + 18 / 10 ^ 14) * 1 * v * v ^ (4 + n) * (1 * v ^ (4 + n)) * v) with ((1 + 18 / 10 ^ 14) * v ^ (10 + n + n)).
          -- eapply Rle_trans; [apply Rmult_le_compat_l; [lra|apply (vpow_le (10 + n + n)); lia]|lra].
          -- rewrite !pow_add. ring.
        * pose proof (vpow_ge (4 + n)). assert (K1 : 1 <= q * v ^ (4 + n)) by nra. assert (K2 : 1 <= q * v ^ (4 + n) * (1 * v ^ (4 + n))) by (rewrite Rmult_1_l; apply Rle_trans with (1 * 1); [lra|apply Rmult_le_compat; lra]).
          apply Rle_trans with (1 * 1); [lra|apply Rmult_le_compat; lra].
      + replace (X / 1) with X by field. eapply sumnear_within; [exact J1| |pose proof (vpow_ge (4 + n)); nra].
        unfold q. replace ((1 + 18 / 10 ^ 14) * 1 * v * v ^ (4 + n)) with ((1 + 18 / 10 ^ 14) * v ^ (5 + n)) by (cbn [Nat.add pow]; ring).
        eapply Rle_trans; [apply Rmult_le_compat_l; [lra|apply (vpow_le (5 + n)); lia]|lra].
  Qed.
End Api.

Lemma constructor_integral (N : Num) load p i b det wsp tbr (c : converter N) : RadTbConverter load p i b det wsp tbr = Ok c ->
  trapezoid (cv_response c) (cv_waves c) = Ok (cv_rsr_integral c).
Proof.
  unfold RadTbConverter. intros H.
  inv_bind H. inv_bind H. inv_bind H. inv_bind H. destruct a2 as [rsr [unit sc]]. inv_bind H. destruct a2 as [bn bw].
  inv_bind H. inv_bind H. inv_bind H. inv_bind H. inv_bind H. injection H as <-. cbn [cv_response cv_waves cv_rsr_integral]. auto.
Qed.
Lemma band_accuracy : forall lib oob load platform instrument band det wavespace tbr (c : converter (B64N lib)) norm ts,
  accurate_exp (1 / 10 ^ 15) (m_exp lib) -> RadTbConverter load platform instrument band det wavespace tbr = Ok c ->
  (Z.of_nat (List.length (cv_waves c)) <= 10000)%Z -> Forall (double_between (1 / 10 ^ 12) (10 ^ 12)) (cv_waves c) -> Sorted Rle (map to_R (cv_waves c)) ->
  Forall sampled (cv_response c) -> 0 < Rtrapz (map to_R (cv_response c)) (map to_R (cv_waves c)) ->
  ts <> [] -> Forall (double_between (1 / 100) (10 ^ 6)) ts ->
  (forall w t, In w (cv_waves c) -> In t ts -> 1 / 10 <= photon (String.eqb wavespace WAVE_NUMBER) (to_R w) (to_R t) <= 100) ->
  exists rads, tb2radiance oob c ts None norm = Ok rads /\
  Forall2 (fun b t => within (5 / 10 ^ 12) b (band_radiance (String.eqb wavespace WAVE_NUMBER) norm (map to_R (cv_waves c)) (map to_R (cv_response c)) (to_R t))) rads ts.
Proof.
  intros lib oob load p i b det wsp tbr c norm ts AC Hc L W S R PI NE T P. pose proof (constructor_integral _ _ _ _ _ _ _ _ _ Hc) as E. apply converter_wavespace in Hc.
  unfold trapezoid in E. destruct Nat.eqb eqn:E1 in E; [|discriminate]. apply Ok_inj in E. apply Nat.eqb_eq in E1. rewrite <- Hc in *.
  apply band_within; auto.
Qed.

(** ** The cases of the Examples *)
Lemma div_range a b lo hi : 0 < b -> lo * b <= a <= hi * b -> lo <= a / b <= hi.
Proof. intros B [H1 H2]. split; apply Rmult_le_reg_r with b; auto; unfold Rdiv; rewrite Rmult_assoc, Rinv_l, Rmult_1_r by lra; auto. Qed.
Lemma case_wave : double_between (1 / 10 ^ 12) (10 ^ 12) (b64_ratio 11 1000000) /\ double_between (1 / 100) (10 ^ 6) (b64_ratio 300 1) /\
  1 / 10 <= photon false (to_R (b64_ratio 11 1000000)) (to_R (b64_ratio 300 1)) <= 100.
Proof.
  split; [apply (chk_between (-17) (-16)); [reflexivity|cbn; lra|cbn; lra]|]. split; [apply (chk_between 8 9); [reflexivity|cbn; lra|cbn; lra]|].
  assert (A : mag (-17) (-16) (b64_ratio 11 1000000)) by mag_const. assert (B : mag 8 9 (b64_ratio 300 1)) by mag_const.
  destruct A as (_ & _ & A), B as (_ & _ & B). set (w := to_R _) in *. set (t := to_R (b64_ratio 300 1)) in *. clearbody w t. cbn in A, B.
  unfold photon, h_planck, c_light, k_boltz. assert (W : / 131072 * 256 <= w * t <= / 65536 * 512) by (split; apply Rmult_le_compat; lra).
  replace (w * (13806488 / 10 ^ 30) * t) with (w * t * (13806488 / 10 ^ 30)) by ring. apply div_range; [|split]; lra.
Qed.
Lemma case_radiance : 1 / 10 <= photon false (to_R (b64_ratio 11 1000000)) (brightness false (to_R (b64_ratio 11 1000000)) (to_R (b64_ratio 9573177 1))) <= 100.
Proof.
  assert (A : mag (-17) (-16) (b64_ratio 11 1000000)) by mag_const. assert (B : mag 23 24 (b64_ratio 9573177 1)) by mag_const.
  pose proof (mag_pos _ _ _ A) as PA. pose proof (mag_pos _ _ _ B) as PB. rewrite photon_brightness by auto.
  destruct A as (_ & _ & A), B as (_ & _ & B). set (w := to_R (b64_ratio 11 1000000)) in *. set (b := to_R (b64_ratio 9573177 1)) in *. clearbody w b. cbn in A, B.
  unfold ratio_R. cbn [negb].
  assert (W5 : (/ 131072) ^ 5 <= w ^ 5 <= (/ 65536) ^ 5) by (split; apply pow_incr; lra).
  assert (BW : 8388608 * (/ 131072) ^ 5 <= b * w ^ 5 <= 16777216 * (/ 65536) ^ 5) by (split; apply Rmult_le_compat; lra).
  assert (Q : 5 <= rc2 / (b * w ^ 5) <= 1000) by (apply div_range; [|unfold rc2, h_planck, c_light; split]; lra).
  set (x := rc2 / _) in *. clearbody x. split.
  - apply Rle_trans with (ln (exp (1 / 10))); [rewrite ln_exp; lra|]. apply ln_le'; [apply exp_pos|].
    pose proof (exp_ineq1_le (- (1 / 10))) as I. rewrite exp_Ropp in I. pose proof (exp_pos (1 / 10)) as P.
    apply Rmult_le_compat_r with (r := exp (1 / 10)) in I; [|lra]. rewrite Rinv_l in I by lra. lra.
  - apply Rle_trans with (ln (exp 100)); [|rewrite ln_exp; lra]. apply ln_le'; [lra|].
    pose proof (exp_quad 100 ltac:(lra)). lra.
Qed.
Lemma case_band lib : exists c, RadTbConverter (load64 lib) "NOAA-19" "avhrr-3" (BStr "b"%string) "det-1" WAVE_LENGTH (nlit (B64N lib) 1 10) = Ok c /\
  (Z.of_nat (List.length (cv_waves c)) <= 10000)%Z /\ Forall (double_between (1 / 10 ^ 12) (10 ^ 12)) (cv_waves c) /\ Sorted Rle (map to_R (cv_waves c)) /\
  Forall sampled (cv_response c) /\ 0 < Rtrapz (map to_R (cv_response c)) (map to_R (cv_waves c)) /\
  Forall (double_between (1 / 100) (10 ^ 6)) [b64_ratio 300 1] /\
  (forall w t, In w (cv_waves c) -> In t [b64_ratio 300 1] -> 1 / 10 <= photon (String.eqb WAVE_LENGTH WAVE_NUMBER) (to_R w) (to_R t) <= 100).
Proof.
  destruct (case_converter lib) as (c & lut & Hc & _ & _ & HS & _). exists c. split; [auto|].
  revert Hc HS. match goal with |- ?x = Ok c -> _ => let v := eval vm_compute in x in change x with v end. intros H HS. apply Ok_inj in H. subst c. cbn [cv_wavespace cv_waves cv_response cv_rsr_integral] in *.
  assert (T : double_between (1 / 100) (10 ^ 6) (b64_ratio 300 1)) by apply case_wave.
  split; [cbn [List.length]; lia|].
  split; [repeat (apply Forall_cons; [apply (chk_between (-17) (-16)); [reflexivity|cbn; lra|cbn; lra]|]); apply Forall_nil|].
  split; [exact HS|].
  assert (R : forall x, chk (-4) 1 x = true -> sampled x).
  { intros x Hx. split; [split; [apply (chk_between (-4) 1); [auto|cbn; lra|cbn; lra]|destruct x as [| | |? ? ?]; discriminate]|right].
    destruct (chk_between (-4) 1 (1 / 16) 2 x Hx ltac:(cbn; lra) ltac:(cbn; lra)) as [_ K]. lra. }
  split; [repeat (apply Forall_cons; [apply R; reflexivity|]); apply Forall_nil|].
  split.
  { cbn [map Rtrapz SF2R cond_Zopp]. unfold F2R. cbn [Fnum Fexp]. repeat match goal with |- context [bpow radix2 ?e] => let b := eval cbn in (bpow radix2 e) in change (bpow radix2 e) with b end. lra. }
  split; [constructor; [auto|constructor]|].
  intros w t Hw [<-|[]]. change (String.eqb WAVE_LENGTH WAVE_NUMBER) with false.
  assert (A : mag (-17) (-16) w) by (cbn [In] in Hw; repeat (destruct Hw as [<-|Hw]; [apply chk_mag; reflexivity|]); destruct Hw).
  assert (B : mag 8 9 (b64_ratio 300 1)) by mag_const. clear - A B.
  destruct A as (_ & _ & A), B as (_ & _ & B). set (u := to_R w) in *. set (t := to_R (b64_ratio 300 1)) in *. clearbody u t. cbn in A, B.
  unfold photon, h_planck, c_light, k_boltz. assert (W : / 131072 * 256 <= u * t <= / 65536 * 512) by (split; apply Rmult_le_compat; lra).
  replace (u * (13806488 / 10 ^ 30) * t) with (u * t * (13806488 / 10 ^ 30)) by ring. apply div_range; [|split]; lra.
Qed.
