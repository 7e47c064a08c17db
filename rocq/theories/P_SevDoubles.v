(** The SEVIRI conversions in doubles: how far they are from the exact values (C114). *)
From Coq Require Import ZArith Reals Lra Lia List Bool String SpecFloat.
From Flocq Require Import Core Relative BinarySingleNaN.
From Verif Require Import Base NumSig XR B64 M_Tables M_Utils M_Rsr M_Blackbody M_RadTb S_B64 S_Planck S_Seviri S_SevDoubles
     P_B64 P_B64ops P_B64mono P_B64planck P_B64err P_Blackbody P_RadTb P_Seviri.
Import ListNotations.
Local Open Scope R_scope.

(** ** The coefficients *)
Definition sv_doubles (lib : libm) (p s : string) : Prop := exists vc a b nu ra rb,
  @seviri_coeffs (B64N lib) {| sv_platform := p; sv_bandname := s |} = Ok (vc, a, b) /\
  @seviri_coeffs XRN {| sv_platform := p; sv_bandname := s |} = Ok (Fin nu, Fin ra, Fin rb) /\
  near 16 18 v vc nu /\ near (-1) 0 v a ra /\ near (-5) 2 v b rb /\
  75179 <= nu <= 256884 /\ 995 / 1000 <= ra <= 1 /\ 56 / 1000 <= rb <= 3438 / 1000.
Ltac near_const := split; [mag_const|split; [exact v_ge|const_R; unfold close, v; repeat split; lra]].
Lemma sv_doubles_internal lib p s : In p seviri_satellites -> In s seviri_internal -> sv_doubles lib p s.
Proof.
  intros P S. simpl in P, S.
  repeat (destruct P as [P|P]); try contradiction; subst p;
  repeat (destruct S as [S|S]); try contradiction; subst s;
  (unfold sv_doubles;
   match goal with |- context [@seviri_coeffs (B64N lib) ?c] => let r := eval vm_compute in (@seviri_coeffs (B64N lib) c) in change (@seviri_coeffs (B64N lib) c) with r end;
   unfold seviri_coeffs; cbn [sv_platform sv_bandname];
   cbn [SEVIRI dget String.eqb Ascii.eqb Bool.eqb of_option bind]; unfold row, idx; cbn [nth_error of_option bind];
   unfold nZ; rewrite !nlit_fin; cbn [nmul XRN xmul]; do 6 eexists; split; [reflexivity|]; split; [reflexivity|];
   split; [near_const|split; [near_const|split; [near_const|lra]]]).
Qed.
Lemma sv_doubles_supported lib p s : seviri_supported p s -> sv_doubles lib p (translate_band "seviri" s).
Proof.
  intros [P S]. apply sv_doubles_internal; auto.
  destruct S as [S|S]; simpl in S; repeat (destruct S as [S|S]); try contradiction; subst s; vm_compute; tauto.
Qed.

(** ** exp x - 1 for arguments up to 41 *)
Lemma Rle_div_r x y z : 0 < z -> x * z <= y <-> x <= y / z.
Proof.
  intros Z. assert (E : y / z * z = y) by (field; lra). set (q := y / z) in *. rewrite <- E. split; intros H; [apply Rmult_le_reg_r with z|apply Rmult_le_compat_r]; lra.
Qed.
Lemma Rle_div_l x y z : 0 < z -> x <= y * z <-> x / z <= y.
Proof.
  intros Z. assert (E : x / z * z = x) by (field; lra). set (q := x / z) in *. rewrite <- E. split; intros H; [apply Rmult_le_reg_r with z|apply Rmult_le_compat_r]; lra.
Qed.
Lemma expm1_upper2 d a a' : 0 < a <= 42 -> 0 <= d <= 19 / 10 ^ 16 -> a' <= a * (1 + d) -> exp a' - 1 <= (exp a - 1) * (1 + 9 / 10 ^ 14).
Proof.
  intros A D H. pose proof (exp_ineq1_le a) as E1. assert (Y : 0 <= a * d <= 42 * (19 / 10 ^ 16)) by (split; [nra|apply Rmult_le_compat; lra]).
  assert (E2 : exp a' <= exp a * exp (a * d)). { rewrite <- exp_plus. apply Raux.exp_le. lra. }
  pose proof (exp_small (a * d) ltac:(lra)) as E3. pose proof (exp_pos a).
  assert (E4 : exp a' <= exp a * (1 + 101 / 100 * (a * d))) by (eapply Rle_trans; [exact E2|apply Rmult_le_compat_l; lra]).
  assert (E5 : a * d <= (exp a - 1) * (19 / 10 ^ 16)) by (apply Rmult_le_compat; lra).
  assert (E6 : (exp a - 1) * (a * d) <= (exp a - 1) * (42 * (19 / 10 ^ 16))) by (apply Rmult_le_compat_l; lra).
  lra.
Qed.
Lemma expm1_close2 d a a' : 0 < a <= 41 -> 0 <= d <= 19 / 10 ^ 16 -> close (1 + d) a' a -> close (1 + 9 / 10 ^ 14) (exp a' - 1) (exp a - 1).
Proof.
  intros A D C. pose proof (close_pos (1 + d) a' a ltac:(lra) C) as P. destruct C as (_ & C1 & C2).
  pose proof (exp_ineq1_le a). split; [lra|]. split; [eapply expm1_upper2; eauto; split; [lra|]|eapply expm1_upper2; eauto; lra].
  eapply Rle_trans; [exact C2|]. nra.
Qed.
Section Lib.
  Context (lib : libm).
  Notation N := (B64N lib).
  Lemma expm1_near2 a b x r d : accurate_exp (1 / 10 ^ 15) (m_exp lib) -> near a b (1 + d) x r -> 1 <= r <= 41 -> 0 <= d <= 19 / 10 ^ 16 ->
    near (-4) 205 ((1 + 1 / 10 ^ 14) * (1 + 9 / 10 ^ 14) * v) (SFsub 53 1024 (m_exp lib x) (b64_ratio 1 1)) (exp r - 1).
  Proof.
    intros AC (M & _ & C) R D. pose proof (expm1_close2 d r (to_R x) ltac:(lra) D C) as CE.
    destruct C as (_ & C1 & C2). assert (X : 9 / 10 <= to_R x <= 102) by (split; nra).
    pose proof M as ([V _] & F & _). destruct (AC x) as [[VE FE] H]; [now split|lra|].
    pose proof (exp_ineq1_le (to_R x)) as G. pose proof (exp_102 (to_R x) ltac:(lra)) as G2.
    set (e := to_R (m_exp lib x)) in *. set (ex := exp (to_R x)) in *.
    assert (K : close (1 + 1 / 10 ^ 14) (e - 1) (ex - 1)).
    { replace (1 + 1 / 10 ^ 14) with (1 + 2 * (1 / (2 * 10 ^ 14))) by lra. apply close_of_abs; [lra|lra|].
      replace (e - 1 - (ex - 1)) with (e - ex) by ring. eapply Rle_trans; [exact H|]. lra. }
    apply Rabs_le_inv in H. assert (Lo : 1 + 97 / 1000 <= e) by lra.
    assert (Ne : nn (m_exp lib x)) by (apply nn_of_fin; auto; apply sign_pos; auto; fold e; lra).
    destruct one_mag as (N1 & F1 & _).
    destruct (sub_nn (m_exp lib x) (b64_ratio 1 1)) as (Ns & Fs & Es); auto; [rewrite one_R; fold e; lra|].
    rewrite one_R in Es. fold e in Es.
    assert (B4 : bpow radix2 (-4) = / 16) by reflexivity.
    eapply near_step; [| exact Es| | |].
    - split; [auto|]. split; [auto|]. rewrite Es. apply rnd_bounds; [lia|lia|]. rewrite B4. split; [lra|].
      change (bpow radix2 205) with (bpow radix2 (204 + 1)). rewrite (bpow_plus radix2 204 1). change (bpow radix2 1) with 2. lra.
    - eapply Rle_trans; [apply (bpow_le radix2 _ (-4)); lia|]. rewrite B4. lra.
    - lra.
    - eapply close_trans; [lra|lra|exact K|exact CE].
  Qed.

  Section Channel.
  Context (vc a b : b64) (nu ra rb : R).
  Context (HV : near 16 18 v vc nu) (HA : near (-1) 0 v a ra) (HB : near (-5) 2 v b rb).
  Context (BV : 75179 <= nu <= 256884) (BA : 995 / 1000 <= ra <= 1) (BB : 56 / 1000 <= rb <= 3438 / 1000).
  Lemma sv_nom_near : near (-5) 2 (v ^ 8) (SFmul 53 1024 (@sv_c1 N) (@npow N vc 3)) (rc2 * nu ^ 3).
  Proof.
    cbn [npow]. pose proof (near_mul _ _ _ _ _ _ _ _ _ _ HV HV ltac:(lia) ltac:(lia)) as W2.
    pose proof (near_mul _ _ _ _ _ _ _ _ _ _ W2 HV ltac:(lia) ltac:(lia)) as W3.
    pose proof (near_mul _ _ _ _ _ _ _ _ _ _ (c2_near lib) W3 ltac:(lia) ltac:(lia)) as W4.
    eapply near_eq; [eapply near_weaken; [exact W4|lia|lia|]|ring]. right. ring.
  Qed.
  Lemma sv_arg_near : near 9 12 (v ^ 4) (SFmul 53 1024 (@sv_c2 N) vc) (rc1 * nu).
  Proof.
    pose proof (near_mul _ _ _ _ _ _ _ _ _ _ (c1_near lib) HV ltac:(lia) ltac:(lia)) as W.
    eapply near_weaken; [exact W|lia|lia|]. right. ring.
  Qed.
  Lemma sv_photon t : 100 <= t <= 1000 -> 1 <= rc1 * nu / (ra * t + rb) <= 41.
  Proof.
    intros T. assert (H1 : 995 / 10 <= ra * t) by nra. assert (H2 : ra * t <= 1000) by nra.
    assert (C : 14387 / 10 ^ 6 <= rc1 <= 14388 / 10 ^ 6) by (unfold rc1, h_planck, c_light, k_boltz; lra).
    split; [apply Rle_div_r|apply Rle_div_l]; try lra; nra.
  Qed.
  Definition sv_rad (t : b64) : b64 := SFdiv 53 1024 (SFmul 53 1024 (@sv_c1 N) (@npow N vc 3))
    (SFsub 53 1024 (m_exp lib (SFdiv 53 1024 (SFmul 53 1024 (@sv_c2 N) vc) (SFadd 53 1024 (SFmul 53 1024 a t) b))) (b64_ratio 1 1)).
  Definition sv_rad_R (t : R) : R := rc2 * nu ^ 3 / (exp (rc1 * nu / (ra * t + rb)) - 1).
  Lemma sv_rad_near t : accurate_exp (1 / 10 ^ 15) (m_exp lib) -> double_between 100 1000 t ->
    near (-211) 7 (1 + 13 / 10 ^ 14) (sv_rad t) (sv_rad_R (to_R t)).
  Proof.
    intros AC T. pose proof (near_exact 6 10 t ltac:(eapply double_mag; [exact T| |]; cbn; lra)) as NT. destruct T as [_ T].
    pose proof (near_mul _ _ _ _ _ _ _ _ _ _ HA NT ltac:(lia) ltac:(lia)) as A1.
    pose proof (near_weaken _ _ (-5) 10 _ (v ^ 2) _ _ A1 ltac:(lia) ltac:(lia) ltac:(right; ring)) as A2.
    pose proof v_ge as V.
    pose proof (near_weaken _ _ (-5) 10 _ (v ^ 2) _ _ HB ltac:(lia) ltac:(lia) ltac:(cbn; nra)) as A3.
    pose proof (near_add _ _ _ _ _ _ _ A2 A3 ltac:(lia) ltac:(lia)) as A4.
    pose proof (near_div _ _ _ _ _ _ _ _ _ _ sv_arg_near A4 ltac:(lia) ltac:(lia)) as A5.
    pose proof (near_weaken _ _ _ _ _ (1 + 19 / 10 ^ 16) _ _ A5 (Z.le_refl _) (Z.le_refl _)) as A6.
    assert (Q : v ^ 4 * (v ^ 2 * v) * v <= 1 + 19 / 10 ^ 16) by (replace (v ^ 4 * (v ^ 2 * v) * v) with (v ^ 8) by ring; exact v8).
    specialize (A6 Q). pose proof (expm1_near2 _ _ _ _ _ AC A6 (sv_photon _ T) ltac:(lra)) as A7.
    pose proof (near_div _ _ _ _ _ _ _ _ _ _ sv_nom_near A7 ltac:(lia) ltac:(lia)) as A8.
    eapply near_weaken; [exact A8|lia|lia|]. unfold v. lra.
  Qed.

  Definition sv_temp (l : b64) : b64 := SFsub 53 1024
    (SFdiv 53 1024 (SFmul 53 1024 (@sv_c2 N) vc)
      (SFmul 53 1024 a (m_log lib (SFadd 53 1024 (SFdiv 53 1024 (SFmul 53 1024 (@sv_c1 N) (@npow N vc 3)) l) (b64_ratio 1 1)))))
    (SFdiv 53 1024 b a).
  Definition sv_temp_R (l : R) : R := rc1 * nu / (ra * ln (rc2 * nu ^ 3 / l + 1)) - rb / ra.
  Lemma v9 : v ^ 9 <= 1 + 21 / 10 ^ 16.
  Proof. unfold v. lra. Qed.
  Lemma sv_ln l : 0 < l -> 99 <= sv_temp_R l <= 1001 -> 99 / 1000 <= ln (rc2 * nu ^ 3 / l + 1) <= 102.
  Proof.
    intros L. unfold sv_temp_R. set (x := ln (rc2 * nu ^ 3 / l + 1)).
    assert (X : 0 < x). { unfold x. rewrite <- ln_1. apply ln_increasing; [lra|]. assert (0 < rc2 * nu ^ 3 / l); [|lra].
      destruct rc_pos. apply Rdiv_lt_0_compat; auto. apply Rmult_lt_0_compat; auto. apply pow_lt; lra. }
    assert (C : 14387 / 10 ^ 6 <= rc1 <= 14388 / 10 ^ 6) by (unfold rc1, h_planck, c_light, k_boltz; lra).
    replace (rc1 * nu / (ra * x) - rb / ra) with ((rc1 * nu / x - rb) / ra) by (field; lra).
    set (y := rc1 * nu / x). assert (Y : y * x = rc1 * nu) by (unfold y; field; lra).
    intros [H1 H2]. apply Rle_div_r in H1; [|lra]. apply Rle_div_l in H2; [|lra].
    assert (1000 <= rc1 * nu <= 3800) by nra. assert (98 <= y <= 1005) by nra.
    split.
    - destruct (Rle_or_lt (99 / 1000) x); auto. exfalso. assert (y * x <= 1005 * (99 / 1000)) by (apply Rmult_le_compat; lra). lra.
    - destruct (Rle_or_lt x 102); auto. exfalso. assert (98 * 102 <= y * x) by (apply Rmult_le_compat; lra). lra.
  Qed.
  Lemma sv_temp_within l : accurate_log (1 / 10 ^ 15) (m_log lib) -> mag (-400) 400 l -> 99 <= sv_temp_R (to_R l) <= 1001 ->
    within (5 / 10 ^ 14) (sv_temp l) (sv_temp_R (to_R l)).
  Proof.
    intros AL L R. pose proof (near_exact _ _ _ L) as NL. pose proof (mag_pos _ _ _ L) as PL. pose proof v_ge as V.
    pose proof (near_div _ _ _ _ _ _ _ _ _ _ sv_nom_near NL ltac:(lia) ltac:(lia)) as A1.
    pose proof (near_weaken _ _ _ _ _ (1 + 21 / 10 ^ 16) _ _ A1 (Z.le_refl _) (Z.le_refl _)) as A2.
    assert (Q : v ^ 8 * 1 * v <= 1 + 21 / 10 ^ 16) by (replace (v ^ 8 * 1 * v) with (v ^ 9) by ring; exact v9).
    specialize (A2 Q). pose proof (log1_near lib AL _ _ _ _ _ A2 ltac:(lra) (sv_ln _ PL R)) as A3.
    pose proof (near_mul _ _ _ _ _ _ _ _ _ _ HA A3 ltac:(lia) ltac:(lia)) as A4.
    pose proof (near_div _ _ _ _ _ _ _ _ _ _ sv_arg_near A4 ltac:(lia) ltac:(lia)) as A5.
    pose proof (near_weaken _ _ _ _ _ (1 + 4 / 10 ^ 14) _ _ A5 (Z.le_refl _) (Z.le_refl _)) as A6.
    assert (Q2 : v ^ 4 * (v * (1 + 35 / 10 ^ 15) * v) * v <= 1 + 4 / 10 ^ 14) by (unfold v; lra).
    specialize (A6 Q2).
    pose proof (near_div _ _ _ _ _ _ _ _ _ _ HB HA ltac:(lia) ltac:(lia)) as B1.
    pose proof (near_weaken _ _ _ _ _ (1 + 1 / 10 ^ 15) _ _ B1 (Z.le_refl _) (Z.le_refl _)) as B2.
    assert (Q3 : v * v * v <= 1 + 1 / 10 ^ 15) by (unfold v; lra).
    specialize (B2 Q3).
    unfold sv_temp, sv_temp_R in *.
    set (y := SFdiv 53 1024 (SFmul 53 1024 (@sv_c2 N) vc) _) in *. set (z := SFdiv 53 1024 b a) in *.
    set (Y := rc1 * nu / _) in *. set (Z := rb / ra) in *.
    destruct A6 as ((NY & FY & _) & _ & CY). destruct B2 as ((NZ & FZ & _) & _ & CZ).
    apply close_abs in CY; [|lra]. apply close_abs in CZ; [|lra].
    assert (HZ : 0 < Z <= 35 / 10). { unfold Z. split; [apply Rdiv_lt_0_compat; lra|apply (Rle_div_l rb (35 / 10) ra); lra]. }
    apply Rabs_le_inv in CY. apply Rabs_le_inv in CZ.
    destruct (sub_nn y z NY NZ FY FZ ltac:(lra)) as ([VS _] & FS & ES).
    split; [now split|]. rewrite ES.
    assert (D : bpow radix2 (-1022) <= to_R y - to_R z). { eapply Rle_trans; [apply (bpow_le radix2 _ 0); lia|]. change (bpow radix2 0) with 1. lra. }
    pose proof (close_rnd _ D) as CR. apply close_abs in CR; [|lra]. apply Rabs_le_inv in CR. apply Rabs_le. split; lra.
  Qed.

  (** ** There and back *)
  Lemma sv_back t l : 100 <= t <= 1000 -> close (1 + 13 / 10 ^ 14) l (sv_rad_R t) -> Rabs (sv_temp_R l - t) <= 14 / 10 ^ 14 * t.
  Proof.
    intros T C. pose proof (sv_photon t T) as P. unfold sv_rad_R in C. set (x := rc1 * nu / (ra * t + rb)) in *.
    assert (H1 : 995 / 10 <= ra * t) by nra.
    pose proof (close_pos (1 + 13 / 10 ^ 14) _ _ ltac:(lra) C) as PL. destruct rc_pos as [R1 R2].
    assert (PN : 0 < rc2 * nu ^ 3) by (apply Rmult_lt_0_compat; [auto|apply pow_lt; lra]).
    pose proof (exp_ineq1_le x) as EX.
    assert (CI : close (1 + 13 / 10 ^ 14) (rc2 * nu ^ 3 / l) (exp x - 1)).
    { pose proof (close_div 1 (1 + 13 / 10 ^ 14) _ _ _ _ ltac:(lra) ltac:(lra) (close_refl 1 (rc2 * nu ^ 3) ltac:(lra) PN) C) as K. rewrite Rmult_1_l in K.
      replace (exp x - 1) with (rc2 * nu ^ 3 / (rc2 * nu ^ 3 / (exp x - 1))); [exact K|]. field. repeat split; lra. }
    pose proof (lnp1_close (13 / 10 ^ 14) x _ ltac:(lra) ltac:(lra) CI) as CL.
    unfold sv_temp_R. set (y := ln (rc2 * nu ^ 3 / l + 1)) in *.
    pose proof (close_pos (1 + 13 / 10 ^ 14) _ _ ltac:(lra) CL) as PY.
    pose proof (close_div 1 (1 + 13 / 10 ^ 14) _ _ _ _ ltac:(lra) ltac:(lra) (close_refl 1 (rc1 * nu / ra) ltac:(lra) ltac:(apply Rdiv_lt_0_compat; [apply Rmult_lt_0_compat; lra|lra])) CL) as K.
    rewrite Rmult_1_l in K. apply close_abs in K; [|lra].
    replace (rc1 * nu / (ra * y)) with (rc1 * nu / ra / y) by (field; lra).
    assert (EZ : rc1 * nu / ra / x = t + rb / ra). { unfold x. field. repeat split; lra. }
    rewrite EZ in K. set (Z := rb / ra) in *.
    assert (HZ : 0 < Z <= 35 / 10). { unfold Z. split; [apply Rdiv_lt_0_compat; lra|apply (Rle_div_l rb (35 / 10) ra); lra]. }
    apply Rabs_le_inv in K. apply Rabs_le. split; lra.
  Qed.
  Lemma sv_round_trip t : accurate_exp (1 / 10 ^ 15) (m_exp lib) -> accurate_log (1 / 10 ^ 15) (m_log lib) -> double_between 100 1000 t ->
    within (2 / 10 ^ 13) (sv_temp (sv_rad t)) (to_R t).
  Proof.
    intros AC AL T. destruct (sv_rad_near t AC T) as (M & _ & C). destruct T as [_ T].
    pose proof (sv_back (to_R t) _ T C) as B. apply Rabs_le_inv in B.
    destruct (sv_temp_within (sv_rad t) AL) as [D E]; [eapply mag_weaken; [exact M|lia|lia]|lra|].
    split; [exact D|]. apply Rabs_le_inv in E. apply Rabs_le. split; lra.
  Qed.
  End Channel.
End Lib.

(** ** Statements of T_SevDoubles *)
Lemma ctor64 lib p s wsp tbr (c : seviri) : @SeviriRadTbConverter (B64N lib) p (BStr s) wsp tbr = Ok c ->
  c = {| sv_platform := p; sv_bandname := translate_band "seviri" s |}.
Proof.
  unfold SeviriRadTbConverter. destruct (check_wavespace wsp); [|discriminate]. cbn [bind]. destruct (neqb _ _ _); [discriminate|]. cbn [bind]. now intros [= <-].
Qed.
Lemma Forall2_map_same {A B C} (P : B -> C -> Prop) (f : A -> B) (g : A -> C) l : Forall (fun x => P (f x) (g x)) l -> Forall2 P (map f l) (map g l).
Proof. induction 1; cbn; auto. Qed.
Lemma sv_exact_rad nu ra rb t : 0 < nu -> 0 < ra * t + rb -> B_nu nu (ra * t + rb) = sv_rad_R nu ra rb t.
Proof. intros V T. rewrite B_nu_raw by auto. reflexivity. Qed.
Lemma sv_exact_temp nu ra rb l : 0 < nu -> 0 < ra -> 0 < l -> (T_nu nu l - rb) / ra = sv_temp_R nu ra rb l.
Proof.
  intros V A L. rewrite T_nu_raw by auto. unfold sv_temp_R. change c1 with rc1. change c2 with rc2.
  assert (0 < ln (rc2 * nu ^ 3 / l + 1)). { rewrite <- ln_1. apply ln_increasing; [lra|]. pose proof (T_nu_arg nu l V L) as K. change c2 with rc2 in K. lra. }
  field. lra.
Qed.
Lemma published_coeffs p s vc a b : seviri_published p s vc a b -> seviri_supported p s /\
  @seviri_coeffs XRN {| sv_platform := p; sv_bandname := translate_band "seviri" s |} = Ok (Fin (100 * vc), Fin a, Fin b).
Proof.
  intros (n1 & n2 & m8 & m9 & I & S & P). unfold seviri_channels in I. simpl in I.
  repeat (destruct I as [I|I]); try contradiction; injection I as <- <- <- <-;
  destruct S as [-> | ->]; destruct P as [[-> P]|[-> P]]; injection P as <- <- <-;
  (split; [split; simpl; tauto|]; unfold seviri_coeffs; cbn [sv_platform sv_bandname];
   match goal with |- context [translate_band ?x ?y] => let r := eval vm_compute in (translate_band x y) in change (translate_band x y) with r end;
   cbn [SEVIRI dget String.eqb Ascii.eqb Bool.eqb of_option bind]; unfold row, idx; cbn [nth_error of_option bind];
   unfold nZ; rewrite !nlit_fin; cbn [nmul XRN xmul];
   match goal with |- Ok (Fin ?x, _, _) = Ok (Fin ?y, _, _) => replace x with y by lra end; reflexivity).
Qed.
Lemma supported_published p s : seviri_supported p s -> exists vc a b, seviri_published p s vc a b.
Proof.
  intros [P S]. assert (Q : Exists (fun c => s = fst (fst (fst c)) \/ s = snd (fst (fst c))) seviri_channels).
  { destruct S as [S|S]; simpl in S; repeat (destruct S as [S|S]); try contradiction; subst s;
    unfold seviri_channels; repeat first [apply Exists_cons_hd; cbn [fst snd]; first [left; reflexivity|right; reflexivity]|apply Exists_cons_tl]. }
  apply Exists_exists in Q as ([[[n1 n2] m8] m9] & I & Q). cbn [fst snd] in Q. simpl in P. destruct P as [<-|[<-|[]]].
  - destruct m8 as [[vc a] b]. exists vc, a, b, n1, n2, (vc, a, b), m9. auto.
  - destruct m9 as [[vc a] b]. exists vc, a, b, n1, n2, m8, (vc, a, b). auto.
Qed.
Lemma published_iff p s : seviri_supported p s <-> exists vc a b, seviri_published p s vc a b.
Proof. split; [apply supported_published|]. intros (vc & a & b & H). exact (proj1 (published_coeffs _ _ _ _ _ H)). Qed.
Lemma published_doubles lib p s vc0 ra rb : seviri_published p s vc0 ra rb -> exists vc a b,
  @seviri_coeffs (B64N lib) {| sv_platform := p; sv_bandname := translate_band "seviri" s |} = Ok (vc, a, b) /\
  near 16 18 v vc (100 * vc0) /\ near (-1) 0 v a ra /\ near (-5) 2 v b rb /\
  75179 <= 100 * vc0 <= 256884 /\ 995 / 1000 <= ra <= 1 /\ 56 / 1000 <= rb <= 3438 / 1000.
Proof.
  intros H. destruct (published_coeffs _ _ _ _ _ H) as [S E].
  destruct (sv_doubles_supported lib p s S) as (vc & a & b & nu & ra' & rb' & C & CX & K). rewrite E in CX. injection CX as <- <- <-.
  exists vc, a, b. split; [exact C|exact K].
Qed.
Lemma seviri_exact : forall p s wsp tbr c vc a b, @SeviriRadTbConverter XRN p (BStr s) wsp tbr = Ok c -> seviri_published p s vc a b ->
  (forall ts, Forall (fun t => 0 <= t) ts -> @seviri_tb2radiance XRN c (map Fin ts) false true = Ok (map (fun t => Fin (B_nu (100 * vc) (a * t + b))) ts)) /\
  (forall Ls, Forall (fun l => 0 < l) Ls -> @seviri_radiance2tb XRN c (map Fin Ls) = Ok (map (fun l => Fin ((T_nu (100 * vc) l - b) / a)) Ls)).
Proof.
  intros p s wsp tbr c vc a b E H. apply seviri_ctor in E. subst c. destruct (published_coeffs _ _ _ _ _ H) as [S E].
  destruct (supported_coeffs p s S) as (v' & a' & b' & E' & PV & PA & PB). rewrite E in E'. injection E' as <- <- <-.
  split; intros l F; unfold seviri_tb2radiance, seviri_radiance2tb; cbn [negb]; rewrite E; cbn [bind]; f_equal; rewrite map_map; apply map_ext_in;
  intros x Hx; rewrite Forall_forall in F; specialize (F x Hx).
  - apply seviri_rad1; [lra|nra].
  - apply seviri_tb1; lra.
Qed.
Lemma seviri_radiance_accurate : forall lib p s wsp tbr c vc a b ts, accurate_exp (1 / 10 ^ 15) (m_exp lib) ->
  @SeviriRadTbConverter (B64N lib) p (BStr s) wsp tbr = Ok c -> seviri_published p s vc a b -> Forall (double_between 100 1000) ts -> exists Ls,
  @seviri_tb2radiance (B64N lib) c ts false true = Ok Ls /\ Forall2 (fun L t => within (2 / 10 ^ 13) L (B_nu (100 * vc) (a * to_R t + b))) Ls ts.
Proof.
  intros lib p s wsp tbr c vc0 ra rb ts AC E S F. apply ctor64 in E. subst c.
  destruct (published_doubles lib _ _ _ _ _ S) as (vc & a & b & C & HV & HA & HB & BV & BA & BB).
  exists (map (sv_rad lib vc a b) ts). unfold seviri_tb2radiance. cbn [negb]. rewrite C. cbn [bind]. split; [reflexivity|].
  clear -AC F HV HA HB BV BA BB. induction F as [|t ts T F IH]; constructor; auto.
  pose proof (sv_rad_near lib vc a b _ ra rb HV HA HB BV BA BB t AC T) as NR. destruct T as [_ T].
  rewrite sv_exact_rad by nra. eapply within_near; [exact NR|lra|lra].
Qed.
Lemma mag_100 l : double_between (1 / 10 ^ 100) (10 ^ 100) l -> mag (-400) 400 l.
Proof.
  intros L. eapply double_mag; [exact L| |].
  - change (-400)%Z with (- (400))%Z. rewrite bpow_opp. unfold Rdiv. rewrite Rmult_1_l. apply Rinv_le_contravar; [apply pow_lt; lra|]. rewrite <- IZR_Zpower by lia. rewrite pow_IZR. apply IZR_le. vm_compute. discriminate.
  - rewrite <- IZR_Zpower by lia. rewrite pow_IZR. apply IZR_le. vm_compute. discriminate.
Qed.
Lemma seviri_temperature_accurate : forall lib p s wsp tbr c vc a b Ls, accurate_log (1 / 10 ^ 15) (m_log lib) ->
  @SeviriRadTbConverter (B64N lib) p (BStr s) wsp tbr = Ok c -> seviri_published p s vc a b -> Forall (double_between (1 / 10 ^ 100) (10 ^ 100)) Ls -> exists ts,
  @seviri_radiance2tb (B64N lib) c Ls = Ok ts /\
  Forall2 (fun t L => let e := (T_nu (100 * vc) (to_R L) - b) / a in 100 <= e <= 1000 -> within (5 / 10 ^ 14) t e) ts Ls.
Proof.
  intros lib p s wsp tbr c vc0 ra rb Ls AL E S F. apply ctor64 in E. subst c.
  destruct (published_doubles lib _ _ _ _ _ S) as (vc & a & b & C & HV & HA & HB & BV & BA & BB).
  exists (map (sv_temp lib vc a b) Ls). unfold seviri_radiance2tb. rewrite C. cbn [bind]. split; [reflexivity|].
  clear -AL F HV HA HB BV BA BB. induction F as [|l Ls L F IH]; constructor; auto.
  apply mag_100 in L. pose proof (mag_pos _ _ _ L) as PL. cbv beta zeta. intros R. rewrite sv_exact_temp in * by lra.
  eapply sv_temp_within; eauto. lra.
Qed.
Lemma seviri_round_trip_accurate : forall lib p s wsp tbr c ts, accurate_exp (1 / 10 ^ 15) (m_exp lib) -> accurate_log (1 / 10 ^ 15) (m_log lib) ->
  @SeviriRadTbConverter (B64N lib) p (BStr s) wsp tbr = Ok c -> seviri_supported p s -> Forall (double_between 100 1000) ts -> exists Ls ts',
  @seviri_tb2radiance (B64N lib) c ts false true = Ok Ls /\ @seviri_radiance2tb (B64N lib) c Ls = Ok ts' /\
  Forall2 (fun t' t => within (2 / 10 ^ 13) t' (to_R t)) ts' ts.
Proof.
  intros lib p s wsp tbr c ts AC AL E S F. apply ctor64 in E. subst c.
  destruct (sv_doubles_supported lib p s S) as (vc & a & b & nu & ra & rb & C & CX & HV & HA & HB & BV & BA & BB).
  exists (map (sv_rad lib vc a b) ts), (map (fun t => sv_temp lib vc a b (sv_rad lib vc a b t)) ts).
  unfold seviri_tb2radiance, seviri_radiance2tb. cbn [negb]. rewrite C. cbn [bind]. split; [reflexivity|]. split.
  - f_equal. rewrite map_map. reflexivity.
  - clear -AC AL F HV HA HB BV BA BB. induction F as [|t ts T F IH]; constructor; auto. eapply sv_round_trip; eauto.
Qed.
(** 300 K in the 10.8 um channel of Meteosat-9, both ways *)
Lemma case_seviri : forall lib, exists c, @SeviriRadTbConverter (B64N lib) "Meteosat-9" (BStr "IR_108"%string) "wavelength" (nlit (B64N lib) 1 10) = Ok c /\
  seviri_published "Meteosat-9" "IR_108" (931700 / 1000) (9983 / 10000) (640 / 1000) /\
  Forall (double_between 100 1000) [b64_ratio 300 1; b64_ratio 2032 10].
Proof.
  intros lib. eexists. split; [reflexivity|]. split.
  - unfold seviri_published, seviri_channels. do 4 eexists. split; [do 5 right; left; reflexivity|auto].
  - repeat (apply Forall_cons; [split; [split; vm_compute; reflexivity|]|]); try apply Forall_nil;
    match goal with |- context [to_R ?x] => let y := eval vm_compute in x in change x with y end; const_R; lra.
Qed.
(** a radiance in the range asked for: that of 300 K *)
Lemma case_seviri_radiance : forall lib, accurate_exp (1 / 10 ^ 15) (m_exp lib) -> exists c l,
  @SeviriRadTbConverter (B64N lib) "Meteosat-9" (BStr "IR_108"%string) "wavelength" (nlit (B64N lib) 1 10) = Ok c /\
  double_between (1 / 10 ^ 100) (10 ^ 100) l /\ Rabs ((T_nu 93170 (to_R l) - 640 / 1000) / (9983 / 10000) - 300) <= 1 / 10 ^ 10.
Proof.
  intros lib AC. destruct (case_seviri lib) as (c & E & S & F). exists c.
  destruct (published_doubles lib _ _ _ _ _ S) as (vc & a & b & C & HV & HA & HB & BV & BA & BB).
  pose proof (Forall_inv F) as T. assert (T3 : to_R (b64_ratio 300 1) = 300).
  { match goal with |- context [to_R ?x] => let y := eval vm_compute in x in change x with y end. const_R. lra. }
  pose proof (sv_rad_near lib vc a b _ _ _ HV HA HB BV BA BB _ AC T) as NL. set (l := sv_rad lib vc a b (b64_ratio 300 1)) in *.
  destruct NL as (M & _ & CL). pose proof (mag_pos _ _ _ M) as PL. rewrite T3 in CL.
  exists l. split; [exact E|]. split.
  - destruct M as ([V _] & FM & M1 & M2). split; [now split|]. split.
    + eapply Rle_trans; [|exact M1]. change (-211)%Z with (- (211))%Z. rewrite bpow_opp. unfold Rdiv. rewrite Rmult_1_l. apply Rinv_le_contravar; [apply bpow_gt_0|]. rewrite <- IZR_Zpower by lia. rewrite pow_IZR. apply IZR_le. vm_compute. discriminate.
    + eapply Rle_trans; [exact M2|]. rewrite <- IZR_Zpower by lia. rewrite pow_IZR. apply IZR_le. vm_compute. discriminate.
  - pose proof (sv_back _ _ _ BV BA BB 300 (to_R l) ltac:(lra) CL) as K. replace (100 * (931700 / 1000)) with 93170 in K by lra.
    rewrite sv_exact_temp by lra. lra.
Qed.
