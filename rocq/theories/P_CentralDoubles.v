(** The central wavelength in doubles: C117. *)
From Coq Require Import Reals Lra ZArith String List Bool Lia SpecFloat Sorting.Sorted.
From Flocq Require Import Core BinarySingleNaN.
From Verif Require Import Base NumSig XR B64 M_Tables M_Utils S_B64 S_Planck S_RadTb S_SolarDoubles S_Effective P_Effective P_B64 P_B64ops P_B642 P_B64mono P_B64planck P_B64band P_B64err P_B64err2 P_B64err3
     P_Central P_SolarDoubles P_SolarDoubles2.
Import ListNotations.
Local Open Scope list_scope.
Local Open Scope R_scope.

Lemma vpow_mono i j : (i <= j)%nat -> v ^ i <= v ^ j.
Proof. intros H. apply Rle_pow; [exact v_ge|exact H]. Qed.

(** ** Products of lists *)
Lemma vmul_near lib a b c d p q xs : (-1022 <= a + c)%Z -> (-1022 <= b + d < 1024)%Z -> forall ys rs ss,
  Forall2 (near0 a b p) xs rs -> Forall2 (near0 c d q) ys ss ->
  Forall2 (near0 (a + c) (b + d) (p * q * v)) (map (fun p => nmul (B64N lib) (fst p) (snd p)) (combine (xs : list (B64N lib)) ys)) (Rvmul rs ss).
Proof.
  intros A B. unfold Rvmul. induction xs as [|x xs IH]; intros ys rs ss X Y; inversion X; subst; [constructor|]. inversion Y; subst; cbn [map combine fst snd]; constructor; auto.
  apply near0_mul; auto.
Qed.
Lemma scale_near lib a b c d p q k s xs : (-1022 <= a + c)%Z -> (-1022 <= b + d < 1024)%Z -> near0 c d q k s -> forall rs,
  Forall2 (near0 a b p) xs rs -> Forall2 (near0 (a + c) (b + d) (p * q * v)) (map (fun x => nmul (B64N lib) x k) (xs : list (B64N lib))) (map (fun r => r * s) rs).
Proof.
  intros A B K. induction xs as [|x xs IH]; intros rs X; inversion X; subst; [constructor|]. cbn [map]. constructor; auto. apply near0_mul; auto.
Qed.
Lemma near_list a b c d p q xs rs : Forall2 (near0 a b p) xs rs -> (c <= a)%Z -> (b <= d)%Z -> p <= q -> Forall2 (near0 c d q) xs rs.
Proof. induction 1; intros; constructor; auto. eapply near0_weaken; eauto. Qed.

Lemma quotient_within lib (ws : list b64) ps fs qs gs : Forall (mag (-40) 40) ws -> Sorted Rle (map to_R ws) -> (Z.of_nat (List.length ws) <= 10000)%Z ->
  Forall2 (near0 (-300) 300 (v ^ 8)) ps fs -> Forall2 (near0 (-300) 300 (v ^ 8)) qs gs -> 0 < Rtrapz gs (map to_R ws) ->
  within (5 / 10 ^ 12) (SFdiv 53 1024 (@trapz (B64N lib) ps ws) (@trapz (B64N lib) qs ws)) (Rtrapz fs (map to_R ws) / Rtrapz gs (map to_R ws)).
Proof.
  intros M S C P Q G. set (n := List.length ws) in *. pose proof (vpow_ge 8) as V8.
  assert (EV : v ^ 8 * v ^ (4 + n) = v ^ (12 + n)) by (rewrite <- pow_add; f_equal; lia).
  pose proof (vpow_le (12 + n) ltac:(lia)) as V1. pose proof (vpow_le (25 + (n + n)) ltac:(lia)) as V2.
  pose proof (integral_bound (-300) 300 (v ^ 8) lib ws ps fs ltac:(lia) ltac:(lia) V8 ltac:(fold n; rewrite EV; lra) M S P) as J. fold n in J.
  pose proof (integral_bound (-300) 300 (v ^ 8) lib ws qs gs ltac:(lia) ltac:(lia) V8 ltac:(fold n; rewrite EV; lra) M S Q) as K. fold n in K.
  destruct K as [(_ & _ & _ & K)|K]; [rewrite K in G; lra|].
  pose proof (near0_div _ _ _ _ _ _ _ _ _ _ J K ltac:(lia) ltac:(lia)) as D. rewrite EV in D.
  assert (EQ : v ^ (12 + n) * v ^ (12 + n) * v = v ^ (25 + (n + n))).
  { replace (25 + (n + n))%nat with (((12 + n) + (12 + n)) + 1)%nat by lia. generalize (12 + n)%nat. intros k. rewrite (pow_add v (k + k) 1), (pow_add v k k), pow_1. reflexivity. }
  rewrite EQ in D. eapply sumnear_within; [eapply near0_sum; exact D| |]; [lra|apply vpow_ge].
Qed.

Lemma waves_near ws : Forall (mag (-40) 40) ws -> Forall2 (near0 (-40) 40 1) ws (map to_R ws).
Proof. induction 1; cbn [map]; constructor; auto. right. now apply near_exact. Qed.

(** ** The calls *)
Lemma central_ok {N : Num} (ws rs vs : list N) : List.length rs = List.length ws -> List.length vs = List.length ws ->
  get_central_wave ws rs (WArray vs) =
  Ok (ndiv N (trapz (map (fun p => nmul N (fst p) (snd p)) (combine (map (fun p => nmul N (fst p) (snd p)) (combine rs ws)) vs)) ws)
             (trapz (map (fun p => nmul N (fst p) (snd p)) (combine rs vs)) ws)).
Proof.
  intros LR LV. assert (K : forall f (l m : list N), List.length m = List.length l -> List.length (map f (combine m l) : list N) = List.length l).
  { intros f l m H. rewrite map_length, combine_length, H. apply Nat.min_id. }
  unfold get_central_wave, wmul, vmul, trapezoid.
  rewrite (proj2 (Nat.eqb_eq _ _) LR). cbn [bind]. rewrite (K _ ws rs) by auto. rewrite LV, Nat.eqb_refl. cbn [bind].
  rewrite (K _ vs) by (rewrite K; auto). rewrite LV, Nat.eqb_refl. cbn [bind]. rewrite LR, Nat.eqb_refl. cbn [bind]. rewrite K by congruence.
  rewrite LV, Nat.eqb_refl. reflexivity.
Qed.
Lemma scalar_array {N : Num} (ws rs : list N) x : List.length rs = List.length ws ->
  get_central_wave ws rs (WScalar x) = get_central_wave ws rs (WArray (repeat x (List.length ws))).
Proof.
  intros L. assert (K : forall l : list N, List.length l = List.length ws -> wmul l (WArray (repeat x (List.length ws))) = wmul l (WScalar x)).
  { intros l H. cbn [wmul]. unfold vmul. rewrite repeat_length, H, Nat.eqb_refl. f_equal. rewrite <- H. clear. induction l as [|a l IH]; cbn; [reflexivity|]. now f_equal. }
  unfold get_central_wave. unfold vmul at 1 2. rewrite L, Nat.eqb_refl. cbn [bind].
  rewrite !K; [reflexivity|auto|]. rewrite map_length, combine_length, L. apply Nat.min_id.
Qed.

(** ** The weights *)
Lemma weighted64 lib (ws rs vs : list b64) us : List.length rs = List.length ws -> List.length vs = List.length ws -> (Z.of_nat (List.length ws) <= 10000)%Z ->
  Forall (double_between (1 / 10 ^ 12) (10 ^ 12)) ws -> Sorted Rle (map to_R ws) -> Forall irradiance_like rs -> Forall2 (near0 (-200) 200 (v ^ 5)) vs us ->
  0 < Rtrapz (Rvmul (map to_R rs) us) (map to_R ws) ->
  exists c, get_central_wave (N := B64N lib) ws rs (WArray (vs : list (B64N lib))) = Ok c /\
    within (5 / 10 ^ 12) c (Rtrapz (Rvmul (Rvmul (map to_R rs) us) (map to_R ws)) (map to_R ws) / Rtrapz (Rvmul (map to_R rs) us) (map to_R ws)).
Proof.
  intros LR LV C W S R U P. pose proof (axis_mag ws W) as M.
  pose proof (vmul_near lib (-40) 20 (-40) 40 1 1 rs ltac:(lia) ltac:(lia) ws _ _ (likes_near rs R) (waves_near ws M)) as A.
  pose proof (vmul_near lib (-40 + -40) (20 + 40) (-200) 200 (1 * 1 * v) (v ^ 5) _ ltac:(lia) ltac:(lia) vs _ _ A U) as B.
  pose proof (vmul_near lib (-40) 20 (-200) 200 1 (v ^ 5) rs ltac:(lia) ltac:(lia) vs _ _ (likes_near rs R) U) as D.
  pose proof v_ge as V. assert (B' : 1 * 1 * v * v ^ 5 * v <= v ^ 8) by (replace (1 * 1 * v * v ^ 5 * v) with (v ^ 7) by ring; apply vpow_mono; lia).
  assert (D' : 1 * v ^ 5 * v <= v ^ 8) by (replace (1 * v ^ 5 * v) with (v ^ 6) by ring; apply vpow_mono; lia).
  apply (near_list _ _ (-300) 300 _ (v ^ 8)) in B; [|lia|lia|exact B'].
  apply (near_list _ _ (-300) 300 _ (v ^ 8)) in D; [|lia|lia|exact D'].
  rewrite Rvmul_assoc, (Rvmul_comm (map to_R ws) us), <- Rvmul_assoc in B.
  eexists. split; [|exact (quotient_within lib ws _ _ _ _ M S C B D P)].
  exact (central_ok (N := B64N lib) ws rs vs LR LV).
Qed.

Lemma one_near : near 0 0 1 (b64_ratio 1 1) 1.
Proof. apply (near_eq _ _ _ _ (to_R (b64_ratio 1 1))); [apply near_exact, one_mag|apply one_R]. Qed.
Lemma ones_near n : Forall2 (near0 (-200) 200 (v ^ 5)) (repeat (b64_ratio 1 1) n) (repeat 1 n).
Proof. induction n; cbn [repeat]; constructor; auto. eapply near0_weaken; [right; exact one_near|lia|lia|apply vpow_ge]. Qed.
Lemma Rvmul_ones rs n : List.length rs = n -> Rvmul rs (repeat 1 n) = rs.
Proof. intros <-. unfold Rvmul. induction rs as [|r rs IH]; cbn; [reflexivity|]. rewrite Rmult_1_r. now f_equal. Qed.

Lemma mean64 lib (ws rs : list b64) : curve_ok (map to_R ws) (map to_R rs) -> (Z.of_nat (List.length ws) <= 10000)%Z ->
  Forall (double_between (1 / 10 ^ 12) (10 ^ 12)) ws -> Forall irradiance_like rs ->
  exists c, get_central_wave (N := B64N lib) ws rs (WScalar (@n1 (B64N lib))) = Ok c /\ within (5 / 10 ^ 12) c (mean_wavelength (map to_R ws) (map to_R rs)).
Proof.
  intros H C W R. pose proof H as (L & L2 & Hs & Hw & Hr & He). pose proof (p0_pos _ _ H) as P0.
  assert (LR : List.length rs = List.length ws) by (now rewrite !map_length in L).
  assert (E0 : Rtrapz (map to_R rs) (map to_R ws) = curve_integral (fun _ r => r) (map to_R ws) (map to_R rs)).
  { rewrite ci_trapz by auto. f_equal. clear - L. revert L. generalize (map to_R ws) (map to_R rs). intros a. induction a as [|w a IH]; intros [|r b] L; try discriminate; [reflexivity|].
    cbn. f_equal. apply IH. now injection L. }
  assert (E1 : Rtrapz (Rvmul (map to_R rs) (map to_R ws)) (map to_R ws) = curve_integral (fun w r => r * w) (map to_R ws) (map to_R rs)).
  { transitivity (Rtrapz (Rvmul (map to_R rs) (map (fun w => w) (map to_R ws))) (map to_R ws)); [now rewrite map_id|]. apply (ci_vmul2 _ _ (fun w => w)); auto. }
  destruct (weighted64 lib ws rs (repeat (b64_ratio 1 1) (List.length ws)) (repeat 1 (List.length ws))) as (c & Hc & B); auto.
  - apply repeat_length.
  - now apply Sorted_lt_le.
  - apply ones_near.
  - rewrite Rvmul_ones by (now rewrite map_length). now rewrite E0.
  - exists c. rewrite Rvmul_ones, E0, E1 in B by (now rewrite map_length). split; [|exact B].
    etransitivity; [exact (scalar_array (N := B64N lib) ws rs (@n1 (B64N lib)) LR)|exact Hc].
Qed.

Lemma fourth_near lib w : mag (-40) 40 w -> near (-160) 160 (v ^ 4) (ndiv (B64N lib) (nlit (B64N lib) 1 1) (@npow (B64N lib) w 4)) (1 / to_R w ^ 4).
Proof.
  intros M. pose proof (near_exact _ _ _ M) as A.
  pose proof (near_mul _ _ _ _ _ _ _ _ _ _ A A ltac:(lia) ltac:(lia)) as B.
  pose proof (near_mul _ _ _ _ _ _ _ _ _ _ B A ltac:(lia) ltac:(lia)) as C.
  pose proof (near_mul _ _ _ _ _ _ _ _ _ _ C A ltac:(lia) ltac:(lia)) as D.
  pose proof (near_div _ _ _ _ _ _ _ _ _ _ one_near D ltac:(lia) ltac:(lia)) as E.
  replace (to_R w ^ 4) with (to_R w * to_R w * to_R w * to_R w) by ring. replace (v ^ 4) with (1 * (1 * 1 * v * 1 * v * 1 * v) * v) by ring. exact E.
Qed.
Lemma fourths_near lib ws : Forall (mag (-40) 40) ws ->
  Forall2 (near0 (-200) 200 (v ^ 5)) (map (fun w => ndiv (B64N lib) (nlit (B64N lib) 1 1) (@npow (B64N lib) w 4)) ws) (map (fun w => 1 / w ^ 4) (map to_R ws)).
Proof. induction 1; cbn [map]; constructor; auto. eapply near0_weaken; [right; now apply fourth_near|lia|lia|apply vpow_mono; lia]. Qed.

Lemma rayleigh64 lib (ws rs : list b64) : curve_ok (map to_R ws) (map to_R rs) -> (Z.of_nat (List.length ws) <= 10000)%Z ->
  Forall (double_between (1 / 10 ^ 12) (10 ^ 12)) ws -> Forall irradiance_like rs ->
  exists c, get_central_wave (N := B64N lib) ws rs (WArray (map (fun w => ndiv (B64N lib) (nlit (B64N lib) 1 1) (@npow (B64N lib) w 4)) ws)) = Ok c /\
    within (5 / 10 ^ 12) c (rayleigh_wavelength (map to_R ws) (map to_R rs)).
Proof.
  intros H C W R. pose proof H as (L & L2 & Hs & Hw & Hr & He). pose proof (p4_pos _ _ H) as P4.
  assert (LR : List.length rs = List.length ws) by (now rewrite !map_length in L).
  assert (E4 : Rtrapz (Rvmul (map to_R rs) (map (fun w => 1 / w ^ 4) (map to_R ws))) (map to_R ws) = curve_integral (fun w r => r / w ^ 4) (map to_R ws) (map to_R rs)).
  { rewrite ci_vmul2 by auto. apply ci_ext; auto. intros. unfold Rdiv. lra. }
  assert (E3 : Rtrapz (Rvmul (Rvmul (map to_R rs) (map (fun w => 1 / w ^ 4) (map to_R ws))) (map to_R ws)) (map to_R ws) = curve_integral (fun w r => r / w ^ 3) (map to_R ws) (map to_R rs)).
  { rewrite Rvmul_assoc. transitivity (Rtrapz (Rvmul (map to_R rs) (map (fun w => 1 / w ^ 4 * w) (map to_R ws))) (map to_R ws)).
    - do 2 f_equal. generalize (map to_R ws). clear. intros l. unfold Rvmul. induction l as [|w l IH]; [reflexivity|]. cbn. now f_equal.
    - rewrite (ci_vmul2 _ _ (fun w => 1 / w ^ 4 * w)) by auto. apply ci_ext; auto. intros. rewrite inv3 by auto. lra. }
  destruct (weighted64 lib ws rs _ _ LR ltac:(apply map_length) C W (Sorted_lt_le _ Hs) R (fourths_near lib ws (axis_mag ws W))) as (c & Hc & B).
  - now rewrite E4.
  - exists c. rewrite E3, E4 in B. split; [exact Hc|exact B].
Qed.

Lemma central_order64 lib (ws rs : list b64) m r : curve_ok (map to_R ws) (map to_R rs) -> (Z.of_nat (List.length ws) <= 10000)%Z ->
  Forall (double_between (1 / 10 ^ 12) (10 ^ 12)) ws -> Forall irradiance_like rs ->
  get_central_wave (N := B64N lib) ws rs (WScalar (@n1 (B64N lib))) = Ok m ->
  get_central_wave (N := B64N lib) ws rs (WArray (map (fun w => ndiv (B64N lib) (nlit (B64N lib) 1 1) (@npow (B64N lib) w 4)) ws)) = Ok r ->
  hd 0 (map to_R ws) * (1 - 5 / 10 ^ 12) <= to_R r /\ to_R r <= to_R m * (1 + 2 / 10 ^ 11) /\ to_R m <= last (map to_R ws) 0 * (1 + 5 / 10 ^ 12).
Proof.
  intros H C W R Em Er. destruct (mean64 lib ws rs H C W R) as (m' & Em' & M). destruct (rayleigh64 lib ws rs H C W R) as (r' & Er' & Q).
  change (num (B64N lib)) with b64 in *. assert (m' = m) as -> by congruence. assert (r' = r) as -> by congruence.
  destruct (rayleigh_in_band _ _ H) as [B1 B2]. pose proof (rayleigh_le_mean _ _ H) as B3.
  assert (P : 0 < hd 0 (map to_R ws)).
  { destruct H as (_ & L2 & _ & Hw & _). destruct Hw; [cbn in L2; lia|cbn; lra]. }
  destruct M as [_ M]. destruct Q as [_ Q].
  apply Rabs_le_inv in M. apply Rabs_le_inv in Q. repeat split; lra.
Qed.
