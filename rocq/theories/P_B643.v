(** C13: wrapping of 16-bit integers in the table look-up. *)
From Coq Require Import ZArith Reals Lra Lia List Bool String.
From Flocq Require Import Core.
From Verif Require Import Base NumSig XR M_Tables M_Rsr M_Utils M_RadTb S_Planck S_RadTb S_B64 P_Trapz P_Blackbody P_Blackbody2 P_RadTb P_RadTb2 P_RadTb3 Samples.
Import ListNotations.
Local Open Scope R_scope.

Lemma Ztrunc_Int_part r : 0 <= r -> Ztrunc r = Int_part r.
Proof.
  intros H. rewrite Ztrunc_floor by auto. apply Zfloor_imp. pose proof (Rfloor_bounds r). rewrite plus_IZR. simpl. lra.
Qed.
Lemma wrap16_wrap16 z k : wrap16 (wrap16 z - k) = wrap16 (z - k).
Proof.
  unfold wrap16. f_equal. replace ((z + 32768) mod 65536 - 32768 - k + 32768)%Z with ((z + 32768) mod 65536 - k)%Z by lia.
  rewrite Zminus_mod_idemp_l. f_equal. lia.
Qed.
Lemma index_wrap t : 0 <= t ->
  @lut_index XRN low_bits (Fin 10) 1500 2099 (Fin t) = clipZ (wrap16 (Int_part (10 * t) - 1500)) 0 2099.
Proof.
  intros Ht. unfold lut_index, cast_int16. cbn [nmul XRN xmul ntrunc xtrunc].
  replace (t * 10) with (10 * t) by ring. pose proof (Rfloor_bounds (10 * t)) as Hb.
  rewrite (Rtrunc_nonneg _ (Int_part (10 * t))) by lra. set (z := Int_part (10 * t)) in *.
  destruct (in_int16 z) eqn:E; [reflexivity|]. cbn [low_bits]. rewrite Ztrunc_Int_part by lra. fold z.
  change ((z + 32768) mod 65536 - 32768)%Z with (wrap16 z). now rewrite wrap16_wrap16.
Qed.
Lemma index_wrap_low t : 360 <= t < 34268 / 10 -> @lut_index XRN low_bits (Fin 10) 1500 2099 (Fin t) = 2099%Z.
Proof.
  intros Ht. rewrite index_wrap by lra. pose proof (Rfloor_bounds (10 * t)) as Hb. set (z := Int_part (10 * t)) in *.
  assert (3600 <= z < 34268)%Z.
  { split; [|apply lt_IZR; lra]. assert (3599 < z)%Z; [apply lt_IZR; lra|lia]. }
  unfold wrap16, clipZ. rewrite Z.mod_small; lia.
Qed.
Lemma index_wrap_high t : 34268 / 10 <= t < 67036 / 10 -> @lut_index XRN low_bits (Fin 10) 1500 2099 (Fin t) = 0%Z.
Proof.
  intros Ht. rewrite index_wrap by lra. pose proof (Rfloor_bounds (10 * t)) as Hb. set (z := Int_part (10 * t)) in *.
  assert (34268 <= z < 67036)%Z.
  { split; [|apply lt_IZR; lra]. assert (34267 < z)%Z; [apply lt_IZR; lra|lia]. }
  unfold wrap16, clipZ. rewrite <- (Z_mod_plus_full _ (-1)), Z.mod_small; lia.
Qed.

Lemma lookup_index oob (c : converter XRN) load p i b det wsp norm norm' lut t :
  RadTbConverter load p i b det wsp (Fin (1/10)) = Ok c -> make_tb2rad_lut c norm = Ok lut ->
  exists r, tb2radiance oob c [Fin t] (Some lut) norm' = Ok [r] /\
     nth_error (lut_radiance lut) (Z.to_nat (@lut_index XRN oob (Fin 10) 1500 2099 (Fin t))) = Some r.
Proof.
  intros Hc Hl. pose proof (scale_default _ _ _ _ _ _ _ Hc) as Hs.
  apply constructor_integral in Hc as (_ & _ & Hr & _). destruct (default_lut _ _ _ Hr Hl) as (HL & Htb & _).
  unfold tb2radiance. rewrite Hs. unfold lut_lookup. rewrite (lut_start_default _ (map Fin (map tb_row (seq 1 2099)))).
  2:{ rewrite Htb. change (seq 0 2100) with (0 :: seq 1 2099)%nat. cbn [map]. f_equal. unfold tb_row. simpl. f_equal. lra. }
  cbn [bind]. rewrite HL. change (Z.of_nat 2100 - 1)%Z with 2099%Z. change (2099 >? 32767)%Z with false. cbv iota. cbn [mapM].
  set (j := @lut_index XRN oob (Fin 10) 1500 2099 (Fin t)).
  assert (R : (0 <= j <= 2099)%Z). { unfold j, lut_index. apply clipZ_range. lia. }
  assert ((j <? 0)%Z = false) as -> by (apply Z.ltb_ge; lia).
  unfold idx. destruct (nth_error (lut_radiance lut) (Z.to_nat j)) eqn:E; [cbn; eauto|]. apply nth_error_None in E. lia.
Qed.

Lemma wraparound : forall load platform instrument band det wavespace (c : converter XRN) norm norm' lut t,
  RadTbConverter load platform instrument band det wavespace (Fin (1/10)) = Ok c -> make_tb2rad_lut c norm = Ok lut ->
  exists r, tb2radiance low_bits c [Fin t] (Some lut) norm' = Ok [r] /\
    (360 <= t < 34268 / 10 -> nth_error (lut_radiance lut) 2099 = Some r) /\
    (34268 / 10 <= t < 67036 / 10 -> nth_error (lut_radiance lut) 0 = Some r).
Proof.
  intros load p i b det wsp c norm norm' lut t Hc Hl.
  destruct (lookup_index low_bits c _ _ _ _ _ _ norm norm' lut t Hc Hl) as (r & E1 & E2).
  exists r. split; [exact E1|]. split; intros H.
  - rewrite index_wrap_low in E2 by auto. exact E2.
  - rewrite index_wrap_high in E2 by auto. exact E2.
Qed.

Lemma not_monotone : exists c lut t t' r r',
  RadTbConverter sample_load "NOAA-19" "avhrr-3" (BStr "4"%string) "det-1" WAVE_LENGTH (Fin (1/10)) = Ok c /\
  make_tb2rad_lut c true = Ok lut /\ t < t' /\
  tb2radiance low_bits c [Fin t; Fin t'] (Some lut) true = Ok [Fin r; Fin r'] /\ r' < r.
Proof.
  destruct lut_case as (c & lut & Hc & Hl & _). exists c, lut, 300, 3500.
  destruct (lookup_row low_bits c _ _ _ _ _ _ true true lut 300 Hc Hl) as (r & A1 & _ & _ & A4); [lra|].
  destruct (lookup_row low_bits c _ _ _ _ _ _ true true lut 0 Hc Hl) as (r0 & _ & B2 & _ & B4); [lra|].
  destruct (wraparound _ _ _ _ _ _ c true true lut 3500 Hc Hl) as (r' & C1 & _ & C3).
  rewrite row_of_below in B2, B4 by lra.
  assert (r0 = r') by (enough (Some r0 = Some r') by congruence; rewrite <- C3 by lra; symmetry; exact B2). subst r0.
  destruct (sample_converter (1/10)) as (c' & Hc' & Hw & Hr); [lra|]. rewrite Hc in Hc'. injection Hc' as <-.
  destruct (row_of_in 300) as (Q1 & Q2); [lra|].
  assert (Q0 : tb_row 0 = 150) by (unfold tb_row; simpl; lra).
  destruct (band_incr _ _ _ _ _ _ _ c ws_sample rs_sample low_bits (tb_row 0) (tb_row (row_of 300)) true Hc Hw Hr good_sample) as (x & y & D1 & D2).
  { rewrite Q0. unfold T_cut. lra. }
  { rewrite Q0. lra. }
  assert (ND : tb2radiance low_bits c [Fin (tb_row 0)] None true = Ok [Fin x] /\ tb2radiance low_bits c [Fin (tb_row (row_of 300))] None true = Ok [Fin y]).
  { unfold tb2radiance in *. assert (W : cv_waves c <> []) by (rewrite Hw; discriminate).
    rewrite (planck_radiance_rows c [Fin (tb_row 0); Fin (tb_row (row_of 300))]) in D1 by (auto; discriminate).
    rewrite !planck_radiance_rows by (auto; discriminate). cbn [mapM] in *.
    destruct (radiance1 c true (Fin (tb_row 0))); [|discriminate]. destruct (radiance1 c true (Fin (tb_row (row_of 300)))); [|discriminate].
    cbn [bind] in *. injection D1 as -> ->. auto. }
  destruct ND as (N1 & N2). rewrite N1 in B4. rewrite N2 in A4. injection B4 as <-. injection A4 as <-.
  exists y, x. split; [exact Hc|]. split; [exact Hl|]. split; [lra|]. split; [|lra].
  apply lookup_pair; auto.
Qed.
