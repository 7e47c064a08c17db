(** C13: the look-up in binary64. *)
From Coq Require Import ZArith Reals Lra Lia List Bool String SpecFloat.
From Flocq Require Import Core BinarySingleNaN.
From Verif Require Import Base NumSig XR M_Tables M_Rsr M_Utils B64 M_RadTb S_RadTb S_B64 P_RadTb P_RadTb2 P_RadTb3 P_B64.
Import ListNotations.
Local Open Scope R_scope.

Lemma constructor_gen (N : Num) load p i b det wsp tbr (c : converter N) : RadTbConverter load p i b det wsp tbr = Ok c ->
  cv_tb_resolution c = tbr /\ cv_tb_scale c = ndiv N (nlit N 1 1) tbr.
Proof.
  unfold RadTbConverter. intros H.
  inv_bind H. inv_bind H. inv_bind H. inv_bind H. destruct a2 as [rsr [unit sc]]. inv_bind H. destruct a2 as [bn bw].
  inv_bind H. inv_bind H. inv_bind H. inv_bind H. inv_bind H. injection H as <-. auto.
Qed.

Definition delta64 : b64 := SFsub 53 1024 (SFadd 53 1024 (b64_ratio 150 1) (b64_ratio 1 10)) (b64_ratio 150 1).
Definition row64 (i : nat) : b64 := SFadd 53 1024 (b64_ratio 150 1) (SFmul 53 1024 (b64_ratio (Z.of_nat i) 1) delta64).
Definition scale64 : b64 := SFdiv 53 1024 (b64_ratio 1 1) (b64_ratio 1 10).

Lemma arange64 lib : @arange (B64N lib) TB_MIN TB_MAX (b64_ratio 1 10) = map row64 (seq 0 2100).
Proof.
  unfold arange. assert (E : @nceil (B64N lib) (ndiv (B64N lib) (nsub (B64N lib) (TB_MAX : B64N lib) (TB_MIN : B64N lib)) (b64_ratio 1 10)) = Some 2100%Z) by (vm_compute; reflexivity).
  rewrite E. change (Z.to_nat 2100) with 2100%nat. reflexivity.
Qed.

Lemma lut64 lib (c : converter (B64N lib)) norm lut : cv_tb_resolution c = b64_ratio 1 10 -> make_tb2rad_lut c norm = Ok lut ->
  List.length (lut_radiance lut) = 2100%nat /\ lut_tb lut = map row64 (seq 0 2100) /\
  forall i, (i < 2100)%nat -> exists r, nth_error (lut_radiance lut) i = Some r /\ planck_radiance c [row64 i : B64N lib] norm = Ok [r].
Proof.
  intros Hr H. unfold make_tb2rad_lut in H. rewrite Hr, arange64 in H. set (tbl := map row64 (seq 0 2100)) in *.
  destruct (@planck_radiance (B64N lib) c tbl norm) as [rad|] eqn:E; [|discriminate]. cbn [bind] in H. injection H as <-. cbn [lut_tb lut_radiance].
  split.
  - destruct (planck_radiance_ok_ne _ _ _ _ E) as [Hw Ht]. rewrite planck_radiance_rows in E by auto. apply mapM_length in E.
    rewrite E. unfold tbl. now rewrite map_length, seq_length.
  - split; [reflexivity|]. intros i Hi. apply (planck_radiance_nth _ _ _ _ _ _ E). unfold tbl. erewrite map_nth_error; [reflexivity|].
    rewrite seq_nth_some by auto. reflexivity.
Qed.

Lemma lookup64 lib oob (lut : tblut (B64N lib)) t : List.length (lut_radiance lut) = 2100%nat -> lut_tb lut = map row64 (seq 0 2100) ->
  exists r, @lut_lookup (B64N lib) oob scale64 lut [t] = Ok [r] /\
    nth_error (lut_radiance lut) (Z.to_nat (@lut_index (B64N lib) oob scale64 1500 2099 t)) = Some r.
Proof.
  intros HL HT. unfold lut_lookup.
  assert (S : @lut_start (B64N lib) lut scale64 = Ok 1500%Z).
  { unfold lut_start. rewrite HT. change (seq 0 2100) with (0%nat :: seq 1 2099). cbn [map hd_error of_option bind].
    assert (E : ntrunc (B64N lib) (nmul (B64N lib) (row64 0) scale64) = Some 1500%Z) by (vm_compute; reflexivity). rewrite E. reflexivity. }
  rewrite S. cbn [bind]. rewrite HL. change (Z.of_nat 2100 - 1)%Z with 2099%Z. change (2099 >? 32767)%Z with false. cbv iota.
  cbn [mapM]. set (i := @lut_index (B64N lib) oob scale64 1500 2099 t).
  assert (R : (0 <= i <= 2099)%Z). { unfold i, lut_index. apply clipZ_range. lia. }
  assert ((i <? 0)%Z = false) as -> by (apply Z.ltb_ge; lia).
  unfold idx. destruct (nth_error (lut_radiance lut) (Z.to_nat i)) eqn:E; [cbn; eauto|]. apply nth_error_None in E. lia.
Qed.

(** ** complete enumeration of the rows *)
Lemma index_multiples lib oob k : (k < 2100)%nat -> @lut_index (B64N lib) oob scale64 1500 2099 (b64_ratio (1500 + Z.of_nat k) 10) = Z.of_nat k.
Proof.
  assert (F : forallb (fun k => Z.eqb (@lut_index (B64N lib) oob scale64 1500 2099 (b64_ratio (1500 + Z.of_nat k) 10)) (Z.of_nat k)) (seq 0 2100) = true)
    by (vm_compute; reflexivity).
  intros Hk. rewrite forallb_forall in F. apply Z.eqb_eq, F, in_seq. lia.
Qed.
Lemma index_stored lib oob k : (k < 2100)%nat -> @lut_index (B64N lib) oob scale64 1500 2099 (row64 k) = Z.of_nat (if Nat.ltb k 3 then k else k - 1).
Proof.
  assert (F : forallb (fun k => Z.eqb (@lut_index (B64N lib) oob scale64 1500 2099 (row64 k)) (Z.of_nat (if Nat.ltb k 3 then k else k - 1))) (seq 0 2100) = true)
    by (vm_compute; reflexivity).
  intros Hk. rewrite forallb_forall in F. apply Z.eqb_eq, F, in_seq. lia.
Qed.
Definition row_close (i : nat) : bool :=
  match row64 i with
  | S754_finite false m e =>
      ((e <? 0) && (10 * Zpos m <=? (1500 + Z.of_nat i) * 2 ^ (- e)) && (((1500 + Z.of_nat i) * 2 ^ (- e) - 10 * Zpos m) * 5000000000 <=? 2 ^ (- e)))%Z
  | _ => false
  end.
Lemma rows_close i : (i < 2100)%nat -> 0 <= (1500 + INR i) / 10 - to_R (row64 i) <= 2 / 100000000000.
Proof.
  assert (F : forallb row_close (seq 0 2100) = true) by (vm_compute; reflexivity).
  intros Hi. rewrite forallb_forall in F. specialize (F i). assert (C : row_close i = true) by (apply F, in_seq; lia). clear F.
  unfold row_close in C. destruct (row64 i) as [s|s| |s m e]; try discriminate C. destruct s; [discriminate C|].
  rewrite !andb_true_iff in C. destruct C as ((C1 & C2) & C3). apply Z.ltb_lt in C1. apply Z.leb_le in C2, C3.
  cbn [SF2R cond_Zopp]. unfold F2R. cbn [Fnum Fexp].
  assert (P : (0 < 2 ^ (- e))%Z) by (apply Z.pow_pos_nonneg; lia).
  replace (bpow radix2 e) with (/ IZR (2 ^ (- e))).
  2:{ change 2%Z with (radix_val radix2). rewrite IZR_Zpower by lia. rewrite <- bpow_opp. f_equal. lia. }
  set (D := (2 ^ (- e))%Z) in *. apply IZR_lt in P. apply IZR_le in C2, C3. rewrite !mult_IZR, ?minus_IZR, !mult_IZR, plus_IZR in *.
  rewrite <- INR_IZR_INZ in *. set (d := IZR D) in *. set (M := IZR (Z.pos m)) in *. set (x := INR i) in *.
  assert (Hd : 0 < / d) by now apply Rinv_0_lt_compat.
  assert (E : (1500 + x) / 10 - M * / d = ((1500 + x) * d - 10 * M) * (/ d / 10)) by (field; lra).
  rewrite E. split.
  - apply Rmult_le_pos; lra.
  - assert (X : (1500 + x) * d - 10 * M <= d / 5000000000) by lra.
    eapply Rle_trans; [apply Rmult_le_compat_r; [lra|exact X]|]. apply Req_le. field. lra.
Qed.

Lemma scale64_R : to_R scale64 = 10.
Proof.
  assert (E : scale64 = S754_finite false 5629499534213120 (-49)) by (vm_compute; reflexivity).
  rewrite E. cbn [SF2R cond_Zopp]. unfold F2R. cbn [Fnum Fexp]. simpl bpow. lra.
Qed.

Lemma clipZ_mono a b lo hi : (a <= b)%Z -> (clipZ a lo hi <= clipZ b lo hi)%Z.
Proof. unfold clipZ. lia. Qed.

Lemma index64 lib oob (t : b64) : SpecFloat.valid_binary 53 1024 t = true -> is_finite_SF t = true -> 0 <= to_R t <= 32767 / 10 ->
  @lut_index (B64N lib) oob scale64 1500 2099 t = clipZ (Zfloor (rnd64 (10 * to_R t)) - 1500) 0 2099.
Proof.
  intros V F Ht.
  assert (B0 : 0 <= rnd64 (10 * to_R t)). { change 0 with (IZR 0). rewrite <- (rnd_IZR 0) by lia. apply rnd_le. simpl. lra. }
  assert (B1 : rnd64 (10 * to_R t) <= 32767). { change 32767 with (IZR 32767). rewrite <- (rnd_IZR 32767) by lia. apply rnd_le. simpl. lra. }
  destruct (mul_R t scale64) as (M1 & M2); auto.
  { rewrite scale64_R, Rmult_comm. rewrite Rabs_pos_eq by auto. eapply Rle_lt_trans; [exact B1|].
    eapply Rlt_le_trans; [|apply (bpow_le radix2 20); lia]. simpl. lra. }
  rewrite scale64_R, Rmult_comm in M1.
  unfold lut_index, cast_int16. change (nmul (B64N lib) t scale64) with (SFmul 53 1024 t scale64). change (ntrunc (B64N lib)) with b64_trunc.
  rewrite trunc_floor; [|auto|rewrite M1; auto]. rewrite M1. set (z := Zfloor (rnd64 (10 * to_R t))) in *.
  assert (Z0 : (0 <= z <= 32767)%Z).
  { split; [apply Zfloor_lub; exact B0|]. apply le_IZR. eapply Rle_trans; [apply Zfloor_lb|exact B1]. }
  assert (in_int16 z = true) as ->. { unfold in_int16. rewrite andb_true_iff, !Z.leb_le. lia. }
  f_equal. apply wrap16_id. unfold in_int16. rewrite andb_true_iff, !Z.leb_le. lia.
Qed.

Lemma bpow_m41 : bpow radix2 (-41) <= 1 / 2000000000000.
Proof. simpl. lra. Qed.

Lemma multiples_hit : forall lib oob load platform instrument band det wavespace (c : converter (B64N lib)) norm norm' lut k,
  RadTbConverter load platform instrument band det wavespace (nlit (B64N lib) 1 10) = Ok c -> make_tb2rad_lut c norm = Ok lut ->
  (k < 2100)%nat ->
  exists r, tb2radiance oob c [nlit (B64N lib) (1500 + Z.of_nat k) 10] (Some lut) norm' = Ok [r] /\ nth_error (lut_radiance lut) k = Some r.
Proof.
  intros lib oob load p i b det wsp c norm norm' lut k Hc Hl Hk. apply constructor_gen in Hc as (Hr & Hs).
  destruct (lut64 _ _ _ _ Hr Hl) as (HL & HT & _). unfold tb2radiance. rewrite Hs.
  change (ndiv (B64N lib) (nlit (B64N lib) 1 1) (nlit (B64N lib) 1 10)) with scale64.
  destruct (lookup64 lib oob lut (b64_ratio (1500 + Z.of_nat k) 10) HL HT) as (r & R1 & R2). exists r. split; [exact R1|].
  rewrite index_multiples, Nat2Z.id in R2 by auto. exact R2.
Qed.
Lemma stored_rows : forall lib oob load platform instrument band det wavespace (c : converter (B64N lib)) norm norm' lut k t,
  RadTbConverter load platform instrument band det wavespace (nlit (B64N lib) 1 10) = Ok c -> make_tb2rad_lut c norm = Ok lut ->
  nth_error (lut_tb lut) k = Some t ->
  exists r, tb2radiance oob c [t] (Some lut) norm' = Ok [r] /\
    nth_error (lut_radiance lut) (if Nat.ltb k 3 then k else k - 1) = Some r.
Proof.
  intros lib oob load p i b det wsp c norm norm' lut k t Hc Hl Hk. apply constructor_gen in Hc as (Hr & Hs).
  destruct (lut64 _ _ _ _ Hr Hl) as (HL & HT & _). unfold tb2radiance. rewrite Hs.
  change (ndiv (B64N lib) (nlit (B64N lib) 1 1) (nlit (B64N lib) 1 10)) with scale64.
  assert (K : (k < 2100)%nat). { assert (K : nth_error (lut_tb lut) k <> None) by congruence. apply nth_error_Some in K. rewrite HT, map_length, seq_length in K. exact K. }
  assert (t = row64 k). { rewrite HT in Hk. erewrite map_nth_error in Hk; [|rewrite seq_nth_some by auto; reflexivity]. cbn [Nat.add] in Hk. congruence. }
  subst t. destruct (lookup64 lib oob lut (row64 k) HL HT) as (r & R1 & R2). exists r. split; [exact R1|].
  rewrite index_stored, Nat2Z.id in R2 by auto. exact R2.
Qed.

Lemma every_double : forall lib oob load platform instrument band det wavespace (c : converter (B64N lib)) norm norm' lut t,
  RadTbConverter load platform instrument band det wavespace (nlit (B64N lib) 1 10) = Ok c -> make_tb2rad_lut c norm = Ok lut ->
  is_double t -> 0 <= to_R t <= 32767 / 10 ->
  exists r i ti, tb2radiance oob c [t : B64N lib] (Some lut) norm' = Ok [r] /\
    nth_error (lut_radiance lut) i = Some r /\ nth_error (lut_tb lut) i = Some ti /\
    tb2radiance oob c [ti] None norm = Ok [r] /\
    (150 <= to_R t < 360 -> to_R ti - 1 / 10000000000 < to_R t < to_R ti + 1/10 + 1 / 10000000000) /\
    (to_R t < 150 -> i = 0%nat) /\ (360 <= to_R t -> S i = List.length (lut_radiance lut)).
Proof.
  intros lib oob load p i b det wsp c norm norm' lut t Hc Hl (V & F) Ht. apply constructor_gen in Hc as (Hr & Hs).
  destruct (lut64 _ _ _ _ Hr Hl) as (HL & HT & HR). unfold tb2radiance. rewrite Hs.
  change (ndiv (B64N lib) (nlit (B64N lib) 1 1) (nlit (B64N lib) 1 10)) with scale64.
  destruct (lookup64 lib oob lut t HL HT) as (r & R1 & R2). rewrite index64 in R2 by auto.
  set (z := Zfloor (rnd64 (10 * to_R t))) in *.
  set (j := Z.to_nat (clipZ (z - 1500) 0 2099)) in *.
  assert (Cr : (0 <= clipZ (z - 1500) 0 2099 <= 2099)%Z) by (apply clipZ_range; lia).
  assert (J : (j < 2100)%nat) by (unfold j; lia).
  exists r, j, (row64 j). split; [exact R1|]. split; [exact R2|]. split; [|split].
  - rewrite HT. erewrite map_nth_error; [reflexivity|]. now rewrite seq_nth_some.
  - destruct (HR j J) as (r' & E1 & E2). assert (r' = r) by congruence. subst r'. exact E2.
  - pose proof (Zfloor_lb (rnd64 (10 * to_R t))) as Z1. pose proof (Zfloor_ub (rnd64 (10 * to_R t))) as Z2. fold z in Z1, Z2.
    split; [|split].
    + intros Hin. pose proof (half_ulp_bound (10 * to_R t) ltac:(lra)) as U. apply Rabs_le_inv in U. pose proof bpow_m41.
      assert (A : 1500 <= rnd64 (10 * to_R t)). { change 1500 with (IZR 1500). rewrite <- (rnd_IZR 1500) by lia. apply rnd_le. simpl. lra. }
      assert (A2 : rnd64 (10 * to_R t) <= 3600). { change 3600 with (IZR 3600). rewrite <- (rnd_IZR 3600) by lia. apply rnd_le. simpl. lra. }
      assert (Zr : (1500 <= z <= 3600)%Z). { split; [apply Zfloor_lub; exact A|]. apply le_IZR. lra. }
      pose proof (rows_close j J) as C.
      destruct (Z.eq_dec z 3600) as [E|E].
      * assert (Ej : j = 2099%nat). { unfold j. rewrite E. reflexivity. }
        assert (Ej' : INR j = 2099) by (rewrite Ej, INR_IZR_INZ; simpl; lra). rewrite Ej' in C. subst z. rewrite E in *. lra.
      * assert (Ej : INR j = IZR z - 1500). { unfold j, clipZ. rewrite INR_IZR_INZ, Z2Nat.id by lia. replace (Z.min (Z.max (z - 1500) 0) 2099) with (z - 1500)%Z by lia. now rewrite minus_IZR. }
        rewrite Ej in C. lra.
    + intros Hlt. unfold j, clipZ. assert (z <= 1500)%Z; [|lia]. apply le_IZR. eapply Rle_trans; [exact Z1|].
      change 1500 with (IZR 1500). rewrite <- (rnd_IZR 1500) by lia. apply rnd_le. simpl. lra.
    + intros Hge. assert (3600 <= z)%Z. { apply Zfloor_lub. change 3600 with (IZR 3600). rewrite <- (rnd_IZR 3600) by lia. apply rnd_le. simpl. lra. }
      rewrite HL. unfold j, clipZ. lia.
Qed.

(** a sensor for the Examples *)
Definition load64 (lib : libm) (p i : string) : res (rsr_state (B64N lib)) :=
  Ok (@rsr_init (B64N lib) None [("b"%string, [("det-1"%string,
        [("response"%string, VArr [nlit (B64N lib) 1 10; nlit (B64N lib) 1 1; nlit (B64N lib) 2 10]);
         ("wavelength"%string, VArr [nlit (B64N lib) 10 1; nlit (B64N lib) 11 1; nlit (B64N lib) 12 1]);
         ("central_wavelength"%string, VNum (nlit (B64N lib) 11 1))])])]).
Lemma case64 lib : exists c lut,
  RadTbConverter (load64 lib) "NOAA-19" "avhrr-3" (BStr "b"%string) "det-1" WAVE_LENGTH (nlit (B64N lib) 1 10) = Ok c /\
  make_tb2rad_lut c true = Ok lut.
Proof.
  assert (E : exists c, RadTbConverter (load64 lib) "NOAA-19" "avhrr-3" (BStr "b"%string) "det-1" WAVE_LENGTH (nlit (B64N lib) 1 10) = Ok c /\
    List.length (cv_waves c) = 3%nat /\ List.length (cv_response c) = 3%nat /\ cv_tb_resolution c = b64_ratio 1 10).
  { eexists. split; [reflexivity|]. repeat split. }
  destruct E as (c & Hc & HW & HR & HT). exists c.
  unfold make_tb2rad_lut. rewrite HT, arange64.
  assert (P : exists rad, @planck_radiance (B64N lib) c (map row64 (seq 0 2100)) true = Ok rad).
  { rewrite planck_radiance_rows.
    - generalize (seq 0 2100). intros l. induction l as [|i l IH]; cbn [map mapM]; [eauto|].
      destruct IH as (rad & IH). unfold radiance1 at 1, vmul, trapezoid. rewrite !map_length, HW, HR. cbn [Nat.eqb bind].
      rewrite map_length, combine_length, map_length, HW, HR. cbn [Nat.min Nat.eqb bind]. rewrite IH. cbn [bind]. eauto.
    - intros K. rewrite K in HW. discriminate.
    - change (seq 0 2100) with (0%nat :: seq 1 2099). discriminate. }
  destruct P as (rad & ->). cbn [bind]. eauto.
Qed.
