(** The emissive part in doubles: C115. *)
From Coq Require Import Reals Lra ZArith String List Bool Lia SpecFloat.
From Flocq Require Import Core BinarySingleNaN.
From Verif Require Import Base NumSig B64 M_Tables M_Utils M_Rsr M_Blackbody M_RadTb M_Nir S_B64 S_Nir S_NirDoubles
     P_B64 P_B64ops P_B64planck P_Arr P_Nir P_NirDoubles P_NirDoubles2.
Import ListNotations.
Local Open Scope R_scope.

(** ** The arrays *)
Section Generic.
  Context {N : Num}.
  Lemma emissive_raw (c : calculator N) s st rad11 rad3x r tb :
    ns_rad3x_t11 st = Some rad11 -> ns_rad3x st = Some rad3x -> ns_r3x st = Some r -> fits s rad11 -> fits s rad3x -> fits s r ->
    exists a, snd (emissive_part_3x c tb st) =
        (if tb then q <- converter_radiance2tb (cl_conv c) (NpArray (a_data a)) ;; Ok (Some (arg_values q)) else Ok (Some (a_data a))) /\
      forall k L T v, (k < size s)%nat -> pix k rad3x = Some L -> pix k rad11 = Some T -> pix k r = Some v ->
        pix k a = Some (let e := nmul N T (nsub N (nlit N 1 1) v) in if nisnan N e then L else e).
  Proof.
    intros H11 H3 Hr F11 F3 Fr. unfold emissive_part_3x. rewrite H11, Hr, H3.
    pose proof (fits_map (fun x => nsub N (nlit N 1 1) x) s _ Fr) as Fr'.
    destruct (bmap2_shape (nmul N) s _ _ F11 Fr') as (e & E1 & Fe). rewrite E1.
    destruct (bmap2_shape (fun m x => if nisnan N m then x else m) s _ _ Fe F3) as (a & E2 & Fa). rewrite E2.
    exists a. split; [destruct tb; reflexivity|].
    intros k L T v Hk PL PT Pv.
    assert (Pe : pix k e = Some (nmul N T (nsub N (nlit N 1 1) v))).
    { apply (bmap2_pix _ s _ _ _ k _ _ F11 Fr' E1 Hk PT). now rewrite pix_map, Pv. }
    exact (bmap2_pix _ s _ _ _ k _ _ Fe F3 E2 Hk Pe PL).
  Qed.
End Generic.

(** ** One pixel *)
Definition em64 (T v : b64) : b64 := SFmul 53 1024 T (SFsub 53 1024 (b64_ratio 1 1) v).
Lemma one_double : is_double (b64_ratio 1 1).
Proof. split; vm_compute; reflexivity. Qed.
Lemma em64_facts T v : double_between 0 (10 ^ 12) T -> is_double v -> Rabs (to_R v) <= 10 ^ 40 ->
  is_double (em64 T v) /\ to_R (em64 T v) = rnd64 (to_R T * rnd64 (1 - to_R v)).
Proof.
  intros ((VT & FT) & HT) (Vv & Fv) B. destruct one_double as [V1 F1]. pose proof big_value as BV. assert (K : 10 ^ 60 <= 10 ^ 300) by (apply Rle_pow; [lra|lia]).
  apply Rabs_le_inv in B.
  assert (B1 : Rabs (to_R (b64_ratio 1 1) - to_R v) <= 2 * 10 ^ 40) by (rewrite one_R; apply Rabs_le; lra).
  destruct (sub_R (b64_ratio 1 1) v V1 Vv F1 Fv) as [E1 G1]; [apply big_fin; lra|]. rewrite one_R in *.
  assert (B2 : Rabs (rnd64 (1 - to_R v)) <= 10 ^ 42).
  { pose proof (rnd_err (1 - to_R v)) as R. pose proof u_val. pose proof eta_tiny'. pose proof tiny_val.
    assert (u * Rabs (1 - to_R v) <= 1 * (2 * 10 ^ 40)) by (apply Rmult_le_compat; try lra; apply Rabs_pos).
    apply Rabs_le_inv in R. apply Rabs_le_inv in B1. apply Rabs_le. lra. }
  unfold em64. destruct (mul_R T (SFsub 53 1024 (b64_ratio 1 1) v) VT) as [E2 G2]; auto.
  - apply sub_dbl; auto.
  - rewrite E1. apply big_fin. rewrite Rabs_mult, (Rabs_pos_eq (to_R T)) by lra.
    assert (to_R T * Rabs (rnd64 (1 - to_R v)) <= 10 ^ 12 * 10 ^ 42) by (apply Rmult_le_compat; try lra; apply Rabs_pos). lra.
  - split; [split; [apply mul_dbl; auto; apply sub_dbl; auto|exact G2]|]. rewrite E2, E1. reflexivity.
Qed.
Lemma em64_err T v : 0 <= T <= 10 ^ 12 -> Rabs (rnd64 (T * rnd64 (1 - v)) - T * (1 - v)) <= 3 / 10 ^ 16 * Rabs (T * (1 - v)) + / 10 ^ 100.
Proof.
  intros HT. pose proof (rnd_err (1 - v)) as R1. pose proof (rnd_err (T * rnd64 (1 - v))) as R2.
  pose proof u_val as U. pose proof eta_tiny' as E1. pose proof tiny_val as E2.
  assert (E3 : tiny <= / 10 ^ 100 / 10 ^ 100) by (unfold tiny, Rdiv; rewrite <- Rinv_mult, <- pow_add; apply Rle_refl).
  assert (Q0 : 0 < / 10 ^ 100) by (apply Rinv_0_lt_compat, pow_lt; lra).
  set (x := 1 - v) in *. set (s := rnd64 x) in *.
  assert (A1 : Rabs (T * s - T * x) <= u * Rabs (T * x) + T * eta).
  { rewrite <- Rmult_minus_distr_l, !Rabs_mult, (Rabs_pos_eq T) by lra. apply Rle_trans with (T * (u * Rabs x + eta)); [apply Rmult_le_compat_l; lra|]. right. ring. }
  assert (A2 : T * eta <= 10 ^ 12 * eta) by (apply Rmult_le_compat_r; lra).
  assert (A3 : Rabs (T * s) <= Rabs (T * x) + (u * Rabs (T * x) + T * eta)).
  { replace (T * s) with (T * x + (T * s - T * x)) at 1 by ring. eapply Rle_trans; [apply Rabs_triang|]. lra. }
  pose proof (Rabs_pos (T * x)) as P. assert (A4 : u * Rabs (T * x) <= 12 / 10 ^ 17 * Rabs (T * x)) by (apply Rmult_le_compat_r; lra).
  assert (A5 : u * Rabs (T * s) <= 12 / 10 ^ 17 * (Rabs (T * x) + (12 / 10 ^ 17 * Rabs (T * x) + 10 ^ 12 * eta))).
  { apply Rmult_le_compat; try lra. apply Rabs_pos. }
  replace (rnd64 (T * s) - T * x) with ((rnd64 (T * s) - T * s) + (T * s - T * x)) by ring.
  eapply Rle_trans; [apply Rabs_triang|].
  assert (Et : eta <= / 10 ^ 100 / 10 ^ 20).
  { apply Rle_trans with (tiny / 10 ^ 20); [lra|]. unfold Rdiv at 1. unfold Rdiv. apply Rmult_le_compat_r; [left; apply Rinv_0_lt_compat, pow_lt; lra|].
    eapply Rle_trans; [exact E3|]. unfold Rdiv. rewrite <- (Rmult_1_r (/ 10 ^ 100)) at 3. apply Rmult_le_compat_l; [lra|].
    rewrite <- Rinv_1. apply Rinv_le; [lra|]. apply pow_R1_Rle; lra. }
  lra.
Qed.
Lemma em64_range T v : is_double T -> 0 <= to_R T -> is_double v ->
  (to_R v <= 1 -> 0 <= rnd64 (to_R T * rnd64 (1 - to_R v))) /\ (1 <= to_R v -> rnd64 (to_R T * rnd64 (1 - to_R v)) <= 0) /\
  (0 <= to_R v -> rnd64 (to_R T * rnd64 (1 - to_R v)) <= to_R T) /\ (to_R v <= 0 -> to_R T <= rnd64 (to_R T * rnd64 (1 - to_R v))).
Proof.
  intros (VT & FT) PT (Vv & Fv). assert (one : rnd64 1 = 1) by (apply (rnd_IZR 1); lia).
  repeat split; intros H.
  - apply rnd_nonneg, Rmult_le_pos; [auto|]. apply rnd_nonneg. lra.
  - rewrite <- rnd_0. apply rnd_le. assert (rnd64 (1 - to_R v) <= rnd64 0) by (apply rnd_le; lra). rewrite rnd_0 in *. nra.
  - apply rnd_le_dbl; auto. assert (rnd64 (1 - to_R v) <= 1) by (rewrite <- one at 2; apply rnd_le; lra). nra.
  - apply rnd_ge; auto. assert (1 <= rnd64 (1 - to_R v)) by (rewrite <- one at 1; apply rnd_le; lra). nra.
Qed.

(** ** Statements of T_EmisDoubles *)
Lemma emissive_call lib (E : nir_env (B64N lib)) c s sun nir therm co2 lut st st' r :
  reflectance_from_tbs E c sun nir therm co2 lut st = (st', Ok r) -> one_image s sun nir therm co2 lut -> forall tb,
  exists a, snd (emissive_part_3x c tb st') =
      (if tb then q <- converter_radiance2tb (cl_conv c) (NpArray (a_data a)) ;; Ok (Some (arg_values q)) else Ok (Some (a_data a))) /\
    forall k L T F S v, (k < size s)%nat -> attributes st' k L T F S -> pix k r = Some v ->
      pix k a = Some (if b64_nan (em64 T v) then L else em64 T v).
Proof.
  intros H Him tb. destruct (reflectance_pixels _ _ _ _ _ _ _ _ _ _ _ H Him) as (rad11 & rad3x & solar & corr & _ & _ & -> & F11 & F3 & Fr & _ & _).
  match goal with |- context [emissive_part_3x c tb ?s] => set (s1 := s) end.
  destruct (emissive_raw c s s1 rad11 rad3x r tb eq_refl eq_refl eq_refl F11 F3 Fr) as (a & Ho & Pa).
  exists a. split; [exact Ho|]. intros k L T F S v Hk ((a3 & Q3 & PL) & (a11 & Q11 & PT) & _) Pv.
  cbn [s1 ns_rad3x ns_rad3x_t11] in Q3, Q11. injection Q3 as <-. injection Q11 as <-. exact (Pa k L T v Hk PL PT Pv).
Qed.
Lemma nan_of_double x : is_double x -> b64_nan x = false.
Proof. intros [_ F]. destruct x; try reflexivity; discriminate. Qed.
Lemma reflectance_bound I L T F S : ordinary I L T F S -> 4 / 1000 <= to_R (d64 I T F S) -> Rabs (rnd64 (to_R (n64 I L T F) / to_R (d64 I T F S))) <= 10 ^ 40.
Proof.
  intros H Hd. destruct (energies _ _ _ _ _ H) as ((_ & _ & B1) & (_ & _ & B2) & _ & (_ & E4)).
  pose proof u_val. pose proof eta_tiny'. pose proof tiny_val.
  assert (Bn : Rabs (to_R (n64 I L T F)) <= 10 ^ 31).
  { rewrite E4. pose proof (rnd_err (to_R (SFmul 53 1024 L I) - to_R (e64 I T F))) as R.
    assert (Q : Rabs (to_R (SFmul 53 1024 L I) - to_R (e64 I T F)) <= 2 * 10 ^ 30) by (apply Rabs_le; lra).
    assert (u * Rabs (to_R (SFmul 53 1024 L I) - to_R (e64 I T F)) <= 1 * (2 * 10 ^ 30)) by (apply Rmult_le_compat; try lra; apply Rabs_pos).
    apply Rabs_le_inv in R, Q. apply Rabs_le. lra. }
  assert (Q : Rabs (to_R (n64 I L T F) / to_R (d64 I T F S)) <= 10 ^ 34).
  { unfold Rdiv. rewrite Rabs_mult, Rabs_inv, (Rabs_pos_eq (to_R (d64 I T F S))) by lra.
    apply Rle_trans with (10 ^ 31 * / (4 / 1000)); [|lra].
    apply Rmult_le_compat; auto using Rabs_pos; [left; apply Rinv_0_lt_compat; lra|]. apply Rinv_le; lra. }
  pose proof (rnd_err (to_R (n64 I L T F) / to_R (d64 I T F S))) as R.
  assert (u * Rabs (to_R (n64 I L T F) / to_R (d64 I T F S)) <= 1 * 10 ^ 34) by (apply Rmult_le_compat; try lra; apply Rabs_pos).
  apply Rabs_le_inv in R, Q. apply Rabs_le. lra.
Qed.
Lemma emissive64 : forall lib (E : nir_env (B64N lib)) c s sun nir therm co2 lut st st' r,
  reflectance_from_tbs E c sun nir therm co2 lut st = (st', Ok r) -> one_image s sun nir therm co2 lut -> floats nir therm -> limit_like (cl_masking_limit c) ->
  forall tb, exists a, snd (emissive_part_3x c tb st') =
      (if tb then q <- converter_radiance2tb (cl_conv c) (NpArray (a_data a)) ;; Ok (Some (arg_values q)) else Ok (Some (a_data a))) /\
    forall k z tn L T F S, (k < size s)%nat -> pix k (get_as_array sun) = Some z -> pix k (get_as_array nir) = Some tn -> attributes st' k L T F S ->
    ordinary (cv_rsr_integral (cl_conv c)) L T F S -> is_double z -> exists v e, pix k r = Some v /\ pix k a = Some e /\
      (v = S754_nan -> e = L) /\
      (v <> S754_nan -> is_double e /\
         Rabs (to_R e - to_R T * (1 - to_R v)) <= 3 / 10 ^ 16 * Rabs (to_R T * (1 - to_R v)) + / 10 ^ 100 /\
         (to_R v <= 1 -> 0 <= to_R e) /\ (1 <= to_R v -> to_R e <= 0) /\ (0 <= to_R v -> to_R e <= to_R T) /\ (to_R v <= 0 -> to_R T <= to_R e)).
Proof.
  intros lib E c s sun nir therm co2 lut st st' r H Him Hf Hl tb. destruct (emissive_call _ _ _ _ _ _ _ _ _ _ _ _ H Him tb) as (a & Ho & Pa).
  exists a. split; [exact Ho|]. intros k z tn L T F S Hk Pz Pn At Od Hz.
  destruct (masked64 _ _ _ _ _ _ _ _ _ _ _ _ _ _ _ _ _ _ _ H Him Hf Hk Pz Pn At Od Hz Hl) as (v & Pv & Dv & _).
  exists v, (if b64_nan (em64 T v) then L else em64 T v). split; [exact Pv|]. split; [exact (Pa k L T F S v Hk At Pv)|]. split.
  - intros ->. destruct Od as (_ & _ & ((_ & FT) & _) & _). unfold em64. destruct T; try discriminate; reflexivity.
  - intros Nv. destruct (unmasked64 _ _ _ _ _ _ _ _ _ _ _ _ _ _ _ _ _ _ _ _ H Him Hf Hk Pz Pn At Od Hz Hl Pv Nv) as (D & Ev & Bd).
    pose proof (reflectance_bound _ _ _ _ _ Od Bd) as B. rewrite <- Ev in B. destruct Od as (_ & _ & HT & _).
    destruct (em64_facts T v HT D B) as [De Ee]. rewrite (nan_of_double _ De). destruct HT as [DT HT]. rewrite Ee.
    split; [exact De|]. split; [apply em64_err; exact HT|]. now apply em64_range.
Qed.
Lemma balance64 : forall lib (E : nir_env (B64N lib)) c s sun nir therm co2 lut st st' r,
  reflectance_from_tbs E c sun nir therm co2 lut st = (st', Ok r) -> one_image s sun nir therm co2 lut -> floats nir therm -> limit_like (cl_masking_limit c) ->
  exists a, snd (emissive_part_3x c false st') = Ok (Some (a_data a)) /\
    forall k z tn L T F S, (k < size s)%nat -> pix k (get_as_array sun) = Some z -> pix k (get_as_array nir) = Some tn -> attributes st' k L T F S ->
    ordinary (cv_rsr_integral (cl_conv c)) L T F S -> is_double z -> let I := cv_rsr_integral (cl_conv c) in
    to_R F = 1 -> to_R T <= to_R L -> to_R L * to_R I <= to_R S -> exists v e, pix k r = Some v /\ pix k a = Some e /\
      (v <> S754_nan -> 0 <= to_R v <= 1 /\ 0 <= to_R e <= to_R T /\
         Rabs (to_R v * to_R S + to_R e * to_R I - to_R L * to_R I) <= 3 / 10 ^ 15 * (to_R L * to_R I + to_R T * to_R I + to_R S)).
Proof.
  intros lib E c s sun nir therm co2 lut st st' r H Him Hf Hl. destruct (emissive64 _ _ _ _ _ _ _ _ _ _ _ _ H Him Hf Hl false) as (a & Ho & Pa).
  exists a. split; [exact Ho|]. intros k z tn L T F S Hk Pz Pn At Od Hz I HF HT HS.
  destruct (Pa k z tn L T F S Hk Pz Pn At Od Hz) as (v & e & Pv & Pe & _ & K). exists v, e. split; [exact Pv|]. split; [exact Pe|]. intros Nv.
  destruct (K Nv) as (De & Ee & R1 & _ & R3 & _).
  destruct (range64 _ _ _ _ _ _ _ _ _ _ _ _ _ _ _ _ _ _ _ _ H Him Hf Hk Pz Pn At Od Hz Hl Pv Nv) as (Q1 & _ & Q3 & _).
  destruct (accuracy64 _ _ _ _ _ _ _ _ _ _ _ _ _ _ _ _ _ _ _ _ H Him Hf Hk Pz Pn At Od Hz Hl Pv Nv) as (_ & C & A).
  fold I in Q3, C, A, Od. specialize (Q1 ltac:(lra) HT). specialize (Q3 HS). split; [lra|]. specialize (R1 Q3). specialize (R3 Q1). split; [lra|].
  destruct Od as ((_ & BI) & (_ & BL) & (_ & BT) & _ & (_ & BS)).
  unfold exact_reflectance, amplification, contrast in *. rewrite HF, Rmult_1_r in *.
  set (l := to_R L * to_R I) in *. set (t := to_R T * to_R I) in *. set (d := to_R S - t) in *.
  assert (Ht : 0 <= t <= l) by (unfold t, l; split; [apply Rmult_le_pos; lra|apply Rmult_le_compat_r; lra]).
  set (x := (l - t) / d) in *. assert (Ex : x * d = l - t) by (unfold x; field; lra).
  assert (X : 0 <= x <= 1). { unfold x. split; [apply Rmult_le_pos; [lra|left; apply Rinv_0_lt_compat; lra]|]. apply Rmult_le_reg_r with d; [lra|]. fold x. rewrite Ex. unfold d. lra. }
  rewrite (Rabs_pos_eq x) in A by lra.
  assert (A2 : Rabs ((to_R v - x) * d) <= 2 / 10 ^ 15 * (l + t + to_R S)).
  { rewrite Rabs_mult, (Rabs_pos_eq d) by lra. apply Rle_trans with (1 / 10 ^ 15 * (1 + x) * ((l + t + to_R S) / d) * d); [apply Rmult_le_compat_r; lra|].
    replace (1 / 10 ^ 15 * (1 + x) * ((l + t + to_R S) / d) * d) with (1 / 10 ^ 15 * (1 + x) * (l + t + to_R S)) by (field; lra).
    apply Rmult_le_compat_r; lra. }
  assert (A3 : Rabs ((to_R e - to_R T * (1 - to_R v)) * to_R I) <= 3 / 10 ^ 16 * t + 10 ^ 6 * / 10 ^ 100).
  { rewrite Rabs_mult, (Rabs_pos_eq (to_R I)) by lra.
    assert (G : Rabs (to_R T * (1 - to_R v)) <= to_R T). { rewrite Rabs_pos_eq by (apply Rmult_le_pos; lra). rewrite <- (Rmult_1_r (to_R T)) at 2. apply Rmult_le_compat_l; lra. }
    assert (Q0 : 0 < / 10 ^ 100) by (apply Rinv_0_lt_compat, pow_lt; lra).
    apply Rle_trans with ((3 / 10 ^ 16 * to_R T + / 10 ^ 100) * to_R I); [apply Rmult_le_compat_r; lra|].
    assert (/ 10 ^ 100 * to_R I <= / 10 ^ 100 * 10 ^ 6) by (apply Rmult_le_compat_l; lra). unfold t. lra. }
  assert (Q : 10 ^ 6 * / 10 ^ 100 <= 1 / 10 ^ 16 * (39 / 10000)).
  { apply Rle_trans with (10 ^ 6 * / 10 ^ 40); [|lra]. apply Rmult_le_compat_l; [lra|]. apply Rinv_le; [lra|]. apply Rle_pow; [lra|lia]. }
  replace (to_R v * to_R S + to_R e * to_R I - l) with ((to_R v - x) * d + (to_R e - to_R T * (1 - to_R v)) * to_R I + (x * d - (l - t))) by (unfold d, t; ring).
  rewrite Ex. replace (l - t - (l - t)) with 0 by ring. rewrite Rplus_0_r. eapply Rle_trans; [apply Rabs_triang|]. unfold d in *. lra.
Qed.
