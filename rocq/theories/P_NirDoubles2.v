(** Calls in doubles: C109. *)
From Coq Require Import Reals Lra ZArith String List Bool Lia SpecFloat Sorting.Sorted.
From Flocq Require Import Core BinarySingleNaN.
From Verif Require Import Base NumSig B64 M_Tables M_Utils M_Rsr M_Blackbody M_RadTb M_Nir S_B64 S_Nir S_NirDoubles P_B64 P_B64ops P_B64band P_Arr P_Nir P_NirDoubles.
Import ListNotations.
Local Open Scope R_scope.

Lemma call64 lib (E : nir_env (B64N lib)) c s sun nir therm co2 lut st st' r k z tn L T F S :
  reflectance_from_tbs E c sun nir therm co2 lut st = (st', Ok r) -> one_image s sun nir therm co2 lut -> floats nir therm ->
  (k < size s)%nat -> pix k (get_as_array sun) = Some z -> pix k (get_as_array nir) = Some tn -> attributes st' k L T F S ->
  pix k r = Some (if out64 (cl_masking_limit c) z tn (d64 (cv_rsr_integral (cl_conv c)) T F S) then S754_nan
                  else SFdiv 53 1024 (n64 (cv_rsr_integral (cl_conv c)) L T F) (d64 (cv_rsr_integral (cl_conv c)) T F S)).
Proof.
  intros H Him [Fn Ft] Hk Pz Pn (( a & E1 & PL) & (a' & E2 & PT) & PF & (a'' & E3 & PS)).
  destruct (reflectance_pixels _ _ _ _ _ _ _ _ _ _ _ H Him) as (rad11 & rad3x & solar & corr & E11 & E33 & -> & _ & _ & _ & _ & P).
  cbn [ns_rad3x ns_rad3x_t11 ns_correction ns_solar] in *. injection E1 as <-. injection E2 as <-. injection E3 as <-.
  destruct (P k Hk) as (z' & tn' & L' & T' & F' & Qz & Qn & QL & QT & QF & QS & QC & QR).
  rewrite Fn, Ft in *. cbn [cast] in *.
  assert (z' = z) as -> by congruence. assert (tn' = tn) as -> by congruence. assert (L' = L) as -> by congruence. assert (T' = T) as -> by congruence.
  assert (F' = F) as -> by congruence. assert (ES : solar_raw c z = S) by congruence. rewrite ES in QR. rewrite QR. f_equal. apply (pixel64 lib).
Qed.

Lemma masked64 : forall lib (E : nir_env (B64N lib)) c s sun nir therm co2 lut st st' r k z tn L T F S,
  reflectance_from_tbs E c sun nir therm co2 lut st = (st', Ok r) -> one_image s sun nir therm co2 lut -> floats nir therm ->
  (k < size s)%nat -> pix k (get_as_array sun) = Some z -> pix k (get_as_array nir) = Some tn -> attributes st' k L T F S ->
  ordinary (cv_rsr_integral (cl_conv c)) L T F S -> is_double z -> limit_like (cl_masking_limit c) ->
  let gap := contrast (cv_rsr_integral (cl_conv c)) T F S in
  exists v, pix k r = Some v /\ (v = S754_nan \/ is_double v) /\
    (tn = S754_nan \/ sun_out64 (cl_masking_limit c) z \/ gap < 5 / 1000 - 1 / 10 ^ 9 -> v = S754_nan) /\
    (tn <> S754_nan -> ~ sun_out64 (cl_masking_limit c) z -> 5 / 1000 + 1 / 10 ^ 9 <= gap -> v <> S754_nan).
Proof.
  intros lib E c s sun nir therm co2 lut st st' r k z tn L T F S H Him Hf Hk Pz Pn Ha Ho Hz Hl gap.
  pose proof (call64 _ _ _ _ _ _ _ _ _ _ _ _ _ _ _ _ _ _ _ H Him Hf Hk Pz Pn Ha) as P. revert P. unfold gap; clear gap.
  set (I := cv_rsr_integral (cl_conv c)) in *. intros P. eexists. split; [exact P|].
  destruct (energies _ _ _ _ _ Ho) as (_ & _ & (Dd & _) & _). destruct (energy_err _ _ _ _ _ Ho) as (_ & _ & _ & Pq & Ed).
  destruct eps64_R as [Ee De]. apply Rabs_le_inv in Ed, Ee. pose proof u_val as Hu. pose proof tiny_val as Ht.
  assert (HS : 0 <= to_R S <= 10 ^ 6) by (destruct Ho as (_ & _ & _ & _ & [_ HS]); exact HS).
  assert (US : u * to_R S <= 12 / 10 ^ 17 * 10 ^ 6) by (apply Rmult_le_compat; lra).
  unfold contrast in *. set (q := to_R T * to_R I * to_R F) in *.
  assert (Uq : 32 / 10 * u * q <= 4 / 10 ^ 16 * q) by (apply Rmult_le_compat_r; lra).
  destruct (out64 (cl_masking_limit c) z tn (d64 I T F S)) eqn:O.
  - split; [auto|]. split; [auto|]. intros H1 H2 H3. exfalso. apply out64_iff in O; auto. destruct O as [O|[O|O]]; [auto|auto|]. lra.
  - assert (NO : ~ (tn = S754_nan \/ sun_out64 (cl_masking_limit c) z \/ to_R (d64 I T F S) < to_R eps64)).
    { intros K. apply (out64_iff _ z tn _ Hz Hl Dd) in K. congruence. }
    destruct (quotient _ _ _ _ _ Ho) as (Dv & _ & _); [apply Rnot_lt_le; tauto|].
    split; [auto|]. split.
    + intros [K|[K|K]]; [tauto|tauto|]. exfalso. apply NO. right. right. destruct (Rle_or_lt q (2 * 10 ^ 6)); lra.
    + intros _ _ _ K. rewrite K in Dv. destruct Dv as [_ Dv]. discriminate.
Qed.

(** what is known of a pixel that is not masked *)
Lemma unmasked64 lib (E : nir_env (B64N lib)) c s sun nir therm co2 lut st st' r k z tn L T F S v :
  reflectance_from_tbs E c sun nir therm co2 lut st = (st', Ok r) -> one_image s sun nir therm co2 lut -> floats nir therm ->
  (k < size s)%nat -> pix k (get_as_array sun) = Some z -> pix k (get_as_array nir) = Some tn -> attributes st' k L T F S ->
  ordinary (cv_rsr_integral (cl_conv c)) L T F S -> is_double z -> limit_like (cl_masking_limit c) ->
  pix k r = Some v -> v <> S754_nan ->
  let I := cv_rsr_integral (cl_conv c) in
  is_double v /\ to_R v = rnd64 (to_R (n64 I L T F) / to_R (d64 I T F S)) /\ 4 / 1000 <= to_R (d64 I T F S).
Proof.
  intros H Him Hf Hk Pz Pn Ha Ho Hz Hl Pv Nv I.
  pose proof (call64 _ _ _ _ _ _ _ _ _ _ _ _ _ _ _ _ _ _ _ H Him Hf Hk Pz Pn Ha) as P. fold I in P, Ho.
  destruct (energies _ _ _ _ _ Ho) as (_ & _ & (Dd & _) & _).
  destruct (out64 (cl_masking_limit c) z tn (d64 I T F S)) eqn:O; [congruence|].
  assert (NO : ~ (tn = S754_nan \/ sun_out64 (cl_masking_limit c) z \/ to_R (d64 I T F S) < to_R eps64)).
  { intros K. apply (out64_iff _ z tn _ Hz Hl Dd) in K. congruence. }
  destruct (quotient _ _ _ _ _ Ho) as (Dv & Ev & Bd); [apply Rnot_lt_le; tauto|].
  assert (v = SFdiv 53 1024 (n64 I L T F) (d64 I T F S)) as -> by congruence. auto.
Qed.

Lemma accuracy64 : forall lib (E : nir_env (B64N lib)) c s sun nir therm co2 lut st st' r k z tn L T F S v,
  reflectance_from_tbs E c sun nir therm co2 lut st = (st', Ok r) -> one_image s sun nir therm co2 lut -> floats nir therm ->
  (k < size s)%nat -> pix k (get_as_array sun) = Some z -> pix k (get_as_array nir) = Some tn -> attributes st' k L T F S ->
  ordinary (cv_rsr_integral (cl_conv c)) L T F S -> is_double z -> limit_like (cl_masking_limit c) ->
  pix k r = Some v -> v <> S754_nan ->
  let I := cv_rsr_integral (cl_conv c) in let x := exact_reflectance I L T F S in
  is_double v /\ 39 / 10000 <= contrast I T F S /\
  Rabs (to_R v - x) <= 1 / 10 ^ 15 * (1 + Rabs x) * amplification I L T F S.
Proof.
  intros lib E c s sun nir therm co2 lut st st' r k z tn L T F S v H Him Hf Hk Pz Pn Ha Ho Hz Hl Pv Nv. cbv zeta.
  destruct (unmasked64 _ _ _ _ _ _ _ _ _ _ _ _ _ _ _ _ _ _ _ _ H Him Hf Hk Pz Pn Ha Ho Hz Hl Pv Nv) as (Dv & Ev & Bd).
  set (I := cv_rsr_integral (cl_conv c)) in *. split; [exact Dv|].
  destruct (energies _ _ _ _ _ Ho) as ((_ & _ & B1) & (_ & _ & B2) & (_ & Ed) & (_ & En)).
  destruct (energy_err _ _ _ _ _ Ho) as (A1 & A2 & P1 & P2 & _).
  rewrite Ed in Bd. destruct (quotient_err (to_R S) (to_R (SFmul 53 1024 L I)) (to_R (e64 I T F)) (to_R L * to_R I) (to_R T * to_R I * to_R F)) as [Q1 Q2]; auto.
  - destruct Ho as (_ & _ & _ & _ & [_ HS]); exact HS.
  - apply B1.
  - apply B2.
  - split; [exact Q1|]. rewrite Ev, En, Ed. exact Q2.
Qed.

Lemma range64 : forall lib (E : nir_env (B64N lib)) c s sun nir therm co2 lut st st' r k z tn L T F S v,
  reflectance_from_tbs E c sun nir therm co2 lut st = (st', Ok r) -> one_image s sun nir therm co2 lut -> floats nir therm ->
  (k < size s)%nat -> pix k (get_as_array sun) = Some z -> pix k (get_as_array nir) = Some tn -> attributes st' k L T F S ->
  ordinary (cv_rsr_integral (cl_conv c)) L T F S -> is_double z -> limit_like (cl_masking_limit c) ->
  pix k r = Some v -> v <> S754_nan ->
  let energy := to_R L * to_R (cv_rsr_integral (cl_conv c)) in
  (to_R F <= 1 -> to_R T <= to_R L -> 0 <= to_R v) /\ (1 <= to_R F -> to_R L <= to_R T -> to_R v <= 0) /\
  (energy <= to_R S -> to_R v <= 1) /\ (to_R S <= energy -> 1 <= to_R v).
Proof.
  intros lib E c s sun nir therm co2 lut st st' r k z tn L T F S v H Him Hf Hk Pz Pn Ha Ho Hz Hl Pv Nv. cbv zeta.
  destruct (unmasked64 _ _ _ _ _ _ _ _ _ _ _ _ _ _ _ _ _ _ _ _ H Him Hf Hk Pz Pn Ha Ho Hz Hl Pv Nv) as (Dv & Ev & Bd).
  set (I := cv_rsr_integral (cl_conv c)) in *.
  destruct (energies _ _ _ _ _ Ho) as (((V1 & F1) & E1 & B1) & ((V2 & F2) & E2 & B2) & (_ & Ed) & (_ & En)).
  destruct Ho as ((_ & HI) & (_ & HL) & (_ & HT) & (_ & HF) & ((VS & FS) & HS)).
  set (l := to_R (SFmul 53 1024 L I)) in *. set (e := to_R (e64 I T F)) in *.
  set (n := to_R (n64 I L T F)) in *. set (d := to_R (d64 I T F S)) in *.
  assert (Hinv : 0 < / d) by (apply Rinv_0_lt_compat; lra).
  assert (pTI : 0 <= rnd64 (to_R T * to_R I)) by (apply rnd_nonneg, Rmult_le_pos; lra).
  assert (fix_rnd : forall x, rnd64 (rnd64 x) = rnd64 x).
  { intros x. apply round_generic; auto with typeclass_instances. apply generic_format_round; auto with typeclass_instances. }
  assert (one : rnd64 1 = 1) by (apply (rnd_IZR 1); lia).
  rewrite Ev. split; [|split; [|split]].
  - intros KF KT. apply rnd_nonneg. apply Rmult_le_pos; [|lra]. rewrite En. apply rnd_nonneg.
    assert (e <= l); [|lra]. rewrite E1, E2. apply Rle_trans with (rnd64 (to_R T * to_R I)).
    + rewrite <- (fix_rnd (to_R T * to_R I)). rewrite fix_rnd. rewrite <- (fix_rnd (to_R T * to_R I)) at 2. apply rnd_le.
      rewrite <- (Rmult_1_r (rnd64 (to_R T * to_R I))) at 2. apply Rmult_le_compat_l; lra.
    + apply rnd_le. apply Rmult_le_compat_r; lra.
  - intros KF KT. rewrite <- rnd_0. apply rnd_le. assert (n <= 0).
    { rewrite En, <- rnd_0. apply rnd_le. assert (l <= e); [|lra]. rewrite E1, E2. apply Rle_trans with (rnd64 (to_R T * to_R I)).
      + apply rnd_le. apply Rmult_le_compat_r; lra.
      + rewrite <- (fix_rnd (to_R T * to_R I)) at 1. apply rnd_le.
        rewrite <- (Rmult_1_r (rnd64 (to_R T * to_R I))) at 1. apply Rmult_le_compat_l; lra. }
    unfold Rdiv. replace 0 with (0 * / d) by ring. apply Rmult_le_compat_r; lra.
  - intros K. rewrite <- one at 1. apply rnd_le. assert (n <= d).
    { rewrite En, Ed. apply rnd_le. assert (l <= to_R S); [|lra]. rewrite E1. now apply rnd_le_dbl. }
    unfold Rdiv. replace 1 with (d * / d) by (field; lra). apply Rmult_le_compat_r; lra.
  - intros K. rewrite <- one at 1. apply rnd_le. assert (d <= n).
    { rewrite En, Ed. apply rnd_le. assert (to_R S <= l); [|lra]. rewrite E1. now apply rnd_ge. }
    unfold Rdiv. replace 1 with (d * / d) by (field; lra). apply Rmult_le_compat_r; lra.
Qed.

Lemma order64 : forall lib (E : nir_env (B64N lib)) c s sun nir therm co2 lut st st1 r k z tn s' sun' nir' therm' co2' lut' st' st1' r' k' z' tn' L L' T F S v v',
  reflectance_from_tbs E c sun nir therm co2 lut st = (st1, Ok r) -> one_image s sun nir therm co2 lut -> floats nir therm ->
  reflectance_from_tbs E c sun' nir' therm' co2' lut' st' = (st1', Ok r') -> one_image s' sun' nir' therm' co2' lut' -> floats nir' therm' ->
  (k < size s)%nat -> pix k (get_as_array sun) = Some z -> pix k (get_as_array nir) = Some tn -> attributes st1 k L T F S ->
  (k' < size s')%nat -> pix k' (get_as_array sun') = Some z' -> pix k' (get_as_array nir') = Some tn' -> attributes st1' k' L' T F S ->
  ordinary (cv_rsr_integral (cl_conv c)) L T F S -> ordinary (cv_rsr_integral (cl_conv c)) L' T F S ->
  is_double z -> is_double z' -> limit_like (cl_masking_limit c) ->
  pix k r = Some v -> v <> S754_nan -> pix k' r' = Some v' -> v' <> S754_nan -> to_R L <= to_R L' -> to_R v <= to_R v'.
Proof.
  intros lib E c s sun nir therm co2 lut st st1 r k z tn s' sun' nir' therm' co2' lut' st' st1' r' k' z' tn' L L' T F S v v' H Him Hf H' Him' Hf' Hk Pz Pn Ha Hk' Pz' Pn' Ha' Ho Ho' Hz Hz' Hl Pv Nv Pv' Nv' LL.
  destruct (unmasked64 _ _ _ _ _ _ _ _ _ _ _ _ _ _ _ _ _ _ _ _ H Him Hf Hk Pz Pn Ha Ho Hz Hl Pv Nv) as (_ & Ev & Bd).
  destruct (unmasked64 _ _ _ _ _ _ _ _ _ _ _ _ _ _ _ _ _ _ _ _ H' Him' Hf' Hk' Pz' Pn' Ha' Ho' Hz' Hl Pv' Nv') as (_ & Ev' & _).
  set (I := cv_rsr_integral (cl_conv c)) in *.
  destruct (energies _ _ _ _ _ Ho) as ((_ & E1 & _) & _ & _ & (_ & En)).
  destruct (energies _ _ _ _ _ Ho') as ((_ & E1' & _) & _ & _ & (_ & En')).
  rewrite Ev, Ev'. apply rnd_le. apply Rmult_le_compat_r; [left; apply Rinv_0_lt_compat; lra|].
  rewrite En, En'. apply rnd_le. assert (to_R (SFmul 53 1024 L I) <= to_R (SFmul 53 1024 L' I)); [|lra].
  rewrite E1, E1'. apply rnd_le. apply Rmult_le_compat_r; auto. apply (proj1 Ho).
Qed.

(** the radiance at a pixel is that of its temperature alone *)
Lemma radiance_of_pixel lib (E : nir_env (B64N lib)) c s (a : arr (B64N lib)) t rad k x y : is_image s a -> a_dtype a = Float64 -> (k < size s)%nat ->
  pix k a = Some x -> tb2rad E c a (Some t) = Ok rad -> tb2radiance (nx_oob16 E) c [x] (Some t) true = Ok [y] -> pix k rad = Some y.
Proof.
  intros [Hs Hlen] Hd Hk Px H Hy. cbn [tb2rad] in H. rewrite Hd in H. cbn [cast] in H. rewrite map_id in H.
  assert (Et : {| lut_tb := lut_tb t; lut_radiance := lut_radiance t |} = t) by now destruct t. rewrite Et in H.
  destruct (tb2radiance (nx_oob16 E) c (a_data a) (Some t) true) as [l|] eqn:El; [|discriminate]. cbn [bind] in H. injection H as <-.
  apply pix_nth in Px; [|lia]. destruct (lookup_pixels _ _ _ _ _ _ _ _ _ El Hy eq_refl k 0%nat x Px eq_refl) as [Q _].
  rewrite pix_item. apply tb2radiance_length in El. apply pix_nth; [cbn [a_data]; lia|]. cbn [a_data]. rewrite Q. reflexivity.
Qed.

Lemma temperature_order64 : forall lib (E : nir_env (B64N lib)) load platform instrument band det wavespace c norm t
    s sun nir therm lut st st1 r k s' sun' nir' therm' lut' st' st1' r' k' z tn tn' tt L T F S L' T' F' S' v v',
  monotone_exp (m_exp lib) -> accurate_exp (1 / 10 ^ 13) (m_exp lib) ->
  RadTbConverter load platform instrument band det wavespace (nlit (B64N lib) 1 10) = Ok (cl_conv c) -> make_tb2rad_lut (cl_conv c) norm = Ok t ->
  Forall (wave_like (String.eqb (cv_wavespace (cl_conv c)) WAVE_NUMBER)) (cv_waves (cl_conv c)) -> Sorted Rle (map to_R (cv_waves (cl_conv c))) ->
  Forall response_like (cv_response (cl_conv c)) -> double_between (1 / 10 ^ 12) (10 ^ 6) (cv_rsr_integral (cl_conv c)) ->
  table_of c lut = Some t -> table_of c lut' = Some t ->
  reflectance_from_tbs E c sun nir therm None lut st = (st1, Ok r) -> one_image s sun nir therm None lut -> floats nir therm ->
  reflectance_from_tbs E c sun' nir' therm' None lut' st' = (st1', Ok r') -> one_image s' sun' nir' therm' None lut' -> floats nir' therm' ->
  (k < size s)%nat -> pix k (get_as_array sun) = Some z -> pix k (get_as_array nir) = Some tn -> pix k (get_as_array therm) = Some tt ->
  (k' < size s')%nat -> pix k' (get_as_array sun') = Some z -> pix k' (get_as_array nir') = Some tn' -> pix k' (get_as_array therm') = Some tt ->
  attributes st1 k L T F S -> attributes st1' k' L' T' F' S' ->
  ordinary (cv_rsr_integral (cl_conv c)) L T F S -> ordinary (cv_rsr_integral (cl_conv c)) L' T' F' S' -> is_double z -> limit_like (cl_masking_limit c) ->
  double_between 0 (32767 / 10) tn -> double_between 0 (32767 / 10) tn' -> to_R tn <= to_R tn' ->
  pix k r = Some v -> v <> S754_nan -> pix k' r' = Some v' -> v' <> S754_nan -> to_R v <= to_R v'.
Proof.
  intros lib E load platform instrument band det wavespace c norm t s sun nir therm lut st st1 r k s' sun' nir' therm' lut' st' st1' r' k' z tn tn' tt L T F S L' T' F' S' v v'
    EX AC Hc Ht W SW RW HI Tl Tl' H Him Hf H' Him' Hf' Hk Pz Pn Pt Hk' Pz' Pn' Pt' Ha Ha' Ho Ho' Hz Hl Bn Bn' LT Pv Nv Pv' Nv'.
  destruct (lookup_monotone lib (nx_oob16 E) load platform instrument band det wavespace (cl_conv c) norm true t tn tn') as (y & y' & Y & Y' & LY); auto.
  { destruct HI as [D HI]. split; [exact D|]. lra. }
  { apply leb64; [apply Bn|apply Bn'|exact LT]. }
  destruct (reflectance_pixels _ _ _ _ _ _ _ _ _ _ _ H Him) as (rad11 & rad3x & solar & corr & E11 & E3 & Est & F11 & F3 & _ & _ & P).
  destruct (reflectance_pixels _ _ _ _ _ _ _ _ _ _ _ H' Him') as (rad11' & rad3x' & solar' & corr' & E11' & E3' & Est' & F11' & F3' & _ & _ & P').
  rewrite Tl in E11, E3. rewrite Tl' in E11', E3'.
  assert (KL : L = y /\ L' = y' /\ T' = T /\ F' = F /\ S' = S).
  { destruct (P k Hk) as (z0 & tn0 & L0 & T0 & F0 & Qz & Qn & QL & QT & QF & QS & QC & _).
    destruct (P' k' Hk') as (z0' & tn0' & L0' & T0' & F0' & Qz' & Qn' & QL' & QT' & QF' & QS' & QC' & _).
    destruct Ha as ((a & A1 & A2) & (b & B1 & B2) & C1 & (d & D1 & D2)). destruct Ha' as ((a' & A1' & A2') & (b' & B1' & B2') & C1' & (d' & D1' & D2')).
    subst st1 st1'. cbn [ns_rad3x ns_rad3x_t11 ns_correction ns_solar] in *.
    injection A1 as <-. injection B1 as <-. injection D1 as <-. injection A1' as <-. injection B1' as <-. injection D1' as <-.
    destruct Hf as [Fn Ft], Hf' as [Fn' Ft']. rewrite Fn in *. rewrite Fn' in *. cbn [cast factor_raw] in *.
    destruct Him as (In & It & _), Him' as (In' & It' & _).
    pose proof (radiance_of_pixel _ _ _ _ _ _ _ _ _ _ In Fn Hk Pn E3 Y) as R1.
    pose proof (radiance_of_pixel _ _ _ _ _ _ _ _ _ _ In' Fn' Hk' Pn' E3' Y') as R2.
    assert (R3 : pix k rad11 = pix k' rad11') by (eapply tb2rad_pixels with (a := get_as_array therm) (a' := get_as_array therm'); eauto; congruence).
    assert (z0 = z) as -> by congruence. assert (z0' = z) as -> by congruence.
    repeat split; congruence. }
  destruct KL as (-> & -> & -> & -> & ->).
  eapply (order64 lib E c s sun nir therm None lut st st1 r k z tn s' sun' nir' therm' None lut' st' st1' r' k' z tn' y y' T F S v v'); eauto.
  apply leb64 in LY; auto; [apply (proj1 (proj2 Ho))|apply (proj1 (proj2 Ho'))].
Qed.
