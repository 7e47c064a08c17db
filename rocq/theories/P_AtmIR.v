(** Lemmas for C66 and C67. *)
From Coq Require Import Reals Lra Lia ZArith String List Bool Arith.
From Verif Require Import Base NumSig XR M_AtmIR S_AtmIR.
Import ListNotations.
Local Open Scope R_scope.

Lemma lit_fin m d : nlit XRN m d = Fin (IZR m / IZR (Zpos d)). Proof. reflexivity. Qed.
Lemma nZ_fin z : @nZ XRN z = Fin (IZR z).
Proof. unfold nZ. rewrite lit_fin. f_equal. lra. Qed.
Lemma n0_f : @n0 XRN = Fin 0. Proof. unfold n0. rewrite lit_fin. f_equal. lra. Qed.
Lemma n1_f : @n1 XRN = Fin 1. Proof. unfold n1. rewrite lit_fin. f_equal. lra. Qed.

Lemma ratio_fin a b c : c - b <> 0 -> ratio (N := XRN) (Fin a) (Fin b) (Fin c) = Fin ((a - b) / (c - b)).
Proof. intros H. unfold ratio. cbn [nsub ndiv XRN xsub]. now rewrite xdiv_fin. Qed.

Lemma tau0_fin t : tau0 (N := XRN) (Fin t) = Fin (nadir_inc t).
Proof.
  unfold tau0, nadir_inc. rewrite !nZ_fin, n1_f, ratio_fin by lra. rewrite lit_fin. cbn [nadd nsub npowr XRN xadd xpowr].
  destruct (Rlt_dec 0 (1 + 985 / 100)) as [H|H]; [|lra]. cbn [xsub]. do 3 f_equal; lra.
Qed.

Lemma tau_fin t : tau (N := XRN) (Fin t) = Fin (((t - 170) / 125) ^ 4).
Proof.
  unfold tau. rewrite !nZ_fin, n1_f, ratio_fin by lra. cbn [npow nmul XRN xmul]. f_equal. field.
Qed.

Lemma delta_fin z : delta (N := XRN) (Fin z) = Fin (Rpower (72 / 10) (z / 70) - 1).
Proof.
  unfold delta. rewrite !nZ_fin, n1_f, n0_f, ratio_fin by lra. rewrite lit_fin. cbn [nadd nsub npowr XRN xadd xpowr].
  destruct (Rlt_dec 0 (1 + 62 / 10)) as [H|H]; [|lra]. cbn [xsub]. do 3 f_equal; lra.
Qed.

Lemma zone_exists z : exists k, in_zone z k.
Proof.
  destruct z as [r| | |].
  - destruct (Req_EM_T r 0) as [->|N]; [now exists Nadir|].
    destruct (Rlt_dec 0 r); [destruct (Rlt_dec r 90)|].
    + exists (Slant r). cbn. auto.
    + exists Outside. cbn. right; right; right. exists r. split; [reflexivity|lra].
    + exists Outside. cbn. right; right; right. exists r. split; [reflexivity|lra].
  - exists Outside. cbn. auto.
  - exists Outside. cbn. auto.
  - exists Outside. cbn. auto.
Qed.

Lemma zone_tests z k : in_zone z k ->
  (neqb XRN z (Fin 0)) = (match k with Nadir => true | _ => false end) /\
  (nltb XRN (Fin 0) z && nltb XRN z (Fin 90))%bool = (match k with Slant _ => true | _ => false end).
Proof.
  destruct k as [|r|]; cbn [in_zone].
  - intros ->. cbn. split; [now apply Reqb_iff|]. rewrite Rltb_false by lra. reflexivity.
  - intros [-> H]. cbn. split; [apply Reqb_false_iff; lra|]. rewrite !Rltb_true by lra. reflexivity.
  - intros [->|[->|[->|(r & -> & H)]]]; try (now split). cbn.
    split; [apply Reqb_false_iff; lra|]. destruct H.
    + now rewrite Rltb_false by lra.
    + rewrite (Rltb_false r) by lra. apply andb_false_r.
Qed.

Lemma dask_pixel_fin t z k : in_zone z k -> dask_pixel (N := XRN) (Fin t) z = Fin (corrected t k).
Proof.
  intros H. destruct (zone_tests z k H) as [E1 E2]. unfold dask_pixel. rewrite n0_f, nZ_fin, E1, E2.
  destruct k as [|r|]; cbn [corrected].
  - rewrite tau0_fin. reflexivity.
  - destruct H as [-> H]. rewrite tau_fin, delta_fin. reflexivity.
  - reflexivity.
Qed.

Lemma step_fin t m z k zm : in_zone z k ->
  step2 (N := XRN) (step1 (N := XRN) (Fin t, m) (z, zm)) (z, zm) = (if m || zm then (Fin t, m) else (Fin (corrected t k), false))%bool.
Proof.
  intros H. destruct (zone_tests z k H) as [E1 E2]. unfold step2, step1, at_nadir, off_nadir.
  cbn [fst snd]. rewrite n0_f, nZ_fin, E1, E2.
  destruct zm; [now rewrite orb_true_r|]. destruct m; cbn [negb andb orb].
  - destruct k; cbn [andb]; unfold masked_iadd; cbn [snd fst negb]; rewrite ?andb_false_r; reflexivity.
  - destruct k as [|r|]; cbn [andb].
    + unfold masked_iadd. cbn [snd fst]. rewrite tau0_fin. reflexivity.
    + destruct H as [-> H]. cbn [snd fst negb]. unfold masked_iadd. cbn [snd fst]. rewrite tau_fin, delta_fin. reflexivity.
    + reflexivity.
Qed.

(** ** one image *)
Lemma nth_combine {A B} : forall (a : list A) (b : list B) i x y, nth_error a i = Some x -> nth_error b i = Some y ->
  nth_error (combine a b) i = Some (x, y).
Proof.
  induction a as [|a0 a IH]; intros [|b0 b] [|i] x y Ha Hb; try discriminate.
  - injection Ha as ->. injection Hb as ->. reflexivity.
  - cbn. eapply IH; eauto.
Qed.
Lemma zipw_nth {A B C} (f : A -> B -> C) a b i x y : nth_error a i = Some x -> nth_error b i = Some y ->
  nth_error (zipw f a b) i = Some (f x y).
Proof. intros. unfold zipw. rewrite nth_error_map, (nth_combine _ _ _ x y); auto. Qed.
Lemma zipw_length {A B C} (f : A -> B -> C) a b : List.length a = List.length b -> List.length (zipw f a b) = List.length a.
Proof. intros. unfold zipw. rewrite map_length, combine_length, <- H. lia. Qed.

(** masked arrays *)
Lemma masked_image : forall h d z l zen,
  nth_error h d = Some (MaskedA l) -> nth_error h z = Some zen -> is_dask (N := XRN) zen = false ->
  List.length (zen_pixels zen) = List.length l ->
  exists out, get_correction (N := XRN) h z d = ((h ++ [MaskedA out])%list, Ok (MaskedA out)) /\
    List.length out = List.length l /\
    forall i t m za zm k, nth_error l i = Some (Fin t, m) -> nth_error (zen_pixels zen) i = Some (za, zm) -> in_zone za k ->
      nth_error out i = Some (if m || zm then (Fin t, m) else (Fin (corrected t k), false))%bool.
Proof.
  intros h d z l zen Hd Hz Hnd Hlen. unfold get_correction. rewrite Hd, Hz. unfold viewzen_corr. rewrite Hnd.
  cbn [is_dask orb]. eexists. split; [reflexivity|]. split.
  - rewrite !zipw_length; auto. rewrite zipw_length; auto.
  - intros i t m za zm k Hi Hzi Hk.
    rewrite (zipw_nth step2 _ _ i (step1 (Fin t, m) (za, zm)) (za, zm)); auto.
    + f_equal. now apply step_fin.
    + now apply zipw_nth.
Qed.

Lemma dask_image : forall h d z (a zen : arr XRN),
  nth_error h d = Some a -> nth_error h z = Some zen -> (is_dask a || is_dask zen)%bool = true ->
  List.length (values zen) = List.length (values a) ->
  exists out, get_correction (N := XRN) h z d = ((h ++ [a])%list, Ok (DaskA out)) /\
    List.length out = List.length (values a) /\
    forall i t za k, nth_error (values a) i = Some (Fin t) -> nth_error (values zen) i = Some za -> in_zone za k ->
      nth_error out i = Some (Fin (corrected t k)).
Proof.
  intros h d z a zen Hd Hz Hk Hlen. unfold get_correction. rewrite Hd, Hz. unfold viewzen_corr. rewrite Hk.
  eexists. split; [reflexivity|]. split.
  - now rewrite zipw_length.
  - intros i t za k Hi Hzi Hzone. rewrite (zipw_nth _ _ _ i (Fin t) za) by auto. f_equal. now apply dask_pixel_fin.
Qed.

(** ** shape of the correction *)
Lemma Rpower_ge1 b x : 1 <= b -> 0 <= x -> 1 <= Rpower b x.
Proof.
  intros Hb Hx. rewrite <- (Rpower_O b) by lra. destruct (Req_EM_T b 1) as [->|N].
  - unfold Rpower. rewrite ln_1, !Rmult_0_r. lra.
  - apply Rle_Rpower; lra.
Qed.

Lemma pow4_nonneg x : 0 <= x ^ 4.
Proof. replace (x ^ 4) with ((x * x) * (x * x)) by ring. apply Rle_0_sqr. Qed.

Lemma slant_monotone T z z' : 0 < z -> z <= z' -> T <= T + slant_inc T z <= T + slant_inc T z'.
Proof.
  intros H H'. unfold slant_inc. pose proof (pow4_nonneg ((T - 170) / 125)) as P.
  assert (1 <= Rpower (72/10) (z / 70)). { apply Rpower_ge1; lra. }
  assert (Rpower (72/10) (z / 70) <= Rpower (72/10) (z' / 70)) by (apply Rle_Rpower; lra).
  set (p := ((T - 170) / 125) ^ 4) in *.
  assert (0 <= p * (Rpower (72/10) (z / 70) - 1)) by (apply Rmult_le_pos; lra).
  assert (p * (Rpower (72/10) (z / 70) - 1) <= p * (Rpower (72/10) (z' / 70) - 1)) by (apply Rmult_le_compat_l; lra).
  lra.
Qed.

Lemma nadir_sign T : (210 < T -> 0 < nadir_inc T) /\ (T < 210 -> nadir_inc T < 0) /\ (T = 210 -> nadir_inc T = 0).
Proof.
  unfold nadir_inc. split; [|split]; intros H.
  - assert (Rpower (1085/100) 0 < Rpower (1085/100) ((T - 210) / 110)) by (apply Rpower_lt; lra).
    rewrite Rpower_O in H0 by lra. lra.
  - assert (Rpower (1085/100) ((T - 210) / 110) < Rpower (1085/100) 0) by (apply Rpower_lt; lra).
    rewrite Rpower_O in H0 by lra. lra.
  - subst. replace ((210 - 210) / 110) with 0 by field. rewrite Rpower_O by lra. ring.
Qed.

Lemma slant_limit T eps : 0 < eps -> exists d, 0 < d <= 90 /\ forall z, 0 < z < d -> 0 <= slant_inc T z < eps.
Proof.
  intros He. set (p := ((T - 170) / 125) ^ 4). pose proof (pow4_nonneg ((T - 170) / 125)) as P. fold p in P.
  set (L := ln (72/10)). assert (HL : 0 < L). { unfold L. rewrite <- ln_1. apply ln_increasing; lra. }
  set (d := 70 * ln (1 + eps / (p + 1)) / L).
  assert (Hq : 0 < eps / (p + 1)) by (apply Rdiv_lt_0_compat; lra).
  assert (Hln : 0 < ln (1 + eps / (p + 1))). { rewrite <- ln_1. apply ln_increasing; lra. }
  assert (Hd : 0 < d) by (unfold d; apply Rdiv_lt_0_compat; lra).
  exists (Rmin d 90). split; [split; [apply Rmin_glb_lt; lra|apply Rmin_r]|].
  intros z [Hz Hz2]. assert (Hzd : z < d) by (eapply Rlt_le_trans; [exact Hz2|apply Rmin_l]).
  unfold slant_inc. fold p. unfold Rpower. fold L.
  assert (Hexp : exp (z / 70 * L) < 1 + eps / (p + 1)).
  { rewrite <- (exp_ln (1 + eps / (p + 1))) by lra. apply exp_increasing.
    replace (ln (1 + eps / (p + 1))) with (d / 70 * L) by (unfold d; field; lra).
    apply Rmult_lt_compat_r; [exact HL|]. lra. }
  assert (Hexp1 : 1 <= exp (z / 70 * L)).
  { rewrite <- exp_0. destruct (Req_EM_T (z / 70 * L) 0) as [->|]; [lra|]. left. apply exp_increasing.
    apply Rmult_lt_0_compat; lra. }
  split; [apply Rmult_le_pos; lra|].
  apply Rle_lt_trans with (p * (eps / (p + 1))); [apply Rmult_le_compat_l; lra|].
  replace (p * (eps / (p + 1))) with (eps - eps / (p + 1)) by (field; lra). lra.
Qed.

(** ** the statements over the API *)
Lemma one_pixel : forall t z k, in_zone z k ->
  exists h, get_correction (N := XRN) [MaskedA [(Fin t, false)]; PlainA [z]] 1 0 = (h, Ok (MaskedA [(Fin (corrected t k), false)])).
Proof.
  intros t z k Hk.
  destruct (masked_image [MaskedA [(Fin t, false)]; PlainA [z]] 0 1 [(Fin t, false)] (PlainA [z]) eq_refl eq_refl eq_refl eq_refl)
    as (out & E & Hl & Hp).
  rewrite E. eexists. specialize (Hp 0%nat t false z false k eq_refl eq_refl Hk). cbn in Hp.
  destruct out as [|o [|]]; try discriminate. injection Hp as ->. reflexivity.
Qed.

Lemma never_lowers : forall t z z', 0 < z -> z <= z' -> z' < 90 ->
  t <= corrected t (Slant z) <= corrected t (Slant z').
Proof. intros. cbn [corrected]. now apply slant_monotone. Qed.

Lemma caller_untouched : forall h z d i (a : arr XRN), nth_error h i = Some a ->
  nth_error (fst (get_correction (N := XRN) h z d)) i = Some a.
Proof.
  intros h z d i a H. unfold get_correction. destruct (nth_error h d); [destruct (nth_error h z)|]; try exact H.
  destruct (viewzen_corr _ _). cbn [fst]. rewrite nth_error_app1; [exact H|]. apply nth_error_Some. congruence.
Qed.

Lemma plain_raises : forall h z d l (zen : arr XRN), nth_error h d = Some (PlainA l) -> nth_error h z = Some zen ->
  is_dask zen = false -> snd (get_correction (N := XRN) h z d) = Err AttributeError.
Proof.
  intros h z d l zen Hd Hz Hn. unfold get_correction. rewrite Hd, Hz. unfold viewzen_corr. cbn [is_dask orb].
  now rewrite Hn.
Qed.

Lemma nonfinite_masked : forall t z k, in_zone z k -> k <> Outside -> t = NaN \/ t = PInf ->
  exists h, get_correction (N := XRN) [MaskedA [(t, false)]; PlainA [z]] 1 0 = (h, Ok (MaskedA [(t, true)])).
Proof.
  intros t z k Hk Ho Ht. destruct (zone_tests z k Hk) as [E1 E2].
  unfold get_correction. cbn [nth_error]. unfold viewzen_corr. cbn [is_dask orb zen_pixels map zipw combine fst snd].
  unfold zipw. cbn [combine map fst snd]. unfold step2, step1, at_nadir, off_nadir. cbn [fst snd negb andb]. rewrite n0_f, nZ_fin, E1, E2.
  destruct k as [|r|]; [| |congruence].
  - unfold masked_iadd. cbn [snd fst].
    assert (E : (nisnan XRN (tau0 t) || nisinf XRN (tau0 t))%bool = true).
    { unfold tau0, ratio. rewrite !nZ_fin, n1_f, lit_fin. destruct Ht as [->| ->]; [reflexivity|].
      cbn [nsub ndiv nadd npowr XRN xsub xadd xneg xdiv]. destruct (Req_EM_T (320 - 210) 0); [lra|].
      unfold xinf_sign. destruct (Rlt_dec 0 (320 - 210)); [|lra]. cbn [xpowr].
      destruct (Rlt_dec 1 (1 + 985/100)); [|lra]. reflexivity. }
    rewrite E. eexists. cbn [snd negb andb]. reflexivity.
  - destruct Hk as [-> Hr]. unfold masked_iadd. cbn [snd fst negb andb].
    assert (E : (nisnan XRN (nmul XRN (tau t) (delta (N := XRN) (Fin r))) || nisinf XRN (nmul XRN (tau t) (delta (N := XRN) (Fin r))))%bool = true).
    { rewrite delta_fin. unfold tau, ratio. rewrite !nZ_fin, n1_f. destruct Ht as [->| ->]; [reflexivity|].
      cbn [nsub ndiv nadd npow nmul XRN xsub xadd xneg xdiv]. destruct (Req_EM_T (295 - 170) 0); [lra|].
      unfold xinf_sign. destruct (Rlt_dec 0 (295 - 170)); [|lra]. cbn [xmul]. unfold xinf_sign.
      destruct (Rlt_dec 0 1); [|lra]. cbn [xmul]. unfold xinf_sign.
      assert (0 < Rpower (72 / 10) (r / 70) - 1).
      { assert (Rpower (72/10) 0 < Rpower (72/10) (r / 70)) by (apply Rpower_lt; lra). rewrite Rpower_O in H by lra. lra. }
      destruct (Rlt_dec 0 (Rpower (72 / 10) (r / 70) - 1)); [reflexivity|lra]. }
    rewrite E. eexists. reflexivity.
Qed.

Lemma jump : forall T,
  (forall eps, 0 < eps -> exists d, 0 < d <= 90 /\ forall z, 0 < z < d -> T <= corrected T (Slant z) < T + eps) /\
  (210 < T -> T < corrected T Nadir) /\ (T < 210 -> corrected T Nadir < T).
Proof.
  intros T. split; [|split].
  - intros eps He. destruct (slant_limit T eps He) as (d & Hd & H). exists d. split; [exact Hd|].
    intros z Hz. specialize (H z Hz). cbn [corrected]. lra.
  - intros H. destruct (nadir_sign T) as (A & _). specialize (A H). cbn [corrected]. lra.
  - intros H. destruct (nadir_sign T) as (_ & A & _). specialize (A H). cbn [corrected]. lra.
Qed.

Lemma atmosphere_argument : forall kwargs,
  (In ("atmosphere"%string, true) kwargs -> NoDup (dkeys kwargs) -> AtmosphericalCorrection kwargs = Err AttributeError) /\
  (~ In ("atmosphere"%string, true) kwargs -> AtmosphericalCorrection kwargs = Ok tt).
Proof.
  intros kw. unfold AtmosphericalCorrection. split.
  - intros Hi Hn. now rewrite (dget_in_nodup _ _ _ Hn Hi).
  - intros Hn. destruct (dget _ kw) as [[|]|] eqn:E; auto. apply dget_Some_in in E. contradiction.
Qed.
