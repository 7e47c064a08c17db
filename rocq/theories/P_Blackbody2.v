(** Array-level and corner-case lemmas for blackbody.py. *)
From Coq Require Import Reals Lra ZArith String List Lia.
From Verif Require Import Base NumSig XR M_Blackbody S_Planck P_Blackbody.
Import ListNotations.
Open Scope R_scope.

Section AnyNum.
  Context {N : Num}.

  Lemma planck_rows (ws ts : list N) b :
    planck ws ts b = map (fun t => map (fun w => planck1 b w t) ws) ts.
  Proof.
    unfold planck. rewrite map_map. apply map_ext. intros t.
    induction ws as [|w ws IH]; simpl; auto. f_equal. apply IH.
  Qed.

  Lemma planck_single (w t : N) b : planck [w] [t] b = [[planck1 b w t]].
  Proof. reflexivity. Qed.

  Lemma concat_planck_one (w : N) ts b : concat (planck [w] ts b) = map (planck1 b w) ts.
  Proof. rewrite planck_rows. induction ts; simpl; auto. f_equal; auto. Qed.

  Lemma planck_entry (ws ts : list N) b i j w t :
    nth_error ws j = Some w -> nth_error ts i = Some t ->
    exists row, nth_error (planck ws ts b) i = Some row /\
                nth_error row j = Some (planck1 b w t).
  Proof.
    intros Hw Ht. rewrite planck_rows.
    exists (map (fun w => planck1 b w t) ws). split.
    - rewrite (map_nth_error _ _ _ Ht). reflexivity.
    - rewrite (map_nth_error _ _ _ Hw). reflexivity.
  Qed.

  Lemma planck_size (ws ts : list N) b :
    length (planck ws ts b) = length ts /\
    Forall (fun row => length row = length ws) (planck ws ts b).
  Proof.
    rewrite planck_rows. split; [now rewrite map_length|].
    apply Forall_forall. intros r Hr. apply in_map_iff in Hr as (t & <- & _). apply map_length.
  Qed.
End AnyNum.

Lemma map_planck1_wl l ts : 0 < l -> Forall (fun t => T_cut < t) ts ->
  map (@planck1 XRN true (Fin l)) (map Fin ts) = map Fin (map (B_lambda l) ts).
Proof.
  intros Hl HF. rewrite !map_map. apply map_ext_in. intros t Ht.
  rewrite Forall_forall in HF. apply planck1_wl; auto.
Qed.
Lemma map_planck1_wn l ts : 0 < l -> Forall (fun t => T_cut < t) ts ->
  map (@planck1 XRN false (Fin l)) (map Fin ts) = map Fin (map (B_nu l) ts).
Proof.
  intros Hl HF. rewrite !map_map. apply map_ext_in. intros t Ht.
  rewrite Forall_forall in HF. apply planck1_wn; auto.
Qed.

Lemma blackbody_col l ts : 0 < l -> Forall (fun t => T_cut < t) ts ->
  concat (@blackbody XRN [Fin l] (map Fin ts)) = map Fin (map (B_lambda l) ts).
Proof. intros. unfold blackbody. rewrite (@concat_planck_one XRN). now apply map_planck1_wl. Qed.
Lemma blackbody_wn_col l ts : 0 < l -> Forall (fun t => T_cut < t) ts ->
  concat (@blackbody_wn XRN [Fin l] (map Fin ts)) = map Fin (map (B_nu l) ts).
Proof. intros. unfold blackbody_wn. rewrite (@concat_planck_one XRN). now apply map_planck1_wn. Qed.

Lemma map_rad2temp l bs : 0 < l -> Forall (fun b => 0 < b) bs ->
  map (@rad2temp XRN (Fin l)) (map Fin bs) = map Fin (map (T_lambda l) bs).
Proof.
  intros Hl HF. rewrite !map_map. apply map_ext_in. intros b Hb.
  rewrite Forall_forall in HF. apply rad2temp_eq; auto.
Qed.
Lemma map_wn_rad2temp l bs : 0 < l -> Forall (fun b => 0 < b) bs ->
  map (@wn_rad2temp XRN (Fin l)) (map Fin bs) = map Fin (map (T_nu l) bs).
Proof.
  intros Hl HF. rewrite !map_map. apply map_ext_in. intros b Hb.
  rewrite Forall_forall in HF. apply wn_rad2temp_eq; auto.
Qed.

Lemma Forall_map_B (f : R -> R -> R) l ts :
  (forall t, 0 < t -> 0 < f l t) -> Forall (fun t => T_cut < t) ts ->
  Forall (fun b => 0 < b) (map (f l) ts).
Proof.
  intros Hf HF. apply Forall_forall. intros b Hb. apply in_map_iff in Hb as (t & <- & Ht).
  rewrite Forall_forall in HF. apply Hf. specialize (HF t Ht). pose proof T_cut_pos. lra.
Qed.

Lemma map_cancel {A B} (f : B -> A) (g : A -> B) l :
  (forall x, In x l -> f (g x) = x) -> map f (map g l) = l.
Proof. intros H. rewrite map_map. rewrite <- (map_id l) at 2. apply map_ext_in. auto. Qed.

Lemma wl_roundtrip l ts : 0 < l -> Forall (fun t => T_cut < t) ts ->
  @blackbody_rad2temp XRN [PyFloat (Fin l); NpArray (concat (@blackbody XRN [Fin l] (map Fin ts)))]
  = Ok (NpArray (map Fin ts)).
Proof.
  intros Hl HF. rewrite blackbody_col by auto.
  unfold blackbody_rad2temp, use_map_blocks_on. cbn [nth_error rad2temp_body arg_scalar bind].
  rewrite map_rad2temp by (auto using Forall_map_B, B_lambda_pos).
  rewrite map_cancel; auto. intros t Ht. rewrite Forall_forall in HF. apply T_of_B_lambda; auto.
  specialize (HF t Ht). pose proof T_cut_pos. lra.
Qed.

Lemma wl_roundtrip_rad l bs : 0 < l -> Forall (fun b => 0 < b) bs ->
  Forall (fun b => T_cut < T_lambda l b) bs ->
  exists ts, @blackbody_rad2temp XRN [PyFloat (Fin l); NpArray (map Fin bs)] = Ok (NpArray ts) /\
             concat (@blackbody XRN [Fin l] ts) = map Fin bs.
Proof.
  intros Hl HF HT.
  exists (map Fin (map (T_lambda l) bs)). split.
  - unfold blackbody_rad2temp, use_map_blocks_on. cbn [nth_error rad2temp_body arg_scalar bind].
    now rewrite map_rad2temp.
  - rewrite blackbody_col; auto.
    + rewrite map_cancel; auto.
      intros b Hb. rewrite Forall_forall in HF. apply B_of_T_lambda; auto.
    + apply Forall_forall. intros t Ht. apply in_map_iff in Ht as (b & <- & Hb).
      rewrite Forall_forall in HT. auto.
Qed.

Lemma wn_roundtrip l ts : 0 < l -> Forall (fun t => T_cut < t) ts ->
  @blackbody_wn_rad2temp XRN [PyFloat (Fin l); NpArray (concat (@blackbody_wn XRN [Fin l] (map Fin ts)))]
  = Ok (NpArray (map Fin ts)).
Proof.
  intros Hl HF. rewrite blackbody_wn_col by auto.
  unfold blackbody_wn_rad2temp, use_map_blocks_on. cbn [nth_error wn_rad2temp_body arg_scalar bind].
  rewrite map_wn_rad2temp by (auto using Forall_map_B, B_nu_pos).
  rewrite map_cancel; auto. intros t Ht. rewrite Forall_forall in HF. apply T_of_B_nu; auto.
  specialize (HF t Ht). pose proof T_cut_pos. lra.
Qed.

Lemma wn_roundtrip_rad l bs : 0 < l -> Forall (fun b => 0 < b) bs ->
  Forall (fun b => T_cut < T_nu l b) bs ->
  exists ts, @blackbody_wn_rad2temp XRN [PyFloat (Fin l); NpArray (map Fin bs)] = Ok (NpArray ts) /\
             concat (@blackbody_wn XRN [Fin l] ts) = map Fin bs.
Proof.
  intros Hl HF HT.
  exists (map Fin (map (T_nu l) bs)). split.
  - unfold blackbody_wn_rad2temp, use_map_blocks_on. cbn [nth_error wn_rad2temp_body arg_scalar bind].
    now rewrite map_wn_rad2temp.
  - rewrite blackbody_wn_col; auto.
    + rewrite map_cancel; auto.
      intros b Hb. rewrite Forall_forall in HF. apply B_of_T_nu; auto.
    + apply Forall_forall. intros t Ht. apply in_map_iff in Ht as (b & <- & Hb).
      rewrite Forall_forall in HT. auto.
Qed.

(** ** corner cases *)
Lemma planck1_nan_cut b w t : Rabs t <= T_cut -> @planck1 XRN b w (Fin t) = NaN.
Proof.
  intros H. unfold planck1. rewrite planck_arg2_nan by auto.
  assert (forall x, xmul x NaN = NaN) as E by (destruct x; auto).
  cbn [nmul nexp nsub ndiv XRN]. rewrite E. cbn [xexp xsub xadd].
  destruct (planck_nom b w); reflexivity.
Qed.
Lemma planck1_nan b w : @planck1 XRN b w NaN = NaN.
Proof.
  unfold planck1, planck_arg2.
  assert (forall x, xmul x NaN = NaN) as E by (destruct x; auto).
  replace (@nabs XRN NaN) with NaN by reflexivity.
  rewrite EPS_eq. cbn [nltb XRN xltb nnan nmul nexp nsub ndiv]. rewrite E. cbn [xexp xsub xadd].
  destruct (planck_nom b w); reflexivity.
Qed.

Lemma planck1_inf_wl l : 0 < l -> @planck1 XRN true (Fin l) PInf = PInf.
Proof.
  intros Hl. pose proof (pow5_pos l Hl). pose proof c2_pos. pose proof c1_pos.
  unfold planck1, planck_arg2, planck_nom, planck_arg1.
  replace (@nabs XRN PInf) with PInf by reflexivity.
  rewrite EPS_eq, C1_eq, C2_eq, npow_fin, nZ_fin. cbn [nltb xltb XRN ndiv nmul nexp nsub].
  rewrite !xdiv_fin by lra. cbn [xdiv xmul xexp xsub].
  rewrite Rmult_0_r, exp_0.
  destruct (Req_EM_T (1 - 1) 0); [|lra].
  unfold xinf_sign. assert (0 < c2 / l ^ 5) by (apply Rdiv_lt_0_compat; auto).
  destruct (Rlt_dec 0 (c2 / l ^ 5)); auto; lra.
Qed.

Lemma planck1_neg_wl l t : 0 < l -> t < - T_cut ->
  exists r, @planck1 XRN true (Fin l) (Fin t) = Fin r /\ r < 0.
Proof.
  intros Hl Ht. pose proof T_cut_pos. pose proof (pow5_pos l Hl). pose proof c1_pos. pose proof c2_pos.
  unfold planck1, planck_nom, planck_arg1.
  rewrite planck_arg2_ok by (rewrite Rabs_left; lra).
  rewrite C1_eq, C2_eq, npow_fin, nZ_fin. cbn [ndiv XRN nmul nexp nsub].
  rewrite !xdiv_fin by lra. cbn [xmul xexp xsub].
  assert (c1 / l * (1 / t) < 0).
  { assert (0 < c1 / l) by (apply Rdiv_lt_0_compat; lra).
    assert (1 / t < 0). { unfold Rdiv. rewrite Rmult_1_l. apply Rinv_lt_0_compat. lra. }
    rewrite <- (Rmult_0_r (c1 / l)). apply Rmult_lt_compat_l; auto. }
  assert (exp (c1 / l * (1 / t)) < exp 0) by now apply exp_increasing.
  rewrite exp_0 in *.
  rewrite xdiv_fin by lra. eexists; split; [reflexivity|].
  assert (0 < c2 / l ^ 5) by (apply Rdiv_lt_0_compat; lra).
  unfold Rdiv at 1. rewrite <- (Rmult_0_r (c2 / l ^ 5)). apply Rmult_lt_compat_l; auto.
  apply Rinv_lt_0_compat. lra.
Qed.

Lemma rad2temp_zero l : 0 < l -> @rad2temp XRN (Fin l) (Fin 0) = Fin 0.
Proof.
  intros Hl. pose proof c2_pos. unfold rad2temp.
  rewrite C1_eq, C2_eq, npow_fin, nZ_fin. cbn [nmul ndiv nadd nlog XRN xmul].
  rewrite Rmult_0_l. cbn [xdiv]. destruct (Req_EM_T 0 0); [|lra].
  unfold xinf_sign at 1. destruct (Rlt_dec 0 c2); [|lra]. cbn [xadd xlog xmul].
  unfold xinf_sign. destruct (Rlt_dec 0 l); [|lra]. reflexivity.
Qed.

Lemma rad2temp_neg_nan l b : 0 < l -> - (c2 / l ^ 5) < b < 0 -> @rad2temp XRN (Fin l) (Fin b) = NaN.
Proof.
  intros Hl [Hb1 Hb2]. pose proof c2_pos. pose proof (pow5_pos l Hl). unfold rad2temp.
  rewrite C1_eq, C2_eq, npow_fin, nZ_fin. cbn [nmul ndiv nadd nlog XRN xmul].
  assert (b * l ^ 5 < 0) by (rewrite <- (Rmult_0_l (l ^ 5)); apply Rmult_lt_compat_r; auto).
  rewrite xdiv_fin by lra. cbn [xadd].
  assert (c2 / (b * l ^ 5) + 1 < 0).
  { assert (- c2 < b * l ^ 5).
    { apply Rmult_lt_compat_r with (r := l ^ 5) in Hb1; auto.
      replace (- (c2 / l ^ 5) * l ^ 5) with (- c2) in Hb1 by (field; lra). exact Hb1. }
    assert (c2 / (b * l ^ 5) < -1); [|lra].
    apply Rmult_lt_reg_r with (r := - (b * l ^ 5)); [lra|].
    replace (c2 / (b * l ^ 5) * - (b * l ^ 5)) with (- c2) by (field; lra). lra. }
  unfold xlog. destruct (Rlt_dec 0 _); [lra|]. destruct (Rlt_dec _ 0); [|lra]. reflexivity.
Qed.

Lemma rad2temp_very_neg l b : 0 < l -> b < - (c2 / l ^ 5) ->
  exists t, @rad2temp XRN (Fin l) (Fin b) = Fin t /\ t < 0.
Proof.
  intros Hl Hb1. pose proof c2_pos. pose proof c1_pos. pose proof (pow5_pos l Hl). unfold rad2temp.
  rewrite C1_eq, C2_eq, npow_fin, nZ_fin. cbn [nmul ndiv nadd nlog XRN xmul].
  assert (0 < c2 / l ^ 5) by (apply Rdiv_lt_0_compat; auto).
  assert (b * l ^ 5 < 0) by (rewrite <- (Rmult_0_l (l ^ 5)); apply Rmult_lt_compat_r; auto; lra).
  rewrite xdiv_fin by lra. cbn [xadd].
  assert (Hlt : b * l ^ 5 < - c2).
  { apply Rmult_lt_compat_r with (r := l ^ 5) in Hb1; auto.
    replace (- (c2 / l ^ 5) * l ^ 5) with (- c2) in Hb1 by (field; lra). exact Hb1. }
  assert (-1 < c2 / (b * l ^ 5) < 0).
  { split; apply Rmult_lt_reg_r with (r := - (b * l ^ 5)); try lra;
      replace (c2 / (b * l ^ 5) * - (b * l ^ 5)) with (- c2) by (field; lra); lra. }
  rewrite xlog_pos by lra. cbn [xmul].
  assert (ln (c2 / (b * l ^ 5) + 1) < 0) by (rewrite <- ln_1 at 1; apply ln_increasing; lra).
  assert (l * ln (c2 / (b * l ^ 5) + 1) < 0)
    by (rewrite <- (Rmult_0_r l); apply Rmult_lt_compat_l; auto).
  rewrite xdiv_fin by lra. eexists; split; [reflexivity|].
  unfold Rdiv at 1. rewrite <- (Rmult_0_r c1). apply Rmult_lt_compat_l; auto.
  apply Rinv_lt_0_compat; auto.
Qed.

Lemma rad2temp_limit_neg l : 0 < l -> @rad2temp XRN (Fin l) (Fin (- (c2 / l ^ 5))) = Fin 0.
Proof.
  intros Hl. pose proof c2_pos. pose proof c1_pos. pose proof (pow5_pos l Hl). unfold rad2temp.
  rewrite C1_eq, C2_eq, npow_fin, nZ_fin. cbn [nmul ndiv nadd nlog XRN xmul].
  assert (0 < c2 / l ^ 5) by (apply Rdiv_lt_0_compat; auto).
  replace (- (c2 / l ^ 5) * l ^ 5) with (- c2) by (field; lra).
  rewrite xdiv_fin by lra. cbn [xadd]. replace (c2 / - c2 + 1) with 0 by (field; lra).
  unfold xlog. destruct (Rlt_dec 0 0); [lra|]. cbn [xmul].
  unfold xinf_sign. destruct (Rlt_dec 0 l); [|lra]. reflexivity.
Qed.

(** ** decorator *)
Lemma replace_nth_twice {A} i (x y : A) l : replace_nth i x (replace_nth i y l) = replace_nth i x l.
Proof. revert i; induction l; destruct i; simpl; auto. now rewrite IHl. Qed.
Lemma nth_error_replace {A} i (x : A) l : (i < length l)%nat -> nth_error (replace_nth i x l) i = Some x.
Proof. revert i; induction l; destruct i; simpl; intros; try lia; auto. apply IHl; lia. Qed.

Lemma map_blocks_elementwise {A} (f : list (arg A) -> res (arg A)) (g : A -> A) i args :
  (forall l, f (replace_nth i (NpArray l) args) = Ok (NpArray (map g l))) ->
  forall c, map_blocks f i c args = Ok (map (map g) c).
Proof.
  intros Hf c. unfold map_blocks. rewrite <- mapM_ok. induction c as [|h t IH]; simpl; auto.
  rewrite Hf. simpl. now rewrite IH.
Qed.

Lemma wn_rad2temp_zero n : 0 < n -> @wn_rad2temp XRN (Fin n) (Fin 0) = Fin 0.
Proof.
  intros Hl. pose proof c2_pos. unfold wn_rad2temp. pose proof (pow3_pos n Hl).
  assert (0 < c2 * n ^ 3) by (apply Rmult_lt_0_compat; auto).
  rewrite C1_eq, C2_eq, npow_fin, nZ_fin. cbn [nmul ndiv nadd nlog XRN xmul].
  unfold xdiv at 2. destruct (Req_EM_T 0 0); [|lra].
  unfold xinf_sign. destruct (Rlt_dec 0 (c2 * n ^ 3)); [|lra]. reflexivity.
Qed.
Lemma wn_python_zero : forall w : R, 0 < w ->
  @blackbody_wn_rad2temp XRN [PyFloat (Fin w); PyFloat (Fin 0)] = Err ZeroDivisionError /\
  @blackbody_wn_rad2temp XRN [NpScalar (Fin w); PyFloat (Fin 0)] = Ok (NpScalar (Fin 0)) /\
  @blackbody_wn_rad2temp XRN [PyFloat (Fin w); NpScalar (Fin 0)] = Ok (NpScalar (Fin 0)) /\
  (forall r, r <> 0 -> @blackbody_wn_rad2temp XRN [PyFloat (Fin w); PyFloat (Fin r)] =
                       @blackbody_wn_rad2temp XRN [PyFloat (Fin w); NpScalar (Fin r)]).
Proof.
  intros w Hw. unfold blackbody_wn_rad2temp, use_map_blocks_on. cbn [nth_error wn_rad2temp_body arg_scalar bind].
  rewrite !wn_rad2temp_zero by auto.
  assert (Z0 : (@n0 XRN) = Fin 0) by (unfold n0; apply nZ_fin).
  rewrite Z0. cbn [neqb XRN xeqb].
  unfold Reqb. destruct (Req_EM_T 0 0); [|lra]. do 3 (split; [reflexivity|]). intros r Hr.
  destruct (Req_EM_T r 0); [lra|]. reflexivity.
Qed.
