(** Lemmas about band radiances (C09-C12). *)
From Coq Require Import Reals Lra ZArith String List Lia Sorting.Sorted.
From Verif Require Import Base NumSig XR P_Trapz M_Tables M_Utils M_Rsr M_Blackbody M_RadTb
     S_Planck S_RadTb P_Blackbody P_Blackbody2.
Import ListNotations.
Open Scope R_scope.

Ltac inv_bind H :=
  match type of H with
  | bind ?e _ = Ok _ => let E := fresh "E" in let a := fresh "a" in
      destruct e as [a|?] eqn:E; [cbn [bind] in H | discriminate H]
  end.

Lemma constructor_integral load p i b det wsp tbr (c : converter XRN) :
  RadTbConverter load p i b det wsp tbr = Ok c ->
  trapezoid (cv_response c) (cv_waves c) = Ok (cv_rsr_integral c) /\
  cv_wavespace c = wsp /\ cv_tb_resolution c = tbr /\ cv_detector c = det /\
  (wsp = WAVE_LENGTH \/ wsp = WAVE_NUMBER) /\ cv_tb_scale c = ndiv XRN (nlit XRN 1 1) tbr.
Proof.
  unfold RadTbConverter. intros H.
  inv_bind H. inv_bind H. inv_bind H.
  inv_bind H. destruct a2 as [rsr [unit sc]]. 
  inv_bind H. destruct a2 as [bn bw].
  inv_bind H. inv_bind H. inv_bind H. inv_bind H. inv_bind H.
  injection H as <-. split; [exact E8|]. repeat split; auto.
  unfold check_wavespace in E. destruct (String.eqb_spec wsp WAVE_LENGTH); auto.
  destruct (String.eqb_spec wsp WAVE_NUMBER); auto. discriminate E.
Qed.

Lemma map_Fin_inj (a b : list R) : map Fin a = map Fin b -> a = b.
Proof.
  revert b; induction a as [|x a IH]; intros [|y b] H; try discriminate; auto.
  injection H as -> H. f_equal; auto.
Qed.

Lemma trapezoid_len ys xs r : @trapezoid XRN ys xs = Ok r -> length ys = length xs.
Proof. unfold trapezoid. destruct (Nat.eqb_spec (length ys) (length xs)); [auto|discriminate]. Qed.

Lemma integral_fin (c : converter XRN) ws rs :
  trapezoid (cv_response c) (cv_waves c) = Ok (cv_rsr_integral c) ->
  cv_waves c = map Fin ws -> cv_response c = map Fin rs ->
  length ws = length rs /\ cv_rsr_integral c = Fin (Rtrapz rs ws).
Proof.
  intros H Hw Hr. rewrite Hw, Hr in H. pose proof (trapezoid_len _ _ _ H) as HL.
  rewrite !map_length in HL. split; [auto|].
  rewrite trapezoid_fin in H by auto. now injection H as <-.
Qed.

Definition wn_of (wsp : string) : bool := String.eqb wsp WAVE_NUMBER.

Lemma planck_row wn ws t : Forall (fun w => 0 < w) ws -> T_cut < t ->
  map (fun w => @planck1 XRN (negb wn) w (Fin t)) (map Fin ws) = map Fin (map (fun w => Planck wn w t) ws).
Proof.
  intros Hw Ht. rewrite !map_map. apply map_ext_in. intros w Hin.
  rewrite Forall_forall in Hw. specialize (Hw w Hin).
  destruct wn; [now apply planck1_wn|now apply planck1_wl].
Qed.

Definition band_integral wn ws rs t : R := Rtrapz (Rvmul (map (fun w => Planck wn w t) ws) rs) ws.

Lemma match_ne {A B C} (l : list A) (m : list B) (e b : C) : l <> [] -> m <> [] ->
  match l, m with [], _ | _, [] => e | _, _ => b end = b.
Proof. destruct l, m; congruence. Qed.

Lemma planck_radiance_fin (c : converter XRN) ws rs K ts norm :
  cv_waves c = map Fin ws -> cv_response c = map Fin rs -> length ws = length rs -> ws <> [] ->
  cv_rsr_integral c = Fin K -> K <> 0 -> Forall (fun w => 0 < w) ws ->
  ts <> [] -> Forall (fun t => T_cut < t) ts ->
  planck_radiance c (map Fin ts) norm =
  Ok (map (fun t => Fin (if norm then band_integral (wn_of (cv_wavespace c)) ws rs t / K
                         else band_integral (wn_of (cv_wavespace c)) ws rs t)) ts).
Proof.
  intros Hw Hr HL Hne HK HK0 Hpos Hts Hcut.
  unfold planck_radiance. rewrite Hw, Hr, HK.
  rewrite match_ne by (intros E; apply map_eq_nil in E; auto).
  assert (Hb : @blackbody_function XRN (cv_wavespace c) (map Fin ws) (map Fin ts) =
               map (fun t => map Fin (map (fun w => Planck (wn_of (cv_wavespace c)) w t) ws)) ts).
  { unfold blackbody_function, wn_of, blackbody_wn, blackbody.
    destruct (String.eqb (cv_wavespace c) WAVE_NUMBER);
      rewrite (@planck_rows XRN), map_map; apply map_ext_in; intros t Hin;
      rewrite Forall_forall in Hcut; [apply (planck_row true)|apply (planck_row false)]; auto. }
  rewrite Hb. clear Hb. generalize (wn_of (cv_wavespace c)). intros wn.
  clear Hts. induction ts as [|t ts IH]; [reflexivity|]. cbn [map mapM].
  rewrite IH by (inversion Hcut; auto).
  rewrite (vmul_fin (map (fun w => Planck wn w t) ws) rs) by (rewrite map_length; auto).
  cbn [bind]. rewrite trapezoid_fin by (rewrite Rvmul_length; rewrite map_length; auto).
  cbn [bind]. unfold band_integral.
  destruct norm; [|reflexivity]. cbn [ndiv XRN]. now rewrite xdiv_fin.
Qed.

Lemma good_integral_pos ws rs : good_curve ws rs -> 0 < Rtrapz rs ws.
Proof.
  intros (H1 & H2 & H3 & _ & H5 & H6). apply Rtrapz_pos; auto. rewrite <- H1; auto.
Qed.

Lemma good_ne ws rs : good_curve ws rs -> ws <> [].
Proof. intros (_ & H & _) ->. simpl in H. lia. Qed.

Lemma Planck_pos wn w t : 0 < w -> 0 < t -> 0 < Planck wn w t.
Proof. destruct wn; [apply B_nu_pos|apply B_lambda_pos]. Qed.
Lemma Planck_incr wn w t t' : 0 < w -> 0 < t -> t < t' -> Planck wn w t < Planck wn w t'.
Proof. destruct wn; [apply B_nu_incr|apply B_lambda_incr]. Qed.

Lemma band_integral_bounds wn ws rs t m M :
  good_curve ws rs -> (forall w, In w ws -> m <= Planck wn w t <= M) ->
  m <= band_integral wn ws rs t / Rtrapz rs ws <= M.
Proof.
  intros Hg Hb. pose proof (good_integral_pos _ _ Hg) as HK.
  destruct Hg as (H1 & H2 & H3 & H4 & H5 & H6).
  assert (m * Rtrapz rs ws <= band_integral wn ws rs t <= M * Rtrapz rs ws) as [A B].
  { apply Rtrapz_weighted_bounds; auto.
    - now rewrite map_length.
    - now apply Sorted_Rlt_Rle.
    - apply Forall_forall. intros f Hf. apply in_map_iff in Hf as (w & <- & Hw). auto. }
  split.
  - apply Rmult_le_reg_r with (Rtrapz rs ws); auto. unfold Rdiv. rewrite Rmult_assoc, Rinv_l; lra.
  - apply Rmult_le_reg_r with (Rtrapz rs ws); auto. unfold Rdiv. rewrite Rmult_assoc, Rinv_l; lra.
Qed.

Lemma Rvmul_sub fs gs rs : length fs = length rs -> length gs = length rs ->
  map (fun p => fst p - snd p) (combine (Rvmul fs rs) (Rvmul gs rs)) =
  Rvmul (map (fun p => fst p - snd p) (combine fs gs)) rs.
Proof.
  revert gs rs; induction fs as [|f fs IH]; intros [|g gs] [|r rs] H1 H2; try discriminate; auto.
  rewrite !Rvmul_cons. cbn [combine map fst snd]. rewrite IH by (simpl in *; lia).
  rewrite Rvmul_cons. f_equal. ring.
Qed.

Lemma band_integral_incr wn ws rs t t' :
  good_curve ws rs -> 0 < t -> t < t' -> band_integral wn ws rs t < band_integral wn ws rs t'.
Proof.
  intros (H1 & H2 & H3 & H4 & H5 & H6) Ht Htt.
  set (f := map (fun w => Planck wn w t) ws). set (g := map (fun w => Planck wn w t') ws).
  assert (Lf : length f = length rs) by (unfold f; now rewrite map_length).
  assert (Lg : length g = length rs) by (unfold g; now rewrite map_length).
  enough (0 < Rtrapz (Rvmul g rs) ws - Rtrapz (Rvmul f rs) ws) by (unfold band_integral; fold f g; lra).
  rewrite <- Rtrapz_sub by (rewrite !Rvmul_length; auto; lia).
  rewrite Rvmul_sub by auto.
  assert (Hd : Forall (fun d => 0 < d) (map (fun p => fst p - snd p) (combine g f))).
  { unfold f, g. clear - H4 Ht Htt. induction ws as [|w ws IH]; simpl; constructor.
    - simpl. inversion H4; subst. pose proof (Planck_incr wn w t t'). lra.
    - apply IH. now inversion H4. }
  set (d := map (fun p => fst p - snd p) (combine g f)) in *.
  assert (Ld : length d = length rs) by (unfold d; rewrite map_length, combine_length; lia).
  apply Rtrapz_pos; auto.
  - rewrite Rvmul_length; lia.
  - rewrite Rvmul_length; lia.
  - clear - Hd H5 Ld. revert rs H5 Ld. induction Hd; intros [|r rs] H5 Ld; try discriminate; [constructor|].
    rewrite Rvmul_cons. inversion H5; subst. constructor; [apply Rmult_le_pos; lra|]. apply IHHd; auto.
  - clear - Hd H6 Ld. revert rs H6 Ld. induction Hd; intros [|r rs] H6 Ld; try discriminate; [inversion H6|].
    rewrite Rvmul_cons. inversion H6; subst.
    + left. now apply Rmult_lt_0_compat.
    + right. apply IHHd; auto.
Qed.

Lemma band_integral_scale wn k ws rs t :
  band_integral wn ws (map (Rmult k) rs) t = k * band_integral wn ws rs t.
Proof. unfold band_integral. now rewrite Rvmul_scale_r, Rtrapz_scale. Qed.
Lemma band_integral_rev wn ws rs t : length ws = length rs ->
  band_integral wn (rev ws) (rev rs) t = - band_integral wn ws rs t.
Proof.
  intros H. unfold band_integral. rewrite map_rev, Rvmul_rev by (now rewrite map_length).
  apply Rtrapz_rev. rewrite Rvmul_length; rewrite map_length; auto.
Qed.

(** ** LUT *)
Lemma mapM_Forall2 {A B} (f : A -> res B) l r : mapM f l = Ok r -> Forall2 (fun a b => f a = Ok b) l r.
Proof.
  revert r; induction l as [|a l IH]; simpl; intros r H.
  - injection H as <-. constructor.
  - destruct (f a) eqn:E; simpl in H; [|discriminate].
    destruct (mapM f l) eqn:E2; simpl in H; [|discriminate]. injection H as <-. constructor; auto.
Qed.

Lemma mapM_total {A B} (f : A -> res B) l : (forall a, In a l -> exists b, f a = Ok b) ->
  exists r, mapM f l = Ok r.
Proof.
  induction l as [|a l IH]; simpl; intros H; [eauto|].
  destruct (H a) as [b Eb]; auto. rewrite Eb. simpl.
  destruct IH as [r Er]; [intros; apply H; auto|]. rewrite Er. simpl. eauto.
Qed.

Lemma clipZ_range z lo hi : (lo <= hi)%Z -> (lo <= clipZ z lo hi <= hi)%Z.
Proof. unfold clipZ. lia. Qed.

Lemma lut_total (N : Num) oob (scale : N) (lut : tblut N) tbs start :
  lut_start lut scale = Ok start -> lut_radiance lut <> [] ->
  (Z.of_nat (length (lut_radiance lut)) <= 32768)%Z ->
  exists rs, lut_lookup oob scale lut tbs = Ok rs /\ length rs = length tbs /\
             Forall (fun r => In r (lut_radiance lut)) rs.
Proof.
  intros Hs Hne Hlen. unfold lut_lookup. rewrite Hs. cbn [bind].
  set (n := Z.of_nat (length (lut_radiance lut))) in *.
  assert (0 < n)%Z by (unfold n; destruct (lut_radiance lut); [congruence|simpl; lia]).
  assert ((n - 1 >? 32767)%Z = false) as -> by (rewrite Z.gtb_ltb; apply Z.ltb_ge; lia).
  match goal with |- context [mapM ?f tbs] => set (F := f) end.
  assert (HF : forall t, exists r, F t = Ok r /\ In r (lut_radiance lut)).
  { intros t. unfold F. pose proof (clipZ_range (wrap16 (cast_int16 oob (nmul N t scale) - start)) 0 (n - 1)).
    unfold lut_index. set (i := clipZ _ _ _) in *.
    assert ((i <? 0)%Z = false) as -> by (apply Z.ltb_ge; lia).
    unfold idx. destruct (nth_error (lut_radiance lut) (Z.to_nat i)) eqn:E.
    - eexists; split; [reflexivity|]. eapply nth_error_In; eauto.
    - apply nth_error_None in E. unfold n in *. lia. }
  destruct (mapM_total F tbs) as [r Er]; [intros a _; destruct (HF a) as (x & ? & _); eauto|].
  exists r. split; auto. split; [eapply mapM_length; eauto|].
  apply mapM_Forall2 in Er. clear - Er HF. induction Er; constructor; auto.
  destruct (HF x) as (z & Hz & Hin). congruence.
Qed.

(** exact arithmetic, default resolution *)
Lemma Rtrunc_nonneg r z : 0 <= r -> IZR z <= r < IZR z + 1 -> Rtrunc r = z.
Proof.
  intros H0 H. unfold Rtrunc. destruct (Rlt_dec r 0); [lra|]. now apply Int_part_unique.
Qed.

Lemma nlit_fin m d : nlit XRN m d = Fin (IZR m / IZR (Zpos d)).
Proof. reflexivity. Qed.

Lemma arange_default : @arange XRN TB_MIN TB_MAX (Fin (1/10)) =
  map Fin (map (fun i => 150 + INR i / 10) (seq 0 2100)).
Proof.
  unfold arange, TB_MIN, TB_MAX, nceil. rewrite !nlit_fin. cbn [nsub XRN xsub ndiv].
  rewrite xdiv_fin by lra. cbn [ntrunc XRN xtrunc].
  rewrite (Rtrunc_nonneg _ 2100) by lra. rewrite nZ_fin. cbn [nltb XRN xltb].
  rewrite Rltb_false by lra. change (Z.to_nat 2100) with 2100%nat.
  rewrite map_map. apply map_ext. intros i. rewrite nZ_fin, <- INR_IZR_INZ.
  cbn [nadd nmul nsub XRN xadd xmul xsub]. f_equal. lra.
Qed.

Lemma wrap16_id z : in_int16 z = true -> wrap16 z = z.
Proof.
  unfold in_int16, wrap16. rewrite Bool.andb_true_iff, !Z.leb_le. intros H.
  rewrite Z.mod_small; lia.
Qed.

Lemma lut_start_default (lut : tblut XRN) rest : lut_tb lut = Fin 150 :: rest ->
  lut_start lut (Fin 10) = Ok 1500%Z.
Proof.
  intros H. unfold lut_start. rewrite H. cbn [hd_error of_option bind nmul XRN xmul ntrunc xtrunc].
  rewrite (Rtrunc_nonneg _ 1500) by lra. reflexivity.
Qed.

Lemma lut_index_exact oob t : 0 <= t <= 32767 / 10 ->
  @lut_index XRN oob (Fin 10) 1500 2099 (Fin t) = clipZ (Int_part (10 * t) - 1500) 0 2099.
Proof.
  intros Ht. unfold lut_index, cast_int16. cbn [nmul XRN xmul ntrunc xtrunc].
  pose proof (Rfloor_bounds (10 * t)) as Hb.
  replace (t * 10) with (10 * t) by ring.
  rewrite (Rtrunc_nonneg _ (Int_part (10 * t))) by lra.
  set (z := Int_part (10 * t)) in *.
  assert (0 <= z <= 32767)%Z.
  { split.
    - assert (-1 < z)%Z; [|lia]. apply lt_IZR. lra.
    - assert (z < 32768)%Z; [|lia]. apply lt_IZR. lra. }
  assert (in_int16 z = true) as ->.
  { unfold in_int16. rewrite Bool.andb_true_iff, !Z.leb_le. lia. }
  f_equal. apply wrap16_id. unfold in_int16. rewrite Bool.andb_true_iff, !Z.leb_le. lia.
Qed.

Lemma lut_lookup_exact oob (lut : tblut XRN) rest t :
  lut_tb lut = Fin 150 :: rest -> length (lut_radiance lut) = 2100%nat ->
  0 <= t <= 32767 / 10 ->
  exists r, @lut_lookup XRN oob (Fin 10) lut [Fin t] = Ok [r] /\
     nth_error (lut_radiance lut) (Z.to_nat (clipZ (Int_part (10 * t) - 1500) 0 2099)) = Some r.
Proof.
  intros H1 H2 Ht. unfold lut_lookup. rewrite (lut_start_default _ _ H1). cbn [bind].
  rewrite H2. change (Z.of_nat 2100 - 1)%Z with 2099%Z. cbn [Z.gtb Z.compare].
  change (2099 >? 32767)%Z with false. cbv iota.
  unfold mapM. rewrite lut_index_exact by auto.
  pose proof (clipZ_range (Int_part (10 * t) - 1500) 0 2099 ltac:(lia)).
  set (i := clipZ _ _ _) in *.
  assert ((i <? 0)%Z = false) as -> by (apply Z.ltb_ge; lia).
  unfold idx. destruct (nth_error (lut_radiance lut) (Z.to_nat i)) eqn:E.
  - cbn. eauto.
  - apply nth_error_None in E. lia.
Qed.
