(** Proofs of the statements in T_RadTb. *)
From Coq Require Import Reals Lra ZArith String List Lia Sorting.Sorted.
From Verif Require Import Base NumSig XR P_Trapz M_Tables M_Utils M_Rsr M_Blackbody M_RadTb
     S_Planck S_RadTb S_Rsr P_Blackbody P_Blackbody2 P_RadTb P_Rsr P_RadTb2 Samples.
Import ListNotations.
Open Scope R_scope.

Lemma band_mean :
  forall load platform instrument band det wavespace tbr (c : converter XRN) ws rs oob ts,
  RadTbConverter load platform instrument band det wavespace tbr = Ok c ->
  cv_waves c = map Fin ws -> cv_response c = map Fin rs -> good_curve ws rs ->
  ts <> [] -> Forall (fun t => T_cut < t) ts ->
  exists ns ints,
    tb2radiance oob c (map Fin ts) None true = Ok (map Fin ns) /\
    tb2radiance oob c (map Fin ts) None false = Ok (map Fin ints) /\
    ints = map (fun n => n * Rtrapz rs ws) ns /\
    Forall2 (fun t n => forall m M,
               (forall w, In w ws -> m <= Planck (String.eqb wavespace WAVE_NUMBER) w t <= M) ->
               m <= n <= M) ts ns.
Proof.
  intros load p i b det wsp tbr c ws rs oob ts Hc Hw Hr Hg Hne Hcut.
  destruct (constructor_integral _ _ _ _ _ _ _ _ Hc) as (HI & Hws & _).
  destruct (integral_fin _ _ _ HI Hw Hr) as (HL & HK).
  pose proof (good_integral_pos _ _ Hg) as HKpos.
  pose proof Hg as (_ & _ & _ & Hp & _).
  exists (map (fun t => band_integral (wn_of wsp) ws rs t / Rtrapz rs ws) ts),
         (map (fun t => band_integral (wn_of wsp) ws rs t) ts).
  unfold tb2radiance.
  rewrite !(planck_radiance_fin c ws rs (Rtrapz rs ws)) by (first [assumption | lra | eapply good_ne; eassumption]).
  rewrite Hws, !map_map. split; [reflexivity|]. split; [reflexivity|]. split.
  - apply map_ext. intros t. field. lra.
  - clear - Hg. induction ts; constructor; auto.
    intros m M Hb. apply band_integral_bounds; auto.
Qed.

Lemma band_mean_case :
  exists c n200 n300 M, RadTbConverter sample_load "NOAA-19" "avhrr-3" (BStr "4"%string) "det-1"
                 WAVE_LENGTH (Fin (1/10)) = Ok c /\
    tb2radiance (fun _ => 0%Z) c [Fin 200; Fin 300] None true = Ok [Fin n200; Fin n300] /\
    0 < n200 /\ n300 <= M /\ M = Rmax (B_lambda (10/1000000) 300) (Rmax (B_lambda (11/1000000) 300)
                                    (B_lambda (12/1000000) 300)).
Proof.
  destruct (sample_converter (1/10)) as (c & Hc & Hw & Hr); [lra|].
  destruct (band_mean _ _ _ _ _ _ _ _ _ _ (fun _ => 0%Z) [200; 300] Hc Hw Hr good_sample)
    as (ns & ints & H1 & _ & _ & H4); [discriminate|repeat constructor; unfold T_cut; lra|].
  inversion H4 as [|? n200 ? ? A B]; subst. inversion B as [|? n300 ? ? C D]; subst. inversion D; subst.
  exists c, n200, n300. eexists. split; [exact Hc|]. split; [exact H1|]. split; [|split; [|reflexivity]].
  - set (m := Rmin (B_lambda (10/1000000) 200) (Rmin (B_lambda (11/1000000) 200) (B_lambda (12/1000000) 200))).
    set (M := Rmax (B_lambda (10/1000000) 200) (Rmax (B_lambda (11/1000000) 200) (B_lambda (12/1000000) 200))).
    assert (0 < m).
    { unfold m. repeat apply Rmin_glb_lt; apply B_lambda_pos; lra. }
    assert (m <= n200 <= M); [|lra]. apply A. unfold m, M, Planck, ws_sample. simpl String.eqb. cbv iota.
    intros w [<-|[<-|[<-|[]]]]; unfold Rmin, Rmax; repeat destruct (Rle_dec _ _); lra.
  - apply (C (Rmin (B_lambda (10/1000000) 300) (Rmin (B_lambda (11/1000000) 300) (B_lambda (12/1000000) 300)))).
    unfold Planck, ws_sample. simpl String.eqb. cbv iota.
    intros w [<-|[<-|[<-|[]]]]; unfold Rmin, Rmax; repeat destruct (Rle_dec _ _); lra.
Qed.

Lemma band_incr :
  forall load platform instrument band det wavespace tbr (c : converter XRN) ws rs oob t t' norm,
  RadTbConverter load platform instrument band det wavespace tbr = Ok c ->
  cv_waves c = map Fin ws -> cv_response c = map Fin rs -> good_curve ws rs ->
  T_cut < t -> t < t' ->
  exists r r', tb2radiance oob c [Fin t; Fin t'] None norm = Ok [Fin r; Fin r'] /\ 0 < r < r'.
Proof.
  intros load p i b det wsp tbr c ws rs oob t t' norm Hc Hw Hr Hg Ht Htt.
  destruct (constructor_integral _ _ _ _ _ _ _ _ Hc) as (HI & Hws & _).
  destruct (integral_fin _ _ _ HI Hw Hr) as (HL & HK).
  pose proof (good_integral_pos _ _ Hg) as HKpos. pose proof T_cut_pos.
  pose proof Hg as (_ & _ & _ & Hp & _).
  assert (E := planck_radiance_fin c ws rs (Rtrapz rs ws) [t; t'] norm Hw Hr HL (good_ne _ _ Hg) HK
                 ltac:(lra) Hp ltac:(discriminate) ltac:(repeat constructor; lra)).
  cbn [map] in E. unfold tb2radiance. do 2 eexists. split; [exact E|].
  rewrite Hws.
  assert (P : 0 < band_integral (wn_of wsp) ws rs t).
  { pose proof (band_integral_bounds (wn_of wsp) ws rs t
      (fold_right Rmin (Planck (wn_of wsp) (hd 0 ws) t) (map (fun w => Planck (wn_of wsp) w t) ws))
      (fold_right Rmax (Planck (wn_of wsp) (hd 0 ws) t) (map (fun w => Planck (wn_of wsp) w t) ws)) Hg) as Hb.
    set (m := fold_right Rmin _ _) in *. set (M := fold_right Rmax _ _) in *.
    assert (Hin : forall l d x, In x l -> fold_right Rmin d l <= x <= fold_right Rmax d l).
    { clear. induction l as [|a l IH]; simpl; intros d x Hin; [tauto|].
      destruct Hin as [->|Hin].
      - split; [apply Rmin_l|apply Rmax_l].
      - destruct (IH d x Hin). split; [eapply Rle_trans; [apply Rmin_r|]; auto|
                                       eapply Rle_trans; [|apply Rmax_r]; auto]. }
    assert (Hm : 0 < m).
    { unfold m. assert (Hd : 0 < Planck (wn_of wsp) (hd 0 ws) t).
      { destruct ws; [exfalso; apply (good_ne _ _ Hg); auto|]. inversion Hp; subst. apply Planck_pos; auto. simpl. lra. }
      revert Hd. generalize (Planck (wn_of wsp) (hd 0 ws) t). intros d Hd.
      clear - Hp Hd Ht H. induction Hp; simpl; auto. apply Rmin_glb_lt; auto. apply Planck_pos; lra. }
    assert (m <= band_integral (wn_of wsp) ws rs t / Rtrapz rs ws).
    { apply Hb. intros w Hwin. apply Hin. apply in_map_iff. eauto. }
    assert (0 < band_integral (wn_of wsp) ws rs t / Rtrapz rs ws) by lra.
    replace (band_integral (wn_of wsp) ws rs t)
      with (band_integral (wn_of wsp) ws rs t / Rtrapz rs ws * Rtrapz rs ws) by (field; lra).
    now apply Rmult_lt_0_compat. }
  pose proof (band_integral_incr (wn_of wsp) ws rs t t' Hg ltac:(lra) Htt).
  destruct norm; [|lra]. split.
  - now apply Rdiv_lt_0_compat.
  - apply Rmult_lt_compat_r; auto. now apply Rinv_0_lt_compat.
Qed.

Lemma band_scale :
  forall load1 load2 p1 p2 i1 i2 b1 b2 d1 d2 wavespace tbr1 tbr2 (c1 c2 : converter XRN) ws rs k oob ts,
  RadTbConverter load1 p1 i1 b1 d1 wavespace tbr1 = Ok c1 ->
  RadTbConverter load2 p2 i2 b2 d2 wavespace tbr2 = Ok c2 ->
  cv_waves c1 = map Fin ws -> cv_response c1 = map Fin rs ->
  cv_waves c2 = map Fin ws -> cv_response c2 = map Fin (map (Rmult k) rs) ->
  k <> 0 -> Rtrapz rs ws <> 0 -> ws <> [] -> Forall (fun w => 0 < w) ws ->
  ts <> [] -> Forall (fun t => T_cut < t) ts ->
  tb2radiance oob c2 (map Fin ts) None true = tb2radiance oob c1 (map Fin ts) None true /\
  exists is1, tb2radiance oob c1 (map Fin ts) None false = Ok (map Fin is1) /\
              tb2radiance oob c2 (map Fin ts) None false = Ok (map Fin (map (Rmult k) is1)).
Proof.
  intros until ts. intros H1 H2 Hw1 Hr1 Hw2 Hr2 Hk HI0 Hne Hp Hts Hcut.
  destruct (constructor_integral _ _ _ _ _ _ _ _ H1) as (HI1 & Hws1 & _).
  destruct (constructor_integral _ _ _ _ _ _ _ _ H2) as (HI2 & Hws2 & _).
  destruct (integral_fin _ _ _ HI1 Hw1 Hr1) as (HL1 & HK1).
  destruct (integral_fin _ _ _ HI2 Hw2 Hr2) as (HL2 & HK2).
  rewrite Rtrapz_scale in HK2.
  assert (k * Rtrapz rs ws <> 0) by (apply Rmult_integral_contrapositive_currified; auto).
  unfold tb2radiance.
  rewrite !(planck_radiance_fin c1 ws rs (Rtrapz rs ws)) by auto.
  rewrite !(planck_radiance_fin c2 ws (map (Rmult k) rs) (k * Rtrapz rs ws)) by auto.
  rewrite Hws1, Hws2. split.
  - f_equal. apply map_ext. intros t. rewrite band_integral_scale. f_equal. field. auto.
  - exists (map (band_integral (wn_of wavespace) ws rs) ts). rewrite !map_map. split; [reflexivity|].
    f_equal. apply map_ext. intros t. now rewrite band_integral_scale.
Qed.

Lemma band_reversed :
  forall load1 load2 p1 p2 i1 i2 b1 b2 d1 d2 wavespace tbr1 tbr2 (c1 c2 : converter XRN) ws rs oob ts,
  RadTbConverter load1 p1 i1 b1 d1 wavespace tbr1 = Ok c1 ->
  RadTbConverter load2 p2 i2 b2 d2 wavespace tbr2 = Ok c2 ->
  cv_waves c1 = map Fin ws -> cv_response c1 = map Fin rs ->
  cv_waves c2 = map Fin (rev ws) -> cv_response c2 = map Fin (rev rs) ->
  Rtrapz rs ws <> 0 -> ws <> [] -> Forall (fun w => 0 < w) ws ->
  ts <> [] -> Forall (fun t => T_cut < t) ts ->
  exists ns, tb2radiance oob c1 (map Fin ts) None true = Ok (map Fin ns) /\
             tb2radiance oob c2 (map Fin ts) None true = Ok (map Fin ns).
Proof.
  intros until ts. intros H1 H2 Hw1 Hr1 Hw2 Hr2 HI0 Hne Hp Hts Hcut.
  destruct (constructor_integral _ _ _ _ _ _ _ _ H1) as (HI1 & Hws1 & _).
  destruct (constructor_integral _ _ _ _ _ _ _ _ H2) as (HI2 & Hws2 & _).
  destruct (integral_fin _ _ _ HI1 Hw1 Hr1) as (HL1 & HK1).
  destruct (integral_fin _ _ _ HI2 Hw2 Hr2) as (HL2 & HK2).
  rewrite Rtrapz_rev in HK2 by auto.
  exists (map (fun t => band_integral (wn_of wavespace) ws rs t / Rtrapz rs ws) ts).
  unfold tb2radiance.
  rewrite (planck_radiance_fin c1 ws rs (Rtrapz rs ws)) by auto.
  rewrite (planck_radiance_fin c2 (rev ws) (rev rs) (- Rtrapz rs ws)).
  - rewrite Hws1, Hws2, map_map. split; [reflexivity|]. f_equal. apply map_ext. intros t.
    rewrite band_integral_rev by auto. f_equal. field. auto.
  - auto.
  - auto.
  - auto.
  - intros E. apply (f_equal (@rev R)) in E. rewrite rev_involutive in E. auto.
  - auto.
  - lra.
  - now apply Forall_rev.
  - auto.
  - auto.
Qed.

Lemma one_band_converter (w r : list R) tbr : tbr <> 0 -> length w = length r ->
  exists c, RadTbConverter (one_band_load (map Fin w) (map Fin r)) "" ""
     (BStr "b"%string) "det-1" WAVE_LENGTH (Fin tbr) = Ok c /\
    cv_waves c = map Fin (map (fun x => x * (1 / 1000000)) w) /\ cv_response c = map Fin r.
Proof.
  intros H HL. unfold RadTbConverter. change (check_wavespace WAVE_LENGTH) with (Ok tt). cbn [bind].
  rewrite n0_fin. cbn [neqb XRN xeqb]. replace (Reqb tbr 0) with false
    by (symmetry; apply Reqb_false_iff; auto).
  cbn -[trapezoid Rdiv IZR map].
  assert (Hm : map (fun x : XR => xmul x (xlit 1 1000000)) (map Fin w)
               = map Fin (map (fun x => x * (1 / 1000000)) w)).
  { rewrite !map_map. reflexivity. }
  rewrite Hm. rewrite trapezoid_fin by (rewrite map_length; auto).
  cbn [bind]. eexists. split; [reflexivity|]. split; reflexivity.
Qed.

Lemma band_scale_case :
  (exists c1 c2, RadTbConverter sample_load "NOAA-19" "avhrr-3" (BStr "4"%string) "det-1" WAVE_LENGTH (Fin (1/10)) = Ok c1 /\
     RadTbConverter (one_band_load [Fin 10; Fin 11; Fin 12] [Fin (4/10); Fin 2; Fin (6/10)]) "" ""
                    (BStr "b"%string) "det-1" WAVE_LENGTH (Fin (1/10)) = Ok c2 /\
     cv_waves c2 = map Fin ws_sample /\ cv_response c2 = map Fin (map (Rmult 2) rs_sample)) /\
  (exists c3, RadTbConverter (one_band_load [Fin 12; Fin 11; Fin 10] [Fin (3/10); Fin 1; Fin (2/10)]) "" ""
                    (BStr "b"%string) "det-1" WAVE_LENGTH (Fin (1/10)) = Ok c3 /\
     cv_waves c3 = map Fin (rev ws_sample) /\ cv_response c3 = map Fin (rev rs_sample)) /\
  Rtrapz rs_sample ws_sample <> 0.
Proof.
  split; [|split].
  - destruct (sample_converter (1/10)) as (c & Hc & Hw & Hr); [lra|].
    destruct (one_band_converter [10; 11; 12] [4/10; 2; 6/10] (1/10)) as (c2 & H1 & H2 & H3); [lra|auto|].
    exists c, c2. split; [exact Hc|]. split; [exact H1|]. rewrite H2, H3. unfold ws_sample, rs_sample. simpl.
    split; repeat (f_equal; try lra).
  - destruct (one_band_converter [12; 11; 10] [3/10; 1; 2/10] (1/10)) as (c2 & H1 & H2 & H3); [lra|auto|].
    exists c2. split; [exact H1|]. rewrite H2, H3. unfold ws_sample, rs_sample. simpl.
    split; repeat (f_equal; try lra).
  - apply Rgt_not_eq, good_integral_pos, good_sample.
Qed.

Lemma lut_in_table :
  forall (N : Num) oob (c : converter N) (lut : tblut N) tbs norm t0 s,
  hd_error (lut_tb lut) = Some t0 -> ntrunc N (nmul N t0 (cv_tb_scale c)) = Some s ->
  (-32768 <= s <= 32767)%Z ->
  (1 <= length (lut_radiance lut))%nat -> (Z.of_nat (length (lut_radiance lut)) <= 32768)%Z ->
  exists rs, tb2radiance oob c tbs (Some lut) norm = Ok rs /\ length rs = length tbs /\
             Forall (fun r => In r (lut_radiance lut)) rs.
Proof.
  intros N oob c lut tbs norm t0 s H1 H2 H3 H4 H5. unfold tb2radiance.
  apply lut_total with (start := s); auto.
  - unfold lut_start. rewrite H1. cbn [of_option bind]. rewrite H2. cbn [of_option bind].
    unfold in_int16. assert ((-32768 <=? s)%Z = true) as -> by (apply Z.leb_le; lia).
    assert ((s <=? 32767)%Z = true) as -> by (apply Z.leb_le; lia). reflexivity.
  - intros E. rewrite E in H4. simpl in H4. lia.
Qed.

Lemma lut_accuracy :
  forall oob load platform instrument band det wavespace (c : converter XRN) norm norm' lut t,
  RadTbConverter load platform instrument band det wavespace (Fin (1/10)) = Ok c ->
  make_tb2rad_lut c norm = Ok lut -> 0 <= t <= 32767 / 10 ->
  exists r i ti,
    tb2radiance oob c [Fin t] (Some lut) norm' = Ok [r] /\
    nth_error (lut_radiance lut) i = Some r /\ nth_error (lut_tb lut) i = Some (Fin ti) /\
    tb2radiance oob c [Fin ti] None norm = Ok [r] /\
    (150 <= t < 360 -> ti <= t < ti + 1/10) /\
    (t < 150 -> i = 0%nat /\ ti = 150) /\
    (360 <= t -> S i = length (lut_radiance lut) /\ ti = 3599/10).
Proof.
  intros oob load p i b det wsp c norm norm' lut t Hc Hl Ht.
  destruct (lookup_row oob c _ _ _ _ _ _ norm norm' lut t Hc Hl Ht) as (r & E1 & E2 & E3 & E4).
  exists r, (row_of t), (tb_row (row_of t)).
  split; [exact E1|]. split; [exact E2|]. split; [exact E3|]. split; [exact E4|].
  split; [apply row_of_in|]. split.
  - intros H. rewrite row_of_below by auto. split; auto. unfold tb_row. simpl. lra.
  - intros H. rewrite row_of_above by auto.
    apply constructor_integral in Hc as (_ & _ & Hr & _).
    destruct (default_lut _ _ _ Hr Hl) as (HL & _ & _). rewrite HL. split; [lia|].
    unfold tb_row. rewrite INR_IZR_INZ, Z2Nat.id by lia. lra.
Qed.

Lemma mapM_pair {A B} (f : A -> res B) x y r r' :
  mapM f [x] = Ok [r] -> mapM f [y] = Ok [r'] -> mapM f [x; y] = Ok [r; r'].
Proof. cbn [mapM]. destruct (f x), (f y); try discriminate. cbn [bind]. congruence. Qed.

Lemma lookup_pair oob (c : converter XRN) lut x y r r' norm :
  tb2radiance oob c [x] (Some lut) norm = Ok [r] -> tb2radiance oob c [y] (Some lut) norm = Ok [r'] ->
  tb2radiance oob c [x; y] (Some lut) norm = Ok [r; r'].
Proof.
  unfold tb2radiance, lut_lookup. destruct (lut_start lut (cv_tb_scale c)); [|discriminate].
  cbn [bind]. destruct (_ >? _)%Z; [discriminate|]. apply mapM_pair.
Qed.

Lemma lut_monotone :
  forall oob load platform instrument band det wavespace (c : converter XRN) norm norm' lut ws rs t t',
  RadTbConverter load platform instrument band det wavespace (Fin (1/10)) = Ok c ->
  make_tb2rad_lut c norm = Ok lut ->
  cv_waves c = map Fin ws -> cv_response c = map Fin rs -> good_curve ws rs ->
  0 <= t -> t <= t' -> t' <= 32767 / 10 ->
  exists r r', tb2radiance oob c [Fin t; Fin t'] (Some lut) norm' = Ok [Fin r; Fin r'] /\ r <= r'.
Proof.
  intros oob load p i b det wsp c norm norm' lut ws rs t t' Hc Hl Hw Hr Hg H0 H1 H2.
  destruct (lookup_row oob c _ _ _ _ _ _ norm norm' lut t Hc Hl) as (r & E1 & _ & _ & E4); [lra|].
  destruct (lookup_row oob c _ _ _ _ _ _ norm norm' lut t' Hc Hl) as (r' & E1' & _ & _ & E4'); [lra|].
  destruct (constructor_integral _ _ _ _ _ _ _ _ Hc) as (HI & Hws & _).
  destruct (integral_fin _ _ _ HI Hw Hr) as (HL & HK).
  pose proof (good_integral_pos _ _ Hg) as HKpos.
  pose proof Hg as (_ & _ & _ & Hp & _).
  assert (G : forall x, T_cut < x -> tb2radiance oob c [Fin x] None norm =
     Ok [Fin (if norm then band_integral (wn_of wsp) ws rs x / Rtrapz rs ws else band_integral (wn_of wsp) ws rs x)]).
  { intros x Hx. unfold tb2radiance. rewrite <- Hws.
    apply (planck_radiance_fin c ws rs (Rtrapz rs ws) [x] norm Hw Hr HL (good_ne _ _ Hg) HK
                 ltac:(lra) Hp ltac:(discriminate) ltac:(repeat constructor; lra)). }
  pose proof (tb_row_pos (row_of t)) as P1. pose proof (tb_row_pos (row_of t')) as P2.
  rewrite G in E4, E4' by auto. injection E4 as <-. injection E4' as <-.
  do 2 eexists. split; [apply lookup_pair; [exact E1|exact E1']|].
  pose proof (tb_row_mono _ _ (row_of_mono _ _ H1)) as Hm. pose proof T_cut_pos.
  assert (band_integral (wn_of wsp) ws rs (tb_row (row_of t)) <= band_integral (wn_of wsp) ws rs (tb_row (row_of t'))).
  { destruct Hm as [Hm|<-]; [|lra]. left. apply band_integral_incr; auto. lra. }
  destruct norm; auto. apply Rmult_le_compat_r; auto. left. now apply Rinv_0_lt_compat.
Qed.

Lemma lut_case : exists c lut,
  RadTbConverter sample_load "NOAA-19" "avhrr-3" (BStr "4"%string) "det-1" WAVE_LENGTH (Fin (1/10)) = Ok c /\
  make_tb2rad_lut c true = Ok lut /\ length (lut_radiance lut) = 2100%nat.
Proof.
  destruct (sample_converter (1/10)) as (c & Hc & Hw & Hr); [lra|].
  destruct (constructor_integral _ _ _ _ _ _ _ _ Hc) as (HI & Hws & Hres & _).
  destruct (integral_fin _ _ _ HI Hw Hr) as (HL & HK).
  pose proof (good_integral_pos _ _ good_sample) as HKpos.
  pose proof good_sample as (_ & _ & _ & Hp & _).
  assert (exists lut, make_tb2rad_lut c true = Ok lut) as [lut Hlut].
  { unfold make_tb2rad_lut. rewrite Hres, arange_default.
    rewrite (planck_radiance_fin c ws_sample rs_sample (Rtrapz rs_sample ws_sample)); auto.
    - cbn [bind]. eauto.
    - discriminate.
    - lra.
    - change (seq 0 2100) with (0 :: seq 1 2099)%nat. discriminate.
    - apply Forall_forall. intros x Hx. apply in_map_iff in Hx as (k & <- & _). apply (tb_row_pos k). }
  exists c, lut. split; [exact Hc|]. split; [exact Hlut|].
  destruct (default_lut _ _ _ Hres Hlut). auto.
Qed.

Lemma wavespace_bad :
  forall (N : Num) load p i band det wavespace (tbr : N),
  ~ In wavespace ["wavelength"; "wavenumber"]%string ->
  RadTbConverter load p i band det wavespace tbr = Err AttributeError.
Proof.
  intros N load p i band det wsp tbr H. unfold RadTbConverter, check_wavespace.
  destruct (String.eqb_spec wsp WAVE_LENGTH); [subst; exfalso; apply H; simpl; auto|].
  destruct (String.eqb_spec wsp WAVE_NUMBER); [subst; exfalso; apply H; simpl; auto|]. reflexivity.
Qed.

Lemma wavespace_good :
  forall (N : Num) p i band det wavespace (tbr : N) e,
  In wavespace ["wavelength"; "wavenumber"]%string -> neqb N tbr n0 = false ->
  RadTbConverter (fun _ _ => Err e) p i band det wavespace tbr = Err e.
Proof.
  intros N p i band det wsp tbr e H Ht. unfold RadTbConverter.
  destruct H as [<-|[<-|[]]]; cbn; now rewrite Ht.
Qed.

Lemma wn_case :
  reader_shaped (rs_rsr sample_state) /\
  exists c, RadTbConverter sample_load "NOAA-19" "avhrr-3" (BStr "4"%string) "det-2" WAVE_NUMBER (Fin (1/10)) = Ok c /\
            converter_radiance2tb c (NpArray [Fin 1000000]) = Err KeyError.
Proof.
  split; [exact sample_shaped|].
  assert (Hn : neqb XRN (Fin (1/10)) n0 = false).
  { rewrite n0_fin. apply Reqb_false_iff. lra. }
  destruct (wn_byname XRN sample_load "NOAA-19" "avhrr-3" "4" "det-2" (Fin (1/10)) sample_state
              [("det-1"%string, sample_det); ("det-2"%string, sample_det2)]
              [Fin 10; Fin (21/2); Fin 12] [Fin (1/10); Fin 1; Fin (4/10)] (Fin (109/10)))
    as (c & Hc & _); auto using sample_shaped.
  exists c. split; [exact Hc|]. exact (wn_radiance2tb XRN _ _ _ _ _ _ sample_state c _ eq_refl sample_shaped Hc).
Qed.
