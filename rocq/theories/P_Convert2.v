(** Conversion to wavenumbers over the reals. *)
From Coq Require Import String Ascii List Bool Arith ZArith Lia Reals Lra Sorting.Sorted.
From Verif Require Import Base NumSig XR P_Trapz M_Tables M_Utils M_Rsr S_Rsr S_Convert P_Rsr P_Convert P_Width.
Import ListNotations.
Local Open Scope string_scope.
Local Open Scope R_scope.

Lemma wl2wn_fin w : w <> 0 -> @wl2wn XRN (Fin w) = Fin (10000 / w).
Proof.
  intros H. change (@wl2wn XRN (Fin w)) with (xdiv (Fin (1 / 1)) (Fin (1 / 10000 * w))). rewrite xdiv_fin.
  - f_equal. field. auto.
  - intros E. apply H. lra.
Qed.

Lemma wn_list ws : Forall (fun w => w <> 0) ws ->
  rev (map (@wl2wn XRN) (map Fin ws)) = map Fin (wavenumbers ws).
Proof.
  intros H. unfold wavenumbers. rewrite map_rev, !map_map. f_equal. apply map_ext_in.
  intros a Ha. apply wl2wn_fin. rewrite Forall_forall in H. auto.
Qed.

Lemma lit100 : nlit XRN 100 1 = Fin 100.
Proof. change (nlit XRN 100 1) with (Fin (100 / 1)). f_equal. lra. Qed.

Lemma det_in_wn (d : detector XRN) : typed_det d -> exists d', det2wn d = Ok d' /\ in_wavenumbers d d'.
Proof.
  intros Ht. unfold in_wavenumbers. destruct (dhas "wavenumber" d) eqn:E.
  - unfold det2wn. rewrite E. eauto.
  - destruct (det2wn_get d Ht E) as (d' & E1 & E2 & E3 & E4). exists d'. split; [exact E1|].
    split; [|split; [|split; [|exact E4]]].
    + intros ws Hw Hn. rewrite E2, Hw. rewrite <- (wn_list _ Hn). reflexivity.
    + intros Hw. now rewrite E2, Hw.
    + rewrite E3. destruct (dget "response" d) as [v|] eqn:Ev; [|reflexivity]. cbn [option_map].
      destruct v as [r|x|m].
      * eexists; split; [reflexivity|]. reflexivity.
      * exfalso. apply (proj2 Ht x Ev).
      * destruct (@rev_resp_dict XRN m) as (m' & Em & Hm). rewrite Em. exists (VDict m'). split; auto.
Qed.

Lemma convert_data : forall d : rsrdata XRN, typed_data d ->
  exists d', convert2wavenumber d = Ok (d', ("cm-1", Fin 100)) /\ dkeys d' = dkeys d /\
    (forall b bd, dget b d = Some bd -> exists bd', dget b d' = Some bd' /\ dkeys bd' = dkeys bd) /\
    (forall b k dd, det_at d b k = Some dd -> exists dd', det_at d' b k = Some dd' /\ in_wavenumbers dd dd').
Proof.
  intros d Ht. destruct (convert_typed d Ht) as (d' & E & Hk & H). exists d'.
  split; [|split; [exact Hk|split]].
  - rewrite E, lit100. reflexivity.
  - intros b bd Hb. specialize (H b). rewrite Hb in H. destruct H as (bd' & H1 & H2 & _). eauto.
  - intros b k dd Hd. unfold det_at in Hd |- *. specialize (H b).
    destruct (dget b d) as [bd|] eqn:Eb; [|discriminate].
    destruct H as (bd' & H1 & H2 & H3). rewrite H1. specialize (H3 k). rewrite Hd in H3.
    destruct H3 as (dd' & H4 & H5). exists dd'. split; [exact H4|].
    destruct (det_in_wn dd) as (d2 & E2 & Hd2).
    + destruct Ht as [_ Ht]. rewrite Forall_forall in Ht. apply dget_Some_in in Eb. apply Ht in Eb.
      destruct Eb as [_ Eb]. rewrite Forall_forall in Eb. apply dget_Some_in in Hd. apply (Eb _ Hd).
    + congruence.
Qed.

Lemma Sorted_app_one (l : list R) x : Sorted Rlt l -> Forall (fun y => y < x) l -> Sorted Rlt (l ++ [x]).
Proof.
  induction l as [|a l IH]; intros Hs Hf; cbn; [repeat constructor|].
  inversion Hs; subst. inversion Hf; subst. constructor; auto.
  destruct l as [|b l]; cbn; constructor; auto. now inversion H2.
Qed.

Lemma wavenumbers_sorted : forall ws, Sorted Rlt ws -> Forall (fun w => 0 < w) ws ->
  Sorted Rlt (wavenumbers ws) /\ List.length (wavenumbers ws) = List.length ws /\ Forall (fun w => 0 < w) (wavenumbers ws).
Proof.
  intros ws Hs Hp. split; [|split].
  - unfold wavenumbers. apply Sorted_StronglySorted in Hs; [|intros a b c; lra].
    induction Hs as [|w ws Hs IH Hf]; [constructor|]. inversion Hp; subst. cbn [map rev].
    apply Sorted_app_one; auto. rewrite Forall_forall. intros y Hy. apply in_rev in Hy.
    apply in_map_iff in Hy. destruct Hy as (z & <- & Hz). rewrite Forall_forall in Hf. apply Hf in Hz.
    unfold Rdiv. apply Rmult_lt_compat_l; [lra|]. apply Rinv_lt_contravar; [|exact Hz].
    apply Rmult_lt_0_compat; lra.
  - unfold wavenumbers. now rewrite rev_length, map_length.
  - unfold wavenumbers. apply Forall_rev. rewrite Forall_map. eapply Forall_impl; [|exact Hp].
    intros a Ha. apply Rdiv_lt_0_compat; lra.
Qed.

(** ** convert() *)
Lemma det_at_dmap (f : detector XRN -> detector XRN) data b k :
  det_at (dmap (dmap f) data) b k = option_map f (det_at data b k).
Proof.
  unfold det_at. rewrite dget_dmap. destruct (dget b data); cbn [option_map]; [|reflexivity]. apply dget_dmap.
Qed.

Lemma steps_converted (d : detector XRN) ws rs : reader_det d -> List.length rs = List.length ws ->
  dget "wavelength" d = Some (VArr (map Fin ws)) -> dget "response" d = Some (VArr (map Fin rs)) ->
  Forall (fun w => w <> 0) ws ->
  converted ws rs d (step2 (step1 d)).
Proof.
  intros (r & w & c & ->) Hl Hw Hr Hn. cbn in Hw, Hr. injection Hw as ->. injection Hr as ->.
  cbn [step1 step2]. rewrite (wn_list _ Hn). rewrite <- map_rev.
  assert (Hl2 : List.length (rev rs) = List.length (wavenumbers ws))
    by (unfold wavenumbers; rewrite !rev_length, map_length; exact Hl).
  change (@map R (num XRN) Fin) with (@map R XR Fin).
  rewrite (central_fin _ _ Hl2). unfold converted. repeat split.
  - cbn zeta. intros H. rewrite xdiv_fin by exact H. reflexivity.
  - intros k Hk. cbn [dget].
    repeat match goal with |- context [String.eqb k ?x] => destruct (String.eqb_spec k x); [subst k; try (exfalso; apply Hk; cbn; tauto)|] end;
    try reflexivity.
Qed.

Lemma in_det_at (data : rsrdata XRN) (P : detector XRN -> Prop) b k d : all_dets P data -> det_at data b k = Some d -> P d.
Proof.
  intros H Hd. unfold det_at in Hd. destruct (dget b data) as [bd|] eqn:E; [|discriminate].
  unfold all_dets in H. rewrite Forall_forall in H. apply dget_Some_in in E. apply H in E. cbn in E.
  rewrite Forall_forall in E. apply dget_Some_in in Hd. apply (E _ Hd).
Qed.

Lemma shaped_dets (data : rsrdata XRN) : reader_shaped data -> all_dets reader_det data.
Proof. intros [_ H]. unfold all_dets. eapply Forall_impl; [|exact H]. cbn. tauto. Qed.

Lemma pairs_nonempty (data : rsrdata XRN) b k d : det_at data b k = Some d -> pairs_of data <> [].
Proof.
  intros H E. unfold det_at in H. destruct (dget b data) as [bd|] eqn:Eb; [|discriminate].
  apply dget_Some_in in Eb, H. unfold pairs_of in E.
  assert (Hin : In (b, k) (flat_map (fun kv => map (fun d => (fst kv, d)) (dkeys (snd kv))) data)).
  { apply in_flat_map. exists (b, bd). split; auto. cbn. apply in_map. unfold dkeys. apply (in_map fst _ _ H). }
  rewrite E in Hin. contradiction.
Qed.

Lemma convert_state : forall s : rsr_state XRN,
  rs_wavespace s = WAVE_LENGTH -> reader_shaped (rs_rsr s) -> all_dets same_length (rs_rsr s) ->
  exists s', convert s = (s', Ok tt) /\ rs_wavespace s' = WAVE_NUMBER /\ rs_instrument s' = rs_instrument s /\
    dkeys (rs_rsr s') = dkeys (rs_rsr s) /\
    (forall b bd, dget b (rs_rsr s) = Some bd -> exists bd', dget b (rs_rsr s') = Some bd' /\ dkeys bd' = dkeys bd) /\
    (forall b k d ws rs, det_at (rs_rsr s) b k = Some d ->
       dget "wavelength" d = Some (VArr (map Fin ws)) -> dget "response" d = Some (VArr (map Fin rs)) ->
       Forall (fun w => w <> 0) ws ->
       exists d', det_at (rs_rsr s') b k = Some d' /\ converted ws rs d d') /\
    ((exists b k d, det_at (rs_rsr s) b k = Some d) -> rs_unit s' = "cm-1" /\ rs_si_scale s' = Fin 100).
Proof.
  intros s Hw Hr Hl. destruct (convert_ok s Hw Hr Hl) as (s' & E & H1 & H2 & H3 & H4 & H5).
  exists s'. repeat (split; [assumption|]). rewrite H3. split; [|split; [|split]].
  - unfold dkeys, dmap. rewrite map_map. apply map_ext. now intros [].
  - intros b bd Hb. rewrite dget_dmap, Hb. cbn [option_map]. eexists; split; [reflexivity|].
    unfold dkeys, dmap. rewrite map_map. apply map_ext. now intros [].
  - intros b k d ws rs Hd Hdw Hdr Hn. rewrite det_at_dmap, Hd. cbn [option_map]. eexists; split; [reflexivity|].
    apply steps_converted; auto.
    + apply (in_det_at _ _ _ _ _ (shaped_dets _ Hr) Hd).
    + pose proof (in_det_at _ _ _ _ _ Hl Hd) as Hs. specialize (Hs _ _ Hdr Hdw). now rewrite !map_length in Hs.
  - intros (b & k & d & Hd). pose proof (pairs_nonempty _ _ _ _ Hd) as Hp.
    destruct (pairs_of (rs_rsr s)); [congruence|]. split; auto. rewrite H5. apply lit100.
Qed.

(** no detectors, nothing to convert: the unit stays that of wavelengths *)
Lemma convert_no_dets : forall s : rsr_state XRN,
  rs_wavespace s = WAVE_LENGTH -> reader_shaped (rs_rsr s) -> pairs_of (rs_rsr s) = [] ->
  exists s', convert s = (s', Ok tt) /\ rs_wavespace s' = WAVE_NUMBER /\ rs_unit s' = rs_unit s.
Proof.
  intros s Hw Hr Hp. destruct (convert_ok s Hw Hr) as (s' & E & H1 & H2 & H3 & H4 & H5).
  - unfold all_dets. rewrite Forall_forall. intros [b bd] Hb. cbn. rewrite Forall_forall. intros [k d] Hd.
    exfalso. assert (Hin : In (b, k) (pairs_of (rs_rsr s))).
    { unfold pairs_of. apply in_flat_map. exists (b, bd). split; auto. cbn. apply in_map. apply (in_map fst _ _ Hd). }
    rewrite Hp in Hin. contradiction.
  - exists s'. rewrite Hp in H4. auto.
Qed.

(** Histories *)
Definition is_convert (c : call) : bool := match c with CConvert => true | _ => false end.

Lemma run_no_convert : forall l s, Forall (fun c => is_convert c = false) l -> fst (run_calls l s) = s.
Proof.
  induction l as [|[|b] l IH]; intros s H; cbn [run_calls]; [reflexivity| |]; inversion H; subst; [discriminate|].
  specialize (IH s H3). destruct (run_calls l s). exact IH.
Qed.

Lemma run_after : forall l s, rs_wavespace s <> WAVE_LENGTH ->
  run_calls l s = (s, map (fun c => match c with CConvert => OConvert (Err NotImplementedError)
                                            | CIntegral b => OIntegral (integral s b) end) l).
Proof.
  induction l as [|[|b] l IH]; intros s H; cbn [run_calls map]; [reflexivity| |].
  - rewrite (convert_again s H). now rewrite (IH s H).
  - now rewrite (IH s H).
Qed.

Lemma run_app : forall l1 l2 s, run_calls (l1 ++ l2)%list s =
  let (s1, o1) := run_calls l1 s in let (s2, o2) := run_calls l2 s1 in (s2, (o1 ++ o2)%list).
Proof.
  induction l1 as [|[|b] l1 IH]; intros l2 s; cbn [run_calls app].
  - destruct (run_calls l2 s). reflexivity.
  - destruct (convert s) as [s1 r]. rewrite IH. destruct (run_calls l1 s1). destruct (run_calls l2 r0). reflexivity.
  - rewrite IH. destruct (run_calls l1 s) as [s1 o1]. destruct (run_calls l2 s1). reflexivity.
Qed.

Lemma integral_after (s s' : rsr_state XRN) b bd : rs_wavespace s = WAVE_LENGTH -> reader_shaped (rs_rsr s) ->
  all_dets same_length (rs_rsr s) -> fst (convert s) = s' ->
  dget b (rs_rsr s) = Some bd -> bd <> [] -> integral s' b = Err KeyError.
Proof.
  intros Hw Hr Hl E Hb Hne. destruct (convert_ok s Hw Hr Hl) as (s2 & E2 & H1 & H2 & H3 & _).
  rewrite E2 in E. cbn in E. subst s2.
  apply integral_no_wavelength with (dmap (fun d => step2 (step1 d)) bd).
  - rewrite H3, dget_dmap, Hb. reflexivity.
  - destruct bd as [|[k d] bd]; cbn; congruence.
  - unfold dmap. rewrite Forall_map. rewrite Forall_forall. intros [k d] Hin. cbn [snd].
    pose proof (shaped_dets _ Hr) as Hsd. unfold all_dets in *. rewrite Forall_forall in Hsd, Hl.
    apply dget_Some_in in Hb. specialize (Hsd _ Hb). specialize (Hl _ Hb). cbn in Hsd, Hl.
    rewrite Forall_forall in Hsd, Hl. apply step2_no_wavelength; [apply (Hsd _ Hin)|apply (Hl _ Hin)].
Qed.

Lemma convert_history : forall s pre post, rs_wavespace s = WAVE_LENGTH -> reader_shaped (rs_rsr s) ->
  all_dets same_length (rs_rsr s) -> ~ In CConvert pre ->
  exists s' opre opost,
    convert s = (s', Ok tt) /\
    run_calls (pre ++ CConvert :: post)%list s = (s', (opre ++ OConvert (Ok tt) :: opost)%list) /\
    run_calls pre s = (s, opre) /\
    Forall2 (fun c o => match c with
                        | CConvert => o = OConvert (Err NotImplementedError)
                        | CIntegral b => forall bd, dget b (rs_rsr s) = Some bd -> bd <> [] ->
                                           o = OIntegral (Err KeyError)
                        end) post opost.
Proof.
  intros s pre post Hw Hr Hl Hp. destruct (convert_ok s Hw Hr Hl) as (s' & E & H1 & _).
  assert (Hpre : Forall (fun c => is_convert c = false) pre).
  { rewrite Forall_forall. intros [|b] Hc; [contradiction|reflexivity]. }
  pose proof (run_no_convert pre s Hpre) as Hrun.
  destruct (run_calls pre s) as [s0 opre] eqn:Epre. cbn [fst] in Hrun. subst s0.
  assert (Hws : rs_wavespace s' <> WAVE_LENGTH) by (rewrite H1; discriminate).
  eexists s', opre, _. split; [exact E|]. split; [|split; [reflexivity|]].
  - rewrite run_app, Epre. cbn [run_calls]. rewrite E. rewrite (run_after post s' Hws). reflexivity.
  - clear Epre Hpre Hp. induction post as [|[|b] post IH]; cbn [map]; constructor; auto.
    intros bd Hb Hne. f_equal. eapply integral_after; eauto. now rewrite E.
Qed.

(** A failing conversion leaves the object half converted: the first detector
    has no wavelengths any more, the second still has them. *)
Definition mixed_data : rsrdata XRN :=
  [("1", [("det-1", [("response", VArr [Fin 1; Fin 1]); ("wavelength", VArr [Fin 1; Fin 2]); ("central_wavelength", VNum (Fin 1))]);
          ("det-2", [("response", VArr [Fin 1; Fin 1; Fin 1]); ("wavelength", VArr [Fin 1; Fin 2]); ("central_wavelength", VNum (Fin 1))])])].

Lemma mixed_state : exists (s s' : rsr_state XRN) e d1 d2,
  rs_wavespace s = WAVE_LENGTH /\ reader_shaped (rs_rsr s) /\
  convert s = (s', Err e) /\ rs_wavespace s' = WAVE_NUMBER /\
  det_at (rs_rsr s') "1" "det-1" = Some d1 /\ dget "wavelength" d1 = None /\
  det_at (rs_rsr s') "1" "det-2" = Some d2 /\ dget "wavelength" d2 <> None /\ dget "wavenumber" d2 <> None.
Proof.
  exists (rsr_init None mixed_data). eexists _, ValueError, _, _.
  split; [reflexivity|]. split.
  { unfold mixed_data. split; repeat constructor; cbn; try tauto; try (intros [H|[]]; discriminate);
    unfold reader_det; eauto. }
  split; [reflexivity|]. split; [reflexivity|]. split; [reflexivity|]. split; [reflexivity|].
  split; [reflexivity|]. split; discriminate.
Qed.
