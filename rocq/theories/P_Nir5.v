(** More about single pixels. *)
From Coq Require Import Reals Lra ZArith String List Lia.
From Verif Require Import Base NumSig XR P_Trapz M_Tables M_Utils M_Rsr M_Blackbody M_RadTb M_Nir
     S_Planck S_RadTb S_Nir P_Blackbody P_Blackbody2 P_RadTb P_RadTb2 P_RadTb3 P_Arr P_Nir P_Nir2.
Import ListNotations.
Local Open Scope R_scope.

Lemma sun_decreasing E c s s' sun nir therm co2 lut st st1 r sun' nir' therm' co2' lut' st' st1' r' I flux thr lim k k' z z' tn tn' L L' T T' F F' :
  reflectance_from_tbs E c sun nir therm co2 lut st = (st1, Ok r) -> one_image s sun nir therm co2 lut -> floats nir therm ->
  reflectance_from_tbs E c sun' nir' therm' co2' lut' st' = (st1', Ok r') -> one_image s' sun' nir' therm' co2' lut' -> floats nir' therm' ->
  settings c I flux (Some thr) lim -> 0 <= flux -> 0 <= thr <= 90 -> (k < size s)%nat -> (k' < size s')%nat ->
  pixel E c sun nir therm co2 lut k z tn L T F -> pixel E c sun' nir' therm' co2' lut' k' z' tn' L' T' F' -> z <= z' ->
  exists a a' S S', ns_solar st1 = Some a /\ pix k a = Some (Fin S) /\ ns_solar st1' = Some a' /\ pix k' a' = Some (Fin S') /\ S' <= S.
Proof.
  intros H Him Hf H' Him' Hf' Hs Hfl Ht Hk Hk' Hp Hp' Hz.
  destruct (nir_result _ _ _ _ _ _ _ _ _ _ _ _ _ _ _ H Him Hf Hs) as [_ P].
  destruct (nir_result _ _ _ _ _ _ _ _ _ _ _ _ _ _ _ H' Him' Hf' Hs) as [_ P'].
  destruct (P k z tn L T F Hk Hp) as ((a & Ha & Pa) & _). destruct (P' k' z' tn' L' T' F' Hk' Hp') as ((a' & Ha' & Pa') & _).
  exists a, a', (solar_term flux (Some thr) z), (solar_term flux (Some thr) z'). repeat (split; [assumption|]).
  now apply (solar_facts flux thr z z').
Qed.

(** Without the table, a 3.x um temperature below the thermal one means a
    negative reflectance. *)
Lemma direct_radiance E (c : converter XRN) ws rs K a k t :
  cv_waves c = map Fin ws -> cv_response c = map Fin rs -> good_curve ws rs -> cv_rsr_integral c = Fin K -> 0 < K ->
  pix k a = Some (Fin t) -> T_cut < t ->
  forall r L, tb2rad E c a None = Ok r -> pix k r = Some (Fin L) -> is_image (a_shape a) a ->
  L = band_integral (wn_of (cv_wavespace c)) ws rs t / K.
Proof.
  intros Hw Hr Hg HK HKp Pt Ht r L H PL Him. cbn [tb2rad] in H.
  match type of H with bind ?m _ = _ => destruct m as [l|] eqn:El end; [|discriminate]. cbn [bind] in H. injection H as <-.
  unfold tb2radiance in El.
  assert (Hlen : List.length l = List.length (a_data a)).
  { assert (Hne : cv_waves c <> [] /\ a_data a <> []) by (apply (planck_radiance_ok_ne c (a_data a) true l El)).
    rewrite planck_radiance_rows in El by (apply Hne). apply (mapM_length _ _ _ El). }
  assert (Hn : exists j, nth_error (a_data a) j = Some (Fin t) /\ nth_error l j = Some (Fin L)).
  { unfold pix in Pt, PL. cbn [a_data] in PL.
    destruct (a_data a) as [|x [|y l0]] eqn:Ea; destruct l as [|u [|v l1]] eqn:El1; cbn in Hlen; try lia;
      try (destruct k; discriminate).
    - exists O. split; [exact Pt|exact PL].
    - exists k. split; [exact Pt|exact PL]. }
  destruct Hn as (j & Q1 & Q2).
  destruct (planck_radiance_nth c _ true _ j _ El Q1) as (L' & Q3 & Q4). rewrite Q2 in Q3. injection Q3 as <-.
  destruct Hg as (G1 & G2 & G3 & G4 & G5 & G6).
  change [Fin t] with (map Fin [t]) in Q4. change (num XRN) with XR in *.
  rewrite (planck_radiance_fin c ws rs K [t] true) in Q4; auto; try discriminate; try lra.
  - cbn in Q4. injection Q4 as <-. reflexivity.
  - intros ->. cbn in G2. lia.
Qed.

Lemma negative_when_colder E c n sun nir therm st st' r I flux thr lim k z tn tt L T v ws rs :
  reflectance_from_tbs E c sun nir therm None (Some None) st = (st', Ok r) -> one_image [n] sun nir therm None (Some None) -> floats nir therm ->
  settings c I flux thr lim -> 0 < I -> cv_waves (cl_conv c) = map Fin ws -> cv_response (cl_conv c) = map Fin rs -> good_curve ws rs ->
  (k < n)%nat -> pixel E c sun nir therm None (Some None) k z (Fin tn) L T 1 -> pix k (get_as_array therm) = Some (Fin tt) ->
  T_cut < tn -> tn < tt -> pix k r = Some (Fin v) -> v < 0.
Proof.
  intros H Him Hf Hs HI Hw Hr Hg Hk Hp Pt H1 H2 Hv.
  assert (Hk' : (k < size [n])%nat) by (cbn; lia).
  destruct (range _ _ _ _ _ _ _ _ _ _ _ _ _ _ _ _ _ _ _ _ _ _ H Him Hf Hs Hk' Hp Hv) as [HR _].
  destruct Hp as (_ & Pn & (a3 & A3 & PL) & (a11 & A11 & PT) & _).
  destruct Him as (In_ & It & _). destruct Hs as (HIc & _). cbn [table_of] in *.
  assert (EL : L = band_integral (wn_of (cv_wavespace (cl_conv c))) ws rs tn / I).
  { eapply direct_radiance; eauto. destruct In_ as [E1 E2]. split; [reflexivity|]. now rewrite E1. }
  assert (ET : T = band_integral (wn_of (cv_wavespace (cl_conv c))) ws rs tt / I).
  { eapply direct_radiance; eauto; [lra|]. destruct It as [E1 E2]. split; [reflexivity|]. now rewrite E1. }
  pose proof T_cut_pos. pose proof (band_integral_incr (wn_of (cv_wavespace (cl_conv c))) ws rs tn tt Hg ltac:(lra) H2) as HB.
  destruct (Rlt_dec v 0) as [|Hn]; [assumption|]. exfalso. assert (HV : 0 <= v) by lra. apply HR in HV.
  rewrite EL, ET in HV. unfold Rdiv in HV. rewrite Rmult_1_r, !Rmult_assoc, Rinv_l in HV by lra. lra.
Qed.
