(** Lemmas about the look-up table and the property statements C09-C12, C16. *)
From Coq Require Import Reals Lra ZArith String List Lia Sorting.Sorted.
From Verif Require Import Base NumSig XR P_Trapz M_Tables M_Utils M_Rsr M_Blackbody M_RadTb
     S_Planck S_RadTb S_Rsr P_Blackbody P_Blackbody2 P_RadTb P_Rsr.
Import ListNotations.
Open Scope R_scope.

Lemma mapM_nth {A B} (f : A -> res B) l r i a : mapM f l = Ok r -> nth_error l i = Some a ->
  exists b, nth_error r i = Some b /\ f a = Ok b.
Proof.
  intros H Hi. apply mapM_Forall2 in H. revert i Hi.
  induction H; intros [|i] Hi; simpl in *; try discriminate.
  - injection Hi as ->. eauto.
  - eauto.
Qed.

Section Gen.
  Context {N : Num}.
  Definition radiance1 (c : converter N) (norm : bool) (t : N) : res N :=
    p <- vmul (map (fun w => planck1 (negb (wn_of (cv_wavespace c))) w t) (cv_waves c)) (cv_response c) ;;
    r <- trapezoid p (cv_waves c) ;;
    Ok (if norm then ndiv N r (cv_rsr_integral c) else r).

  Lemma planck_radiance_rows (c : converter N) ts norm : cv_waves c <> [] -> ts <> [] ->
    planck_radiance c ts norm = mapM (radiance1 c norm) ts.
  Proof.
    intros H1 H2. unfold planck_radiance. rewrite match_ne by auto.
    unfold blackbody_function, radiance1, wn_of, blackbody_wn, blackbody.
    destruct (String.eqb (cv_wavespace c) WAVE_NUMBER); rewrite planck_rows; cbn [negb];
      clear H2; induction ts as [|t ts IH]; cbn [map mapM]; auto; now rewrite IH.
  Qed.

  Lemma planck_radiance_ok_ne (c : converter N) ts norm r :
    planck_radiance c ts norm = Ok r -> cv_waves c <> [] /\ ts <> [].
  Proof. unfold planck_radiance. destruct (cv_waves c), ts; try discriminate; intros; split; discriminate. Qed.

  Lemma planck_radiance_nth (c : converter N) ts norm rs i t :
    planck_radiance c ts norm = Ok rs -> nth_error ts i = Some t ->
    exists r, nth_error rs i = Some r /\ planck_radiance c [t] norm = Ok [r].
  Proof.
    intros H Hi. destruct (planck_radiance_ok_ne _ _ _ _ H) as [Hw Ht].
    rewrite planck_radiance_rows in * by (auto; discriminate).
    destruct (mapM_nth _ _ _ _ _ H Hi) as (r & Hr & E). exists r. split; auto.
    cbn [mapM]. now rewrite E.
  Qed.
End Gen.

Lemma seq_nth_some k n i : (i < n)%nat -> nth_error (seq k n) i = Some (k + i)%nat.
Proof.
  revert k i; induction n as [|n IH]; intros k [|i] H; simpl; try lia.
  - f_equal. lia.
  - rewrite IH by lia. f_equal. lia.
Qed.

Definition tb_row (i : nat) : R := 150 + INR i / 10.

Lemma default_lut (c : converter XRN) norm lut : cv_tb_resolution c = Fin (1/10) ->
  make_tb2rad_lut c norm = Ok lut ->
  length (lut_radiance lut) = 2100%nat /\
  lut_tb lut = map Fin (map tb_row (seq 0 2100)) /\
  forall i r, nth_error (lut_radiance lut) i = Some r ->
    (i < 2100)%nat /\ nth_error (lut_tb lut) i = Some (Fin (tb_row i)) /\
    planck_radiance c [Fin (tb_row i)] norm = Ok [r].
Proof.
  intros Hr H. unfold make_tb2rad_lut in H. rewrite Hr, arange_default in H.
  change (map Fin (map (fun i => 150 + INR i / 10) (seq 0 2100)))
    with (map Fin (map tb_row (seq 0 2100))) in H.
  remember (map Fin (map tb_row (seq 0 2100))) as tbl eqn:Etbl.
  destruct (planck_radiance c tbl norm) as [rad|] eqn:E; [|discriminate].
  cbn [bind] in H. injection H as <-. cbn [lut_tb lut_radiance].
  assert (HL : length rad = 2100%nat).
  { destruct (planck_radiance_ok_ne _ _ _ _ E) as [Hw Ht].
    rewrite planck_radiance_rows in E by auto. apply mapM_length in E.
    rewrite E, Etbl, !map_length, seq_length. reflexivity. }
  split; [exact HL|]. split; [reflexivity|]. intros i r Hi.
  assert (Hlt : (i < 2100)%nat) by (rewrite <- HL; apply nth_error_Some; congruence).
  assert (Htb : nth_error tbl i = Some (Fin (tb_row i))).
  { rewrite Etbl. erewrite map_nth_error; [reflexivity|]. erewrite map_nth_error; [reflexivity|].
    rewrite seq_nth_some by auto. reflexivity. }
  split; [auto|]. split; [exact Htb|].
  destruct (planck_radiance_nth _ _ _ _ _ _ E Htb) as (r' & Hr' & E').
  assert (HH : Some r' = Some r) by (rewrite <- Hi; symmetry; exact Hr').
  injection HH as <-. exact E'.
Qed.

Lemma scale_default (c : converter XRN) load p i b det wsp :
  RadTbConverter load p i b det wsp (Fin (1/10)) = Ok c -> cv_tb_scale c = Fin 10.
Proof.
  intros H. apply constructor_integral in H as (_ & _ & _ & _ & _ & H). rewrite H.
  rewrite nlit_fin. cbn [ndiv XRN]. rewrite xdiv_fin by lra. f_equal. lra.
Qed.

(** the row used for temperature [t] *)
Definition row_of (t : R) : nat := Z.to_nat (clipZ (Int_part (10 * t) - 1500) 0 2099).

Lemma row_of_lt t : (row_of t < 2100)%nat.
Proof. unfold row_of. pose proof (clipZ_range (Int_part (10 * t) - 1500) 0 2099). lia. Qed.

Lemma row_of_in t : 150 <= t < 360 -> tb_row (row_of t) <= t < tb_row (row_of t) + 1/10.
Proof.
  intros Ht. unfold tb_row, row_of, clipZ. pose proof (Rfloor_bounds (10 * t)) as Hb.
  set (z := Int_part (10 * t)) in *.
  assert (1500 <= z <= 3599)%Z.
  { split.
    - assert (1499 < z)%Z; [|lia]. apply lt_IZR. lra.
    - assert (z < 3600)%Z; [|lia]. apply lt_IZR. lra. }
  replace (Z.min (Z.max (z - 1500) 0) 2099) with (z - 1500)%Z by lia.
  rewrite INR_IZR_INZ, Z2Nat.id by lia. rewrite minus_IZR. lra.
Qed.
Lemma row_of_below t : t < 150 -> row_of t = 0%nat.
Proof.
  intros Ht. unfold row_of, clipZ. pose proof (Rfloor_bounds (10 * t)) as Hb.
  set (z := Int_part (10 * t)) in *.
  assert (z < 1500)%Z by (apply lt_IZR; lra).
  replace (Z.min (Z.max (z - 1500) 0) 2099) with 0%Z by lia. reflexivity.
Qed.
Lemma row_of_above t : 360 <= t -> row_of t = Z.to_nat 2099.
Proof.
  intros Ht. unfold row_of, clipZ. pose proof (Rfloor_bounds (10 * t)) as Hb.
  set (z := Int_part (10 * t)) in *.
  assert (3599 < z)%Z by (apply lt_IZR; lra).
  replace (Z.min (Z.max (z - 1500) 0) 2099) with 2099%Z by lia. reflexivity.
Qed.
Lemma row_of_mono t t' : t <= t' -> (row_of t <= row_of t')%nat.
Proof.
  intros Ht. unfold row_of, clipZ.
  pose proof (Rfloor_bounds (10 * t)). pose proof (Rfloor_bounds (10 * t')).
  set (z := Int_part (10 * t)) in *. set (z' := Int_part (10 * t')) in *.
  assert (z < z' + 1)%Z by (apply lt_IZR; rewrite plus_IZR; lra). lia.
Qed.
Lemma tb_row_mono i j : (i <= j)%nat -> tb_row i <= tb_row j.
Proof. intros H. unfold tb_row. apply le_INR in H. lra. Qed.
Lemma tb_row_pos i : T_cut < tb_row i.
Proof. unfold tb_row, T_cut. pose proof (pos_INR i). lra. Qed.

Lemma lookup_row oob (c : converter XRN) load p i b det wsp norm norm' lut t :
  RadTbConverter load p i b det wsp (Fin (1/10)) = Ok c ->
  make_tb2rad_lut c norm = Ok lut -> 0 <= t <= 32767 / 10 ->
  exists r, tb2radiance oob c [Fin t] (Some lut) norm' = Ok [r] /\
     nth_error (lut_radiance lut) (row_of t) = Some r /\
     nth_error (lut_tb lut) (row_of t) = Some (Fin (tb_row (row_of t))) /\
     tb2radiance oob c [Fin (tb_row (row_of t))] None norm = Ok [r].
Proof.
  intros Hc Hl Ht. pose proof (scale_default _ _ _ _ _ _ _ Hc) as Hs.
  apply constructor_integral in Hc as (_ & _ & Hr & _).
  destruct (default_lut _ _ _ Hr Hl) as (HL & Htb & Hrow).
  unfold tb2radiance. rewrite Hs.
  destruct (lut_lookup_exact oob lut (map Fin (map tb_row (seq 1 2099))) t) as (r & E1 & E2); auto.
  { rewrite Htb. change (seq 0 2100) with (0 :: seq 1 2099)%nat. cbn [map]. f_equal.
    unfold tb_row. simpl. f_equal. lra. }
  exists r. split; [exact E1|]. split; [exact E2|].
  destruct (Hrow _ _ E2) as (_ & H1 & H2). auto.
Qed.

(** ** C16 *)
Lemma wn_bynumber (N : Num) load p i x det tbr (s : rsr_state N) :
  load p i = Ok s -> reader_shaped (rs_rsr s) -> neqb N tbr n0 = false ->
  RadTbConverter load p i (BNumber x) det WAVE_NUMBER tbr = Err KeyError.
Proof.
  intros Hl Hr Ht. unfold RadTbConverter. change (check_wavespace WAVE_NUMBER) with (Ok tt).
  cbn [bind]. rewrite Ht. cbn [bind]. rewrite Hl. cbn [bind]. unfold rsr_in_space.
  rewrite String.eqb_refl, convert_reader by auto. cbn [bind resolve_band rsr_data].
  rewrite bandname_converted by auto. destruct (rs_rsr s); reflexivity.
Qed.

Lemma wn_byname (N : Num) load p i name det tbr (s : rsr_state N) bd w r cw :
  load p i = Ok s -> reader_shaped (rs_rsr s) -> neqb N tbr n0 = false ->
  dget (translate_band i name) (rs_rsr s) = Some bd ->
  dget det bd = Some [("response"%string, VArr r); ("wavelength"%string, VArr w);
                      ("central_wavelength"%string, VNum cw)] ->
  length r = length w ->
  exists c, RadTbConverter load p i (BStr name) det WAVE_NUMBER tbr = Ok c /\
    cv_response c = rev r /\
    cv_waves c = map (fun x => nmul N x (nlit N 100 1)) (rev (map wl2wn w)).
Proof.
  intros Hl Hr Ht Hb Hd HL. unfold RadTbConverter. change (check_wavespace WAVE_NUMBER) with (Ok tt).
  cbn [bind]. rewrite Ht. cbn [bind]. rewrite Hl. cbn [bind]. unfold rsr_in_space.
  rewrite String.eqb_refl, convert_reader by auto.
  cbn [bind resolve_band band_entry rsr_getitem].
  rewrite dget_dmap, Hb. cbn [option_map of_option bind]. rewrite dget_dmap, Hd.
  cbn [option_map of_option bind]. 
  change (@get_arr N WAVE_NUMBER (reader_det2wn [("response"%string, VArr r); ("wavelength"%string, VArr w);
                      ("central_wavelength"%string, VNum cw)])) with (Ok (rev (map (@wl2wn N) w))).
  change (@get_arr N "response" (reader_det2wn [("response"%string, VArr r); ("wavelength"%string, VArr w);
                      ("central_wavelength"%string, VNum cw)])) with (Ok (rev r)).
  cbn [bind]. unfold trapezoid. rewrite map_length, !rev_length, map_length, HL, Nat.eqb_refl.
  cbn [bind]. eexists. split; [reflexivity|]. split; reflexivity.
Qed.

Lemma wn_radiance2tb (N : Num) load p i b det tbr (s : rsr_state N) c rad :
  load p i = Ok s -> reader_shaped (rs_rsr s) ->
  RadTbConverter load p i b det WAVE_NUMBER tbr = Ok c ->
  converter_radiance2tb c rad = Err KeyError.
Proof.
  intros Hl Hr H. unfold RadTbConverter in H. rewrite Hl in H.
  change (check_wavespace WAVE_NUMBER) with (Ok tt) in H. cbn [bind] in H.
  destruct (neqb N tbr n0); [discriminate|]. cbn [bind] in H. unfold rsr_in_space in H.
  rewrite String.eqb_refl, convert_reader in H by auto. cbn [bind] in H.
  destruct (resolve_band i b _) as [[bn bw]|] eqn:E1; [|discriminate]. cbn [bind] in H.
  destruct (band_entry _ bn) as [be|] eqn:E2; [|discriminate]. cbn [bind] in H.
  destruct (dget det be) as [dd|] eqn:E3; [|discriminate]. cbn [of_option bind] in H.
  destruct (get_arr WAVE_NUMBER dd); [|discriminate]. cbn [bind] in H.
  destruct (get_arr "response" dd); [|discriminate]. cbn [bind] in H.
  destruct (trapezoid _ _); [|discriminate]. cbn [bind] in H. injection H as <-.
  unfold converter_radiance2tb. cbn [cv_rsr cv_bandname cv_detector]. rewrite E2. cbn [bind].
  rewrite E3. cbn [of_option bind].
  destruct bn as [n|]; [|discriminate]. cbn [band_entry rsr_getitem] in E2.
  rewrite dget_dmap in E2. destruct (dget n (rs_rsr s)) as [bd|] eqn:E4; [|discriminate].
  cbn [option_map of_option] in E2. injection E2 as <-. rewrite dget_dmap in E3.
  destruct (dget det bd) as [d0|] eqn:E5; [|discriminate]. cbn [option_map] in E3. injection E3 as <-.
  destruct (dget_reader_band _ _ _ Hr E4) as [_ HF].
  unfold get_num. rewrite converted_no_cw by (eapply dget_reader_det; eauto). reflexivity.
Qed.
