(** Lemmas on units and on RadTbConverter.radiance2tb (C09, C85). *)
From Coq Require Import Reals Lra ZArith String List Bool.
From Verif Require Import Base NumSig XR M_Tables M_Utils M_Rsr M_Blackbody M_RadTb S_Planck S_RadTb S_Rsr
     P_Blackbody P_Blackbody2 P_RadTb P_RadTb2 P_RadTb3.
Import ListNotations.
Open Scope R_scope.

Lemma units : forall (N : Num) load p i b det wsp tbr (c : converter N) norm,
  RadTbConverter load p i b det wsp tbr = Ok c ->
  tb2radiance_unit c norm = radiance_unit (if String.eqb wsp "wavenumber" then "(m^-1)^-1" else "m^-1") norm.
Proof.
  intros N load p i b det wsp tbr c norm Hc. unfold RadTbConverter in Hc.
  repeat match type of Hc with bind ?m _ = _ => let E := fresh in destruct m as [?|?] eqn:E; cbn [bind] in Hc; [|discriminate Hc]
         | (let (_, _) := ?x in _) = _ => destruct x as [? ?]
         | match ?x with (_, _) => _ end = _ => destruct x as [? ?] end.
  injection Hc as <-.
  unfold tb2radiance_unit, radiance_unit. cbn [cv_wavespace]. change WAVE_NUMBER with "wavenumber"%string.
  destruct norm, (String.eqb wsp "wavenumber"); reflexivity.
Qed.

Lemma radiance2tb_at load p i b det tbr (s : rsr_state XRN) (c : converter XRN) name bd d cw rad :
  load p i = Ok s -> RadTbConverter load p i b det WAVE_LENGTH tbr = Ok c -> cv_bandname c = Some name ->
  RSRDict_getitem (rs_instrument s) (rs_rsr s) name = Ok bd -> dget det bd = Some d ->
  dget "central_wavelength"%string d = Some (VNum (Fin cw)) ->
  converter_radiance2tb c rad = @blackbody_rad2temp XRN [NpScalar (Fin (cw / 10 ^ 6)); rad].
Proof.
  intros Hl Hc Hn Eb Ed Ew. unfold RadTbConverter in Hc. rewrite Hl in Hc.
  destruct (check_wavespace WAVE_LENGTH); [|discriminate Hc]. cbn [bind] in Hc. destruct (neqb XRN tbr n0); [discriminate Hc|]. cbn [bind] in Hc.
  unfold rsr_in_space in Hc. change (String.eqb WAVE_LENGTH WAVE_NUMBER) with false in Hc. cbn [bind] in Hc.
  destruct (resolve_band i b _) as [[bn bw]|]; [|discriminate Hc]. cbn [bind] in Hc.
  destruct (band_entry (RsrDict (rs_instrument s) (rs_rsr s)) bn) as [bb|] eqn:Be; [|discriminate Hc]. cbn [bind] in Hc.
  destruct (of_option KeyError (dget det bb)) as [dd|] eqn:De; [|discriminate Hc]. cbn [bind] in Hc.
  destruct (get_arr WAVE_LENGTH dd) as [w|] eqn:We; [|discriminate Hc]. cbn [bind] in Hc.
  destruct (get_arr "response" dd) as [r|] eqn:Re; [|discriminate Hc]. cbn [bind] in Hc.
  destruct (trapezoid r _) as [q|] eqn:Tq; [|discriminate Hc]. injection Hc as <-. cbn [cv_bandname] in Hn. subst bn.
  unfold converter_radiance2tb. cbn [cv_rsr cv_bandname cv_detector]. rewrite Be. cbn [bind]. cbn [band_entry rsr_getitem] in Be.
  rewrite Eb in Be. injection Be as <-. rewrite Ed. cbn [of_option bind]. unfold get_num. rewrite Ew. cbn [of_option bind].
  unfold radiance2tb. do 3 f_equal. rewrite nlit_fin. cbn [nmul XRN xmul]. f_equal. lra.
Qed.

Lemma rad2temp_scalar l bs : 0 < l -> Forall (fun b => 0 < b) bs ->
  @blackbody_rad2temp XRN [NpScalar (Fin l); NpArray (map Fin bs)] = Ok (NpArray (map Fin (map (T_lambda l) bs))).
Proof.
  intros Hl F. unfold blackbody_rad2temp, use_map_blocks_on. cbn [nth_error rad2temp_body arg_scalar bind].
  now rewrite map_rad2temp.
Qed.

Lemma radiance2tb_inverts : forall load p i b det tbr (s : rsr_state XRN) (c : converter XRN) name bd d cw,
  load p i = Ok s -> RadTbConverter load p i b det WAVE_LENGTH tbr = Ok c -> cv_bandname c = Some name ->
  RSRDict_getitem (rs_instrument s) (rs_rsr s) name = Ok bd -> dget det bd = Some d ->
  dget "central_wavelength"%string d = Some (VNum (Fin cw)) -> 0 < cw ->
  (forall ts, Forall (fun t => 0 < t) ts ->
     converter_radiance2tb c (NpArray (map Fin (map (B_lambda (cw / 10 ^ 6)) ts))) = Ok (NpArray (map Fin ts))) /\
  (forall bs, Forall (fun b => 0 < b) bs -> exists ts,
     converter_radiance2tb c (NpArray (map Fin bs)) = Ok (NpArray (map Fin ts)) /\ Forall (fun t => 0 < t) ts /\
     map (B_lambda (cw / 10 ^ 6)) ts = bs).
Proof.
  intros load p i b det tbr s c name bd d cw Hl Hc Hn Eb Ed Ew Hp.
  assert (Hl' : 0 < cw / 10 ^ 6) by lra.
  split; intros xs F; rewrite (fun r => radiance2tb_at _ _ _ _ _ _ _ _ _ _ _ _ r Hl Hc Hn Eb Ed Ew).
  - rewrite rad2temp_scalar; [|exact Hl'|].
    + do 3 f_equal. rewrite map_map. rewrite <- (map_id xs) at 2. apply map_ext_in. intros t Ht.
      rewrite Forall_forall in F. apply T_of_B_lambda; auto.
    + rewrite Forall_forall in *. intros y Hy. apply in_map_iff in Hy as (t & <- & Ht). apply B_lambda_pos; auto.
  - exists (map (T_lambda (cw / 10 ^ 6)) xs). split; [now apply rad2temp_scalar|]. rewrite Forall_forall in F. split.
    + rewrite Forall_forall. intros y Hy. apply in_map_iff in Hy as (t & <- & Ht). apply T_lambda_pos; auto.
    + rewrite map_map. rewrite <- (map_id xs) at 2. apply map_ext_in. intros t Ht. apply B_of_T_lambda; auto.
Qed.

(** temperature -> band radiance -> temperature keeps the order *)
Lemma roundtrip_order : forall load p i b det tbr (s : rsr_state XRN) (c : converter XRN) name bd d cw ws rs oob t t',
  load p i = Ok s -> RadTbConverter load p i b det WAVE_LENGTH tbr = Ok c -> cv_bandname c = Some name ->
  RSRDict_getitem (rs_instrument s) (rs_rsr s) name = Ok bd -> dget det bd = Some d ->
  dget "central_wavelength"%string d = Some (VNum (Fin cw)) -> 0 < cw ->
  cv_waves c = map Fin ws -> cv_response c = map Fin rs -> good_curve ws rs -> T_cut < t -> t < t' ->
  exists Ls u u', tb2radiance oob c [Fin t; Fin t'] None true = Ok Ls /\
    converter_radiance2tb c (NpArray Ls) = Ok (NpArray [Fin u; Fin u']) /\ 0 < u < u'.
Proof.
  intros load p i b det tbr s c name bd d cw ws rs oob t t' Hl Hc Hn Eb Ed Ew Hp W R G Ht Htt.
  destruct (band_incr load p i b det WAVE_LENGTH tbr c ws rs oob t t' true Hc W R G Ht Htt) as (r & r' & E & P).
  exists [Fin r; Fin r'], (T_lambda (cw / 10 ^ 6) r), (T_lambda (cw / 10 ^ 6) r'). split; [exact E|].
  assert (Hl' : 0 < cw / 10 ^ 6) by lra. split.
  - rewrite (fun r => radiance2tb_at _ _ _ _ _ _ _ _ _ _ _ _ r Hl Hc Hn Eb Ed Ew).
    apply (rad2temp_scalar _ [r; r']); [exact Hl'|]. repeat constructor; lra.
  - split; [apply T_lambda_pos; [exact Hl'|lra]|]. apply T_lambda_incr; [exact Hl'|lra|lra].
Qed.
