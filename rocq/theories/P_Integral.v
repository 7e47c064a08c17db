(** Lemmas on RelativeSpectralResponse.integral (C84). *)
From Coq Require Import Reals Lra ZArith String List Bool.
From Verif Require Import Base NumSig XR M_Tables M_Utils M_Rsr M_RadTb S_Rsr P_Trapz P_RadTb.
Import ListNotations.
Open Scope R_scope.

Definition one {N : Num} (b : band N) (det : string) : res N :=
  d <- of_option KeyError (dget det b) ;;
  wvl <- get_arr "wavelength" d ;;
  resp <- get_arr "response" d ;;
  trapezoid resp wvl.

Lemma integral_fold {N : Num} (b : band N) l : forall acc,
  (forall det, In det l -> exists i, one b det = Ok i) -> NoDup l -> (forall det, In det l -> ~ In det (dkeys acc)) ->
  exists out, fold_left (fun acc det => a <- acc ;; d <- of_option KeyError (dget det b) ;; wvl <- get_arr "wavelength" d ;;
                 resp <- get_arr "response" d ;; i <- trapezoid resp wvl ;; Ok (dset det i a)) l (Ok acc) = Ok out /\
    dkeys out = (dkeys acc ++ l)%list /\
    (forall det, In det l -> exists i, one b det = Ok i /\ dget det out = Some i) /\
    (forall det, ~ In det l -> dget det out = dget det acc).
Proof.
  induction l as [|det l IH]; intros acc H Nd Hn.
  { exists acc. cbn. rewrite app_nil_r. repeat split; auto. intros d []. }
  destruct (H det (or_introl eq_refl)) as [i Hi]. inversion Nd as [|? ? Hd Nd']; subst. cbn [fold_left].
  match goal with |- exists _, fold_left ?f l ?a = _ /\ _ => replace a with (Ok (dset det i acc)) end.
  2:{ symmetry. cbn [bind]. unfold one in Hi. destruct (of_option KeyError (dget det b)) as [d|]; [|discriminate Hi]. cbn [bind] in *.
      destruct (get_arr "wavelength" d); [|discriminate Hi]. cbn [bind] in *. destruct (get_arr "response" d); [|discriminate Hi]. cbn [bind] in *.
      now rewrite Hi. }
  assert (Ek : dkeys (dset det i acc) = (dkeys acc ++ [det])%list).
  { assert (Hnk : ~ In det (dkeys acc)) by (apply Hn; now left). clear - Hnk. unfold dkeys in *. induction acc as [|[k v] acc IH]; [reflexivity|].
    cbn [dset map fst] in *. destruct (String.eqb_spec det k) as [->|Hk]; [exfalso; apply Hnk; now left|].
    cbn [map fst app]. f_equal. apply IH. intros X. apply Hnk. now right. }
  destruct (IH (dset det i acc)) as (out & E & K & G & Z).
  - intros x Hx. apply H. now right.
  - exact Nd'.
  - intros x Hx. rewrite Ek. intros Hin. apply in_app_or in Hin. destruct Hin as [Hin|[<-|[]]]; [|contradiction]. revert Hin. apply Hn. now right.
  - exists out. split; [exact E|]. split; [rewrite K, Ek, <- app_assoc; reflexivity|]. split.
    + intros x [<-|Hx]; [|now apply G]. exists i. split; [exact Hi|]. rewrite Z by exact Hd. apply dget_dset_same.
    + intros x Hx. rewrite Z by (intros Y; apply Hx; now right). apply dget_dset_other. intros ->. apply Hx. now left.
Qed.

Lemma integral_all : forall (s : rsr_state XRN) name bd,
  RSRDict_getitem (rs_instrument s) (rs_rsr s) name = Ok bd -> NoDup (dkeys bd) ->
  Forall (fun dv => exists ws rs, curve_of (snd dv) ws rs) bd ->
  exists out, integral s name = Ok out /\ dkeys out = dkeys bd /\
    forall det d ws rs, dget det bd = Some d -> curve_of d ws rs -> dget det out = Some (Fin (Rtrapz rs ws)).
Proof.
  intros s name bd E Nd F. unfold integral. rewrite E. cbn [bind].
  assert (One : forall det d ws rs, dget det bd = Some d -> curve_of d ws rs -> @one XRN bd det = Ok (Fin (Rtrapz rs ws))).
  { intros det d ws rs Hd (W & R & L). unfold one. rewrite Hd. cbn [of_option bind]. unfold get_arr. rewrite W. cbn [of_option bind]. rewrite R. cbn [of_option bind].
    apply trapezoid_fin. exact L. }
  destruct (@integral_fold XRN bd (dkeys bd) []) as (out & Eo & K & G & _).
  - intros det Hin. assert (exists d, dget det bd = Some d) as [d Hd].
    { destruct (dget det bd) as [d|] eqn:Ed; [eauto|]. exfalso. revert Hin. now apply dget_None_notin. }
    pose proof (dget_Some_in _ _ _ Hd) as Hin'. rewrite Forall_forall in F. destruct (F _ Hin') as (ws & rs & C). eauto.
  - exact Nd.
  - intros det _ [].
  - exists out. split; [exact Eo|]. split; [exact K|]. intros det d ws rs Hd C.
    destruct (G det) as (i & Hi & Hg).
    { pose proof (dget_Some_in _ _ _ Hd) as X. apply (in_map fst) in X. exact X. }
    rewrite (One _ _ _ _ Hd C) in Hi. injection Hi as <-. exact Hg.
Qed.

Lemma converter_integral : forall load p i b det tbr (s : rsr_state XRN) (c : converter XRN) name bd d ws rs k,
  load p i = Ok s -> rs_si_scale s = Fin k ->
  RadTbConverter load p i b det WAVE_LENGTH tbr = Ok c -> cv_bandname c = Some name ->
  RSRDict_getitem (rs_instrument s) (rs_rsr s) name = Ok bd -> dget det bd = Some d -> curve_of d ws rs ->
  cv_rsr_integral c = Fin (k * Rtrapz rs ws).
Proof.
  intros load p i b det tbr s c name bd d ws rs k Hl Hk Hc Hn Eb Ed (W & R & L). unfold RadTbConverter in Hc. rewrite Hl in Hc.
  destruct (check_wavespace WAVE_LENGTH); [|discriminate Hc]. cbn [bind] in Hc. destruct (neqb XRN tbr n0); [discriminate Hc|]. cbn [bind] in Hc.
  unfold rsr_in_space in Hc. change (String.eqb WAVE_LENGTH WAVE_NUMBER) with false in Hc. cbn [bind] in Hc.
  destruct (resolve_band i b _) as [[bn bw]|]; [|discriminate Hc]. cbn [bind] in Hc.
  destruct (band_entry (RsrDict (rs_instrument s) (rs_rsr s)) bn) as [bb|] eqn:Be; [|discriminate Hc]. cbn [bind] in Hc.
  destruct (of_option KeyError (dget det bb)) as [dd|] eqn:De; [|discriminate Hc]. cbn [bind] in Hc.
  destruct (get_arr WAVE_LENGTH dd) as [w|] eqn:We; [|discriminate Hc]. cbn [bind] in Hc.
  destruct (get_arr "response" dd) as [r|] eqn:Re; [|discriminate Hc]. cbn [bind] in Hc.
  destruct (trapezoid r _) as [q|] eqn:Tq; [|discriminate Hc]. injection Hc as <-. cbn [cv_bandname cv_rsr_integral] in *.
  subst bn. cbn [band_entry rsr_getitem] in Be. rewrite Eb in Be. injection Be as <-. rewrite Ed in De. injection De as <-.
  unfold get_arr in We, Re. change WAVE_LENGTH with "wavelength"%string in We. rewrite W in We. rewrite R in Re. injection We as <-. injection Re as <-.
  rewrite Hk in Tq.
  assert (Em : map (fun x => nmul XRN x (Fin k)) (map Fin ws) = map Fin (map (Rmult k) ws)).
  { rewrite !map_map. apply map_ext. intros x. cbn [nmul XRN xmul]. now rewrite Rmult_comm. }
  rewrite Em, trapezoid_fin in Tq by (now rewrite map_length). injection Tq as <-. f_equal.
  clear. revert ws. induction rs as [|r0 rs IH]; intros ws; [destruct ws; cbn; lra|].
  destruct rs as [|r1 rs]; [rewrite !Rtrapz_one_l; lra|]. destruct ws as [|w0 [|w1 ws]]; [cbn [map]; rewrite !Rtrapz_nil_r; lra|cbn [map]; rewrite !Rtrapz_one_r; lra|].
  cbn [map]. rewrite !Rtrapz_cons2. specialize (IH (w1 :: ws)). cbn [map] in IH. rewrite IH. field.
Qed.
Lemma fresh_integral load p i b det tbr j data (c : converter XRN) name bd d ws rs :
  load p i = Ok (rsr_init j data) -> RadTbConverter load p i b det WAVE_LENGTH tbr = Ok c -> cv_bandname c = Some name ->
  RSRDict_getitem j data name = Ok bd -> dget det bd = Some d -> curve_of d ws rs ->
  cv_rsr_integral c = Fin (Rtrapz rs ws / 1000000).
Proof.
  intros L C B G D K. rewrite (converter_integral load p i b det tbr _ c name bd d ws rs (1 / 1000000) L); auto; f_equal; field.
Qed.
