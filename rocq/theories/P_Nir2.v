(** The reflectance of one pixel over the reals: C17-C22, C71. *)
From Coq Require Import Reals Lra ZArith String List Bool Arith Lia.
From Verif Require Import Base NumSig XR M_Tables M_Utils M_Rsr M_Blackbody M_RadTb M_Nir S_Nir P_Arr P_RadTb P_Nir.
Import ListNotations.
Local Open Scope R_scope.

(** ** The expressions on finite numbers *)
Lemma eps_fin : @NIR_EPSILON XRN = Fin (5 / 1000).
Proof. reflexivity. Qed.

Lemma flag_zero b : neqb XRN (@flag XRN b) n0 = negb b.
Proof.
  unfold flag. destruct b; [rewrite n1_fin|]; rewrite n0_fin; cbn; unfold Reqb;
    match goal with |- context [Req_EM_T ?a ?b] => destruct (Req_EM_T a b) end; auto; lra.
Qed.
Lemma nor_zero (a b : XR) : neqb XRN (@nor XRN a b) n0 = (neqb XRN a n0 && neqb XRN b n0)%bool.
Proof.
  unfold nor. destruct (neqb XRN a n0 && neqb XRN b n0)%bool; [apply (flag_zero false)|apply (flag_zero true)].
Qed.

Lemma deg2rad_fin x : @deg2rad XRN (Fin x) = Fin (x * PI / 180).
Proof. unfold deg2rad. rewrite nZ_fin. cbn [nmul ndiv npi XRN xmul]. rewrite xdiv_fin by lra. cbn. f_equal. lra. Qed.

Lemma clip_fin thr z : @clip_sunz XRN (option_map Fin thr) (Fin z) = Fin (clipped thr z).
Proof.
  destruct thr as [t|]; cbn [clip_sunz option_map clipped]; rewrite n0_fin; [apply nclip_fin|apply nmax_fin].
Qed.

Lemma solar_fin (c : calculator XRN) I flux thr lim z : settings c I flux thr lim ->
  solar_raw c (Fin z) = Fin (solar_term flux thr z).
Proof.
  intros (_ & Hf & Ht & _). unfold solar_raw. rewrite Hf, Ht, clip_fin, deg2rad_fin. cbn [ncos XRN nmul ndiv npi xcos xmul].
  rewrite xdiv_fin by (apply PI_neq0). reflexivity.
Qed.

Lemma corr_fin t11 t13 : t11 <> 0 -> @corr_raw XRN (Fin t11) (Fin t13) = Fin (rosenfeld t11 t13).
Proof.
  intros H. unfold corr_raw. cbn [nsub nmul nlit XRN]. rewrite xlit_eq. cbn [xsub xmul]. rewrite !npow_fin.
  cbn [ndiv XRN]. rewrite xdiv_fin by (apply pow_nonzero; exact H). f_equal. unfold rosenfeld. field. exact H.
Qed.

(** What the code computes at a pixel with finite numbers. *)
Definition out_of_reach (lim : option R) (z : R) (tn : XR) (d : R) : bool :=
  (xisnan tn || Rltb d (5 / 1000) || match lim with Some l => Rltb z 0 || Rltb l z | None => false end)%bool.

Lemma pixel_fin lim I S z tn L T F :
  pixel_raw (option_map Fin lim) (Fin I) (Fin S) (Fin z) tn (Fin L) (Fin T) (Fin F) =
  let e := T * I * F in
  if out_of_reach lim z tn (S - e) then NaN else Fin ((L * I - e) / (S - e)).
Proof.
  unfold pixel_raw. cbv zeta. rewrite nor_zero. cbn [nmul nsub nltb nisnan XRN xmul xsub xltb].
  rewrite eps_fin, !flag_zero. cbn [xltb]. unfold out_of_reach.
  destruct lim as [l|]; cbn [option_map].
  - rewrite nor_zero, !flag_zero, n0_fin. cbn [xltb].
    destruct (xisnan tn), (Rltb (S - T * I * F) (5 / 1000)) eqn:Ed, (Rltb z 0), (Rltb l z); cbn; auto.
    apply Rltb_false_iff in Ed. apply xdiv_fin. lra.
  - rewrite flag_zero.
    destruct (xisnan tn), (Rltb (S - T * I * F) (5 / 1000)) eqn:Ed; cbn; auto.
    apply Rltb_false_iff in Ed. apply xdiv_fin. lra.
Qed.

Lemma pixel_inputs E c s sun nir therm co2 lut k z tn L T F rad11 rad3x z' tn' L' T' F' :
  pixel E c sun nir therm co2 lut k z tn L T F -> one_image s sun nir therm co2 lut ->
  tb2rad E (cl_conv c) (get_as_array therm) (table_of c lut) = Ok rad11 ->
  tb2rad E (cl_conv c) (get_as_array nir) (table_of c lut) = Ok rad3x ->
  pix k (get_as_array sun) = Some z' -> pix k (get_as_array nir) = Some tn' -> pix k rad3x = Some L' -> pix k rad11 = Some T' ->
  factor_raw (get_as_array therm) co2 k = Some F' ->
  z' = Fin z /\ tn' = tn /\ L' = Fin L /\ T' = Fin T /\ F' = Fin F.
Proof.
  intros (Pz & Pn & (a3 & E3 & PL) & (a11 & E11 & PT) & HF) _ R11 R3 Qz Qn QL QT QF.
  rewrite E3 in R3. injection R3 as <-. rewrite E11 in R11. injection R11 as <-.
  repeat (split; [congruence|]). unfold factor_raw in QF. destruct co2 as [a|].
  - destruct HF as (t11 & t13 & P1 & P2 & H0 & ->). change (num XRN) with XR in *. rewrite P1, P2 in QF. injection QF as <-. now apply corr_fin.
  - subst F. injection QF as <-. cbn. unfold xlit. f_equal. lra.
Qed.

(** The state and the pixels after a successful call. *)
Lemma nir_result E c s sun nir therm co2 lut st st' r I flux thr lim :
  reflectance_from_tbs E c sun nir therm co2 lut st = (st', Ok r) -> one_image s sun nir therm co2 lut -> floats nir therm ->
  settings c I flux thr lim ->
  fits s r /\
  forall k z tn L T F, (k < size s)%nat -> pixel E c sun nir therm co2 lut k z tn L T F ->
    (exists a, ns_solar st' = Some a /\ pix k a = Some (Fin (solar_term flux thr z))) /\
    pix k (ns_correction st') = Some (Fin F) /\
    pix k r = Some (if out_of_reach lim z tn (solar_term flux thr z - T * I * F) then NaN
                    else Fin ((L * I - T * I * F) / (solar_term flux thr z - T * I * F))).
Proof.
  intros H Him [Fn Ft] Hs. destruct (reflectance_pixels _ _ _ _ _ _ _ _ _ _ _ H Him) as (rad11 & rad3x & solar & corr & E11 & E3 & -> & F11 & F3 & Fr & Fc & P).
  split; [exact Fr|]. intros k z tn L T F Hk Hp. destruct (P k Hk) as (z' & tn' & L' & T' & F' & Qz & Qn & QL & QT & QF & QS & QC & QR).
  destruct (pixel_inputs _ _ _ _ _ _ _ _ _ _ _ _ _ _ _ _ _ _ _ _ _ Hp Him E11 E3 Qz Qn QL QT QF) as (-> & -> & -> & -> & ->).
  rewrite Fn in *. rewrite Ft in *. cbn [cast] in *. rewrite (solar_fin c I flux thr lim z Hs) in *.
  split; [exists solar; split; [reflexivity|exact QS]|]. split; [exact QC|].
  rewrite QR. f_equal. destruct Hs as (HI & _ & _ & Hl). rewrite HI, Hl. apply pixel_fin.
Qed.

Lemma out_iff lim z tn d : out_of_reach lim z tn d = true <-> tn = NaN \/ d < 5 / 1000 \/ sun_out lim z.
Proof.
  unfold out_of_reach, sun_out. rewrite !orb_true_iff, Rltb_iff. split.
  - intros [[H|H]|H]; auto.
    + left. now destruct tn.
    + right. right. destruct lim as [l|]; [|discriminate]. rewrite orb_true_iff, !Rltb_iff in H. exact H.
  - intros [->|[H|H]]; auto. right. destruct lim as [l|]; [|contradiction]. now rewrite orb_true_iff, !Rltb_iff.
Qed.

(** ** C17 *)
Lemma masked_exactly E c s sun nir therm co2 lut st st' r I flux thr lim k z tn L T F :
  reflectance_from_tbs E c sun nir therm co2 lut st = (st', Ok r) -> one_image s sun nir therm co2 lut -> floats nir therm ->
  settings c I flux thr lim -> (k < size s)%nat -> pixel E c sun nir therm co2 lut k z tn L T F ->
  let masked := tn = NaN \/ solar_term flux thr z - T * I * F < 5 / 1000 \/ sun_out lim z in
  exists v, pix k r = Some v /\ (v = NaN <-> masked) /\ (~ masked -> exists x, v = Fin x).
Proof.
  intros H Him Hf Hs Hk Hp. cbv zeta. destruct (nir_result _ _ _ _ _ _ _ _ _ _ _ _ _ _ _ H Him Hf Hs) as [_ P].
  destruct (P k z tn L T F Hk Hp) as (_ & _ & PR). eexists. split; [exact PR|].
  destruct (out_of_reach lim z tn (solar_term flux thr z - T * I * F)) eqn:E0.
  - apply out_iff in E0. split; [tauto|tauto].
  - split; [|eauto]. split; [discriminate|]. intros M. apply out_iff in M. congruence.
Qed.

(** pixels do not influence each other, over any numbers *)
Lemma pixel_independence (N : Num) (E : nir_env N) c s s' sun nir therm co2 sun' nir' therm' co2' lut st st1 st' st1' r r' k k' :
  reflectance_from_tbs E c sun nir therm co2 lut st = (st1, Ok r) -> one_image s sun nir therm co2 lut ->
  reflectance_from_tbs E c sun' nir' therm' co2' lut st' = (st1', Ok r') -> one_image s' sun' nir' therm' co2' lut ->
  a_dtype (get_as_array nir) = a_dtype (get_as_array nir') -> a_dtype (get_as_array therm) = a_dtype (get_as_array therm') ->
  (k < size s)%nat -> (k' < size s')%nat ->
  pix k (get_as_array sun) = pix k' (get_as_array sun') -> pix k (get_as_array nir) = pix k' (get_as_array nir') ->
  pix k (get_as_array therm) = pix k' (get_as_array therm') ->
  option_map (fun a => pix k (get_as_array a)) co2 = option_map (fun a => pix k' (get_as_array a)) co2' ->
  pix k r = pix k' r' /\ exists v, pix k r = Some v.
Proof.
  intros H Him H' Him' Dn Dt Hk Hk' Pz Pn Pt Pc.
  destruct (reflectance_pixels _ _ _ _ _ _ _ _ _ _ _ H Him) as (rad11 & rad3x & solar & corr & E11 & E3 & _ & _ & _ & _ & _ & P).
  destruct (reflectance_pixels _ _ _ _ _ _ _ _ _ _ _ H' Him') as (rad11' & rad3x' & solar' & corr' & E11' & E3' & _ & _ & _ & _ & _ & P').
  destruct (P k Hk) as (z & tn & L & T & F & Qz & Qn & QL & QT & QF & _ & _ & QR).
  destruct (P' k' Hk') as (z' & tn' & L' & T' & F' & Qz' & Qn' & QL' & QT' & QF' & _ & _ & QR').
  assert (z' = z) as -> by congruence. assert (tn' = tn) as -> by congruence.
  assert (L' = L) as ->.
  { assert (pix k rad3x = pix k' rad3x').
    { eapply (tb2rad_pixels E (cl_conv c) s s' _ _ _ _ _ k k' tn E3 E3'); [exact Dn|apply Him|apply Him'|exact Hk|exact Hk'|congruence|congruence]. }
    congruence. }
  assert (T' = T) as ->.
  { destruct (pix_some s (get_as_array therm) k) as [t Ht]; [left; apply Him|exact Hk|].
    assert (pix k rad11 = pix k' rad11').
    { eapply (tb2rad_pixels E (cl_conv c) s s' _ _ _ _ _ k k' t E11 E11'); [exact Dt|apply Him|apply Him'|exact Hk|exact Hk'|congruence|congruence]. }
    congruence. }
  assert (F' = F) as ->.
  { unfold factor_raw in *. destruct co2 as [a|], co2' as [a'|]; try discriminate; [|congruence].
    cbn in Pc. injection Pc as Pc. rewrite <- Pt, <- Pc in QF'. congruence. }
  rewrite QR, QR', Dn, Dt. split; [reflexivity|eauto].
Qed.

(** ** C18, C19, C20 *)
Lemma unmasked_value E c s sun nir therm co2 lut st st' r I flux thr lim k z tn L T F v :
  reflectance_from_tbs E c sun nir therm co2 lut st = (st', Ok r) -> one_image s sun nir therm co2 lut -> floats nir therm ->
  settings c I flux thr lim -> (k < size s)%nat -> pixel E c sun nir therm co2 lut k z tn L T F ->
  pix k r = Some (Fin v) ->
  5 / 1000 <= solar_term flux thr z - T * I * F /\ v = (L * I - T * I * F) / (solar_term flux thr z - T * I * F).
Proof.
  intros H Him Hf Hs Hk Hp Hv. destruct (nir_result _ _ _ _ _ _ _ _ _ _ _ _ _ _ _ H Him Hf Hs) as [_ P].
  destruct (P k z tn L T F Hk Hp) as (_ & _ & PR). rewrite PR in Hv.
  destruct (out_of_reach lim z tn (solar_term flux thr z - T * I * F)) eqn:E0; [discriminate|]. injection Hv as <-.
  split; [|reflexivity]. destruct (Rle_lt_dec (5 / 1000) (solar_term flux thr z - T * I * F)) as [|A]; auto.
  assert (out_of_reach lim z tn (solar_term flux thr z - T * I * F) = true) by (apply out_iff; auto). congruence.
Qed.

Lemma closure E c s sun nir therm co2 lut st st' r I flux thr lim k z tn L T F v :
  reflectance_from_tbs E c sun nir therm co2 lut st = (st', Ok r) -> one_image s sun nir therm co2 lut -> floats nir therm ->
  settings c I flux thr lim -> (k < size s)%nat -> pixel E c sun nir therm co2 lut k z tn L T F ->
  pix k r = Some (Fin v) ->
  L * I = v * solar_term flux thr z + (1 - v) * (T * I * F).
Proof.
  intros H Him Hf Hs Hk Hp Hv. destruct (unmasked_value _ _ _ _ _ _ _ _ _ _ _ _ _ _ _ _ _ _ _ _ _ _ H Him Hf Hs Hk Hp Hv) as [A ->].
  field. lra.
Qed.

Lemma range E c s sun nir therm co2 lut st st' r I flux thr lim k z tn L T F v :
  reflectance_from_tbs E c sun nir therm co2 lut st = (st', Ok r) -> one_image s sun nir therm co2 lut -> floats nir therm ->
  settings c I flux thr lim -> (k < size s)%nat -> pixel E c sun nir therm co2 lut k z tn L T F ->
  pix k r = Some (Fin v) ->
  (0 <= v <-> T * I * F <= L * I) /\ (v <= 1 <-> L * I <= solar_term flux thr z).
Proof.
  intros H Him Hf Hs Hk Hp Hv. pose proof (closure _ _ _ _ _ _ _ _ _ _ _ _ _ _ _ _ _ _ _ _ _ _ H Him Hf Hs Hk Hp Hv) as C.
  destruct (unmasked_value _ _ _ _ _ _ _ _ _ _ _ _ _ _ _ _ _ _ _ _ _ _ H Him Hf Hs Hk Hp Hv) as [A _].
  set (S := solar_term flux thr z) in *. clearbody S. set (e := T * I * F) in *. clearbody e. split; split; intros B; nra.
Qed.

Lemma monotone E c s s' sun nir therm co2 lut st st1 r sun' nir' therm' co2' lut' st' st1' r' I flux thr lim k k' z tn tn' L L' T T' F F' v v' :
  reflectance_from_tbs E c sun nir therm co2 lut st = (st1, Ok r) -> one_image s sun nir therm co2 lut -> floats nir therm ->
  reflectance_from_tbs E c sun' nir' therm' co2' lut' st' = (st1', Ok r') -> one_image s' sun' nir' therm' co2' lut' -> floats nir' therm' ->
  settings c I flux thr lim -> 0 < I -> (k < size s)%nat -> (k' < size s')%nat ->
  pixel E c sun nir therm co2 lut k z tn L T F -> pixel E c sun' nir' therm' co2' lut' k' z tn' L' T' F' ->
  pix k r = Some (Fin v) -> pix k' r' = Some (Fin v') ->
  (T * F = T' * F' -> L < L' -> v < v') /\
  (L = L' -> T * F <= T' * F' -> L * I <= solar_term flux thr z -> v' <= v).
Proof.
  intros H Him Hf H' Him' Hf' Hs HI Hk Hk' Hp Hp' Hv Hv'.
  destruct (unmasked_value _ _ _ _ _ _ _ _ _ _ _ _ _ _ _ _ _ _ _ _ _ _ H Him Hf Hs Hk Hp Hv) as [A ->].
  destruct (unmasked_value _ _ _ _ _ _ _ _ _ _ _ _ _ _ _ _ _ _ _ _ _ _ H' Him' Hf' Hs Hk' Hp' Hv') as [A' ->].
  set (S := solar_term flux thr z) in *. clearbody S. split.
  - intros HT HL. replace (T' * I * F') with (T * I * F) in * by nra. apply Rmult_lt_compat_r; [apply Rinv_0_lt_compat; lra|].
    nra.
  - intros <- HT HS. assert (He : T * I * F <= T' * I * F') by nra. set (e := T * I * F) in *. set (e' := T' * I * F') in *.
    clearbody e e'. set (l := L * I) in *. clearbody l.
    apply Rmult_le_reg_r with (S - e); [lra|]. replace ((l - e) / (S - e) * (S - e)) with (l - e) by (field; lra).
    apply Rmult_le_reg_r with (S - e'); [lra|]. replace ((l - e') / (S - e') * (S - e) * (S - e')) with ((l - e') * (S - e)) by (field; lra).
    nra.
Qed.

(** ** C21 *)
Ltac minmax := unfold clipped, Rmin, Rmax;
  repeat (match goal with |- context [Rle_dec ?a ?b] =>
            lazymatch a with context [Rle_dec] => fail | _ => destruct (Rle_dec a b) end end); lra.
Lemma cos_decr_deg a b : 0 <= a -> a <= b -> b <= 180 -> cos (b * PI / 180) <= cos (a * PI / 180).
Proof.
  intros Ha Hab Hb. pose proof PI_RGT_0. apply cos_decr_1; nra.
Qed.
Lemma clipped_mono thr z z' : z <= z' -> clipped thr z <= clipped thr z'.
Proof.
  intros H. destruct thr as [t|]; minmax.
Qed.
Lemma clipped_range thr z : match thr with Some t => 0 <= t <= 180 | None => z <= 180 end -> 0 <= clipped thr z <= 180.
Proof.
  destruct thr as [t|]; minmax.
Qed.

Lemma solar_facts flux thr z z' : 0 <= flux -> 0 <= thr <= 90 ->
  (thr <= z -> thr <= z' -> solar_term flux (Some thr) z = solar_term flux (Some thr) z') /\
  (z <= z' -> solar_term flux (Some thr) z' <= solar_term flux (Some thr) z) /\
  0 <= solar_term flux (Some thr) z <= flux / PI.
Proof.
  intros Hf Ht. pose proof PI_RGT_0 as HP. split; [|split].
  - intros H H'. unfold solar_term. replace (clipped (Some thr) z) with (clipped (Some thr) z'); [reflexivity|].
    minmax.
  - intros H. unfold solar_term. apply Rmult_le_compat_r; [left; now apply Rinv_0_lt_compat|].
    apply Rmult_le_compat_l; [exact Hf|]. apply cos_decr_deg; [|now apply clipped_mono|];
      apply clipped_range; lra.
  - assert (B : 0 <= cos (clipped (Some thr) z * PI / 180) <= 1).
    { split; [|apply COS_bound]. assert (0 <= clipped (Some thr) z <= 90).
      { minmax. }
      apply cos_ge_0; nra. }
    unfold solar_term. split.
    + apply Rmult_le_pos; [apply Rmult_le_pos; lra|left; now apply Rinv_0_lt_compat].
    + apply Rmult_le_compat_r; [left; now apply Rinv_0_lt_compat|]. nra.
Qed.

Lemma sun_clipping E c s sun nir therm co2 lut st st' r I flux thr lim k z tn L T F :
  reflectance_from_tbs E c sun nir therm co2 lut st = (st', Ok r) -> one_image s sun nir therm co2 lut -> floats nir therm ->
  settings c I flux (Some thr) lim -> 0 <= flux -> 0 <= thr <= 90 -> (k < size s)%nat -> pixel E c sun nir therm co2 lut k z tn L T F ->
  exists a S, ns_solar st' = Some a /\ pix k a = Some (Fin S) /\ 0 <= S <= flux / PI /\
    (0 <= z <= thr -> S = flux * cos (z * PI / 180) / PI) /\
    (z <= 0 -> S = flux / PI) /\
    (thr <= z -> S = flux * cos (thr * PI / 180) / PI) /\
    (lim = None -> tn <> NaN -> 5 / 1000 <= S - T * I * F -> exists v, pix k r = Some (Fin v)).
Proof.
  intros H Him Hf Hs Hfl Ht Hk Hp. destruct (nir_result _ _ _ _ _ _ _ _ _ _ _ _ _ _ _ H Him Hf Hs) as [_ P].
  destruct (P k z tn L T F Hk Hp) as ((a & Ha & Pa) & _ & PR). exists a, (solar_term flux (Some thr) z).
  split; [exact Ha|]. split; [exact Pa|]. split; [now apply (solar_facts flux thr z z)|].
  assert (Q : forall y, clipped (Some thr) z = y -> solar_term flux (Some thr) z = flux * cos (y * PI / 180) / PI) by (intros y <-; reflexivity).
  split; [|split; [|split]].
  - intros Hz. apply Q. minmax.
  - intros Hz. rewrite (Q 0).
    + replace (0 * PI / 180) with 0 by lra. rewrite cos_0. lra.
    + minmax.
  - intros Hz. apply Q. minmax.
  - intros -> Hn Hd. rewrite PR. destruct (out_of_reach None z tn _) eqn:E0; [|eauto].
    apply out_iff in E0. cbn in E0. destruct E0 as [|[|[]]]; [contradiction|lra].
Qed.

(** ** C22 *)
Lemma rosenfeld_range t11 t13 : 0 < t13 -> t13 <= t11 ->
  (3 / 4) ^ 4 < rosenfeld t11 t13 <= 1 /\ (rosenfeld t11 t13 = 1 <-> t13 = t11).
Proof.
  intros H H'. assert (B : 3 / 4 < (3 * t11 + t13) / (4 * t11) <= 1).
  { split.
    - apply Rmult_lt_reg_r with (4 * t11); [lra|]. field_simplify; lra.
    - apply Rmult_le_reg_r with (4 * t11); [lra|]. field_simplify; lra. }
  unfold rosenfeld. set (q := (3 * t11 + t13) / (4 * t11)) in *.
  assert (Q4 : q ^ 4 <= 1) by (replace (q ^ 4) with ((q * q) * (q * q)) by ring; assert (0 <= q * q <= 1) by nra; nra).
  assert (Q5 : (3 / 4) ^ 4 < q ^ 4).
  { replace (q ^ 4) with ((q * q) * (q * q)) by ring. replace ((3 / 4) ^ 4) with ((9 / 16) * (9 / 16)) by lra. assert (9 / 16 < q * q) by nra. nra. }
  split; [split; assumption|]. split.
  - intros E. assert (q = 1).
    { destruct (Rle_lt_or_eq_dec q 1) as [|]; [lra| |assumption]. exfalso.
      assert (q * q < 1) by nra. assert (q ^ 4 < 1) by (replace (q ^ 4) with ((q * q) * (q * q)) by ring; nra). lra. }
    unfold q in H0. apply (f_equal (fun x => x * (4 * t11))) in H0. field_simplify in H0; lra.
  - intros ->. unfold q. replace ((3 * t11 + t11) / (4 * t11)) with 1 by (field; lra). lra.
Qed.
Lemma rosenfeld_incr t11 t13 t13' : 0 < t11 -> 0 < t13 -> t13 < t13' -> rosenfeld t11 t13 < rosenfeld t11 t13'.
Proof.
  intros H H1 H2. unfold rosenfeld.
  assert (0 < (3 * t11 + t13) / (4 * t11) < (3 * t11 + t13') / (4 * t11)).
  { split; [apply Rdiv_lt_0_compat; lra|]. apply Rmult_lt_compat_r; [apply Rinv_0_lt_compat; lra|lra]. }
  set (a := (3 * t11 + t13) / (4 * t11)) in *. set (b := (3 * t11 + t13') / (4 * t11)) in *. clearbody a b.
  replace (a ^ 4) with ((a * a) * (a * a)) by ring. replace (b ^ 4) with ((b * b) * (b * b)) by ring.
  assert (a * a < b * b) by nra. nra.
Qed.

Lemma correction_method (s : nirstate XRN) sh bt11 bt13 method k t11 t13 :
  fits sh bt11 -> fits sh bt13 -> (k < size sh)%nat -> pix k bt11 = Some (Fin t11) -> pix k bt13 = Some (Fin t13) -> 0 < t13 -> t13 <= t11 ->
  let (s', o) := m_derive_rad39_corr bt11 bt13 method s in
  (method = "rosenfeld"%string -> o = Ok tt /\ exists F, pix k (ns_correction s') = Some (Fin F) /\ F = rosenfeld t11 t13 /\
      (3 / 4) ^ 4 < F <= 1 /\ (F = 1 <-> t13 = t11)) /\
  (method <> "rosenfeld"%string -> s' = s /\ o = Err AttributeError).
Proof.
  intros F1 F2 Hk P1 P2 H0 H1. unfold m_derive_rad39_corr, mbind, mlift, mset.
  destruct (String.eqb_spec method "rosenfeld") as [->|Hne].
  - destruct (corr_pixels sh bt11 bt13 F1 F2) as (c & Ec & _ & Pc). rewrite Ec. split; [|tauto].
    intros _. split; [reflexivity|]. exists (rosenfeld t11 t13). cbn [ns_correction with_corr].
    rewrite (Pc k _ _ Hk P1 P2), corr_fin by lra. split; [reflexivity|]. split; [reflexivity|]. now apply rosenfeld_range.
  - unfold derive_rad39_corr. destruct (String.eqb_spec method "rosenfeld"); [contradiction|]. cbn. split; [tauto|auto].
Qed.

Lemma factor_used E c s sun nir therm co2 lut st st' r I flux thr lim k z tn L T F :
  reflectance_from_tbs E c sun nir therm co2 lut st = (st', Ok r) -> one_image s sun nir therm co2 lut -> floats nir therm ->
  settings c I flux thr lim -> (k < size s)%nat -> pixel E c sun nir therm co2 lut k z tn L T F ->
  pix k (ns_correction st') = Some (Fin F) /\ (co2 = None -> F = 1) /\
  (forall a t11 t13, co2 = Some a -> pix k (get_as_array therm) = Some (Fin t11) -> pix k (get_as_array a) = Some (Fin t13) -> F = rosenfeld t11 t13).
Proof.
  intros H Him Hf Hs Hk Hp. destruct (nir_result _ _ _ _ _ _ _ _ _ _ _ _ _ _ _ H Him Hf Hs) as [_ P].
  destruct (P k z tn L T F Hk Hp) as (_ & PC & _). split; [exact PC|]. destruct Hp as (_ & _ & _ & _ & HF). split.
  - intros ->. exact HF.
  - intros a t11 t13 -> P1 P2. destruct HF as (u & v & Q1 & Q2 & _ & ->). change (num XRN) with XR in *.
    rewrite P1 in Q1. rewrite P2 in Q2. injection Q1 as ->. injection Q2 as ->. reflexivity.
Qed.

(** ** C71: integer temperatures *)
Lemma Rtrunc_small r : -1 < r < 1 -> Rtrunc r = 0%Z.
Proof.
  intros H. unfold Rtrunc. destruct (Rlt_dec r 0) as [A|A].
  - replace (Int_part (- r)) with 0%Z; [reflexivity|]. symmetry. apply Int_part_unique. lra.
  - apply Int_part_unique. lra.
Qed.

Lemma integer_temperatures E c s sun nir therm co2 lut st st' r I :
  reflectance_from_tbs E c sun nir therm co2 lut st = (st', Ok r) -> one_image s sun nir therm co2 lut ->
  a_dtype (get_as_array nir) = Int64 -> a_dtype (get_as_array therm) = Int64 ->
  cv_rsr_integral (cl_conv c) = Fin I -> -1 < I < 1 ->
  forall k L T, (k < size s)%nat ->
  (exists a, tb2rad E (cl_conv c) (get_as_array nir) (table_of c lut) = Ok a /\ pix k a = Some (Fin L)) ->
  (exists a, tb2rad E (cl_conv c) (get_as_array therm) (table_of c lut) = Ok a /\ pix k a = Some (Fin T)) ->
  pix k r = Some NaN \/ pix k r = Some (Fin 0).
Proof.
  intros H Him Dn Dt HI HI1 k L T Hk (a3 & A3 & PL) (a11 & A11 & PT).
  destruct (reflectance_pixels _ _ _ _ _ _ _ _ _ _ _ H Him) as (rad11 & rad3x & solar & corr & E11 & E3 & _ & _ & _ & _ & _ & P).
  rewrite A3 in E3. injection E3 as <-. rewrite A11 in E11. injection E11 as <-.
  destruct (P k Hk) as (z & tn & L' & T' & F & _ & _ & QL & QT & _ & _ & _ & QR). change (num XRN) with XR in *.
  rewrite PL in QL. injection QL as <-. rewrite PT in QT. injection QT as <-.
  rewrite QR, Dn, Dt, HI.
  replace (cast E Int64 (Fin I)) with (Fin 0).
  2:{ unfold cast. cbn [ntrunc XRN xtrunc]. rewrite Rtrunc_small by exact HI1. cbn [in_int64]. unfold in_int64. cbn -[nZ]. now rewrite nZ_fin. }
  assert (G : forall x, exists y, cast E Int64 x = Fin y).
  { intros x. unfold cast. destruct (ntrunc XRN x) as [t|]; [destruct (in_int64 t)|]; rewrite nZ_fin; eauto. }
  destruct (G (solar_raw c z)) as [S ->]. destruct (G F) as [F' ->].
  unfold pixel_raw. cbv zeta. match goal with |- context [if ?b then _ else _] => destruct b eqn:Eb end; [|left; reflexivity].
  right. f_equal. cbn [nmul nsub XRN xmul xsub].
  assert (D : 5 / 1000 <= S - T * 0 * F').
  { rewrite nor_zero in Eb. apply andb_true_iff in Eb. destruct Eb as [Eb _]. cbn [nmul nsub nltb XRN xmul xsub] in Eb.
    rewrite eps_fin in Eb. cbn [xltb] in Eb.
    destruct (cl_masking_limit c); [rewrite nor_zero in Eb; apply andb_true_iff in Eb; destruct Eb as [_ Eb]|];
      rewrite flag_zero in Eb; apply negb_true_iff, Rltb_false_iff in Eb; exact Eb. }
  cbn [ndiv XRN]. rewrite xdiv_fin by lra. f_equal. replace (L * 0 - T * 0 * F') with 0 by ring. unfold Rdiv. apply Rmult_0_l.
Qed.
