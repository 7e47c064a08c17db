(** Consequences for whole calls: C34 - C40. *)
From Coq Require Import Reals Lra ZArith String Ascii List Bool Lia Arith Psatz.
From Verif Require Import Base NumSig XR M_Tables M_Utils M_Rsr M_RadTb M_Nir M_Rayleigh M_World M_Download S_Nir S_Rayleigh P_Arr P_Rayleigh P_Rayleigh2 P_Rayleigh3.
Import ListNotations.
Local Open Scope R_scope.

Lemma bind_Ok {A C} (m : res A) (k : A -> res C) c : bind m k = Ok c -> exists a, m = Ok a /\ k a = Ok c.
Proof. destruct m as [a|e]; cbn; [eauto|discriminate]. Qed.

(** ** C34 *)
Lemma blended lut ws ss az ts V smax tmax w : holds lut ws ss az ts V smax tmax -> inside ws w ->
  exists i w1 w2 f r1 r2 B, @wavelength_adjusted_lut XRN (Some lut) (Fin w) = Ok (map Fin B) /\
    nth_error ws i = Some w1 /\ nth_error ws (S i) = Some w2 /\ w1 < w <= w2 /\ 0 <= f <= 1 /\ f * w1 + (1 - f) * w2 = w /\
    nth_error V i = Some r1 /\ nth_error V (S i) = Some r2 /\
    List.length B = List.length r1 /\ List.length B = List.length r2 /\
    (forall n x y b, nth_error r1 n = Some x -> nth_error r2 n = Some y -> nth_error B n = Some b ->
       b = f * x + (1 - f) * y /\ Rmin x y <= b <= Rmax x y) /\
    (w = w2 -> B = r2).
Proof.
  intros H Hin. destruct (adjusted _ _ _ _ _ _ _ _ w H Hin) as (i & w1 & w2 & f & r1 & r2 & B & EB & N1 & N2 & Hw & Hf & Hs & V1 & V2 & LB & PB).
  pose proof (h_vlen _ _ _ _ _ _ _ _ H) as HL. rewrite Forall_forall in HL.
  pose proof (HL r1 (nth_error_In _ _ V1)) as Q1. pose proof (HL r2 (nth_error_In _ _ V2)) as Q2. fold (size3 ss az ts) in Q1, Q2.
  exists i, w1, w2, f, r1, r2, B. repeat (split; [solve [auto | lra | congruence]|]). split.
  - intros n x y b Hx Hy Hb. rewrite PB, Hx, Hy in Hb. injection Hb as <-. split; [reflexivity|]. apply adjusted_between. lra.
  - intros ->. assert (f = 0) as -> by nra. apply nth_ext with (d := 0) (d' := 0); [congruence|]. intros n Hn. 
    assert (E : nth_error B n = nth_error r2 n).
    { rewrite PB. destruct (nth_error r1 n) eqn:A; [|apply nth_error_None in A; lia]. destruct (nth_error r2 n); [f_equal; ring|reflexivity]. }
    destruct (nth_error r2 n) as [y|] eqn:Y; [|apply nth_error_None in Y; lia].
    rewrite (nth_error_nth _ _ _ Y). apply nth_error_nth. exact E.
Qed.
Lemma blended_range lut ws ss az ts V smax tmax w B lo hi : holds lut ws ss az ts V smax tmax -> inside ws w ->
  @wavelength_adjusted_lut XRN (Some lut) (Fin w) = Ok (map Fin B) ->
  (forall row v, In row V -> In v row -> lo <= v <= hi) -> List.length B = size3 ss az ts /\ (forall v, In v B -> lo <= v <= hi).
Proof.
  intros H Hin E Hv. destruct (adjusted _ _ _ _ _ _ _ _ w H Hin) as (i & w1 & w2 & f & r1 & r2 & B' & EB & N1 & N2 & Hw & Hf & Hs & V1 & V2 & LB & PB).
  rewrite EB in E. assert (B' = B) as ->.
  { injection E as E. clear - E. revert B E. induction B' as [|x l IH]; intros [|y m] E; try discriminate; [reflexivity|]. injection E as -> E. f_equal. auto. }
  split; [exact LB|]. intros v Iv. apply In_nth_error in Iv as [n Hn]. rewrite PB in Hn.
  destruct (nth_error r1 n) as [x|] eqn:X; [|discriminate]. destruct (nth_error r2 n) as [y|] eqn:Y; [|discriminate]. injection Hn as <-.
  apply lerp_between; [lra|exact (Hv r1 x (nth_error_In _ _ V1) (nth_error_In _ _ X))|exact (Hv r2 y (nth_error_In _ _ V2) (nth_error_In _ _ Y))].
Qed.

(** ** C36 *)
Lemma clip100_range x : @nclip XRN x n0 (nlit XRN 100 1) = NaN \/ exists v, @nclip XRN x n0 (nlit XRN 100 1) = Fin v /\ 0 <= v <= 100.
Proof.
  destruct x as [v| | |].
  - right. rewrite clip100_fin. eexists. split; [reflexivity|]. unfold percent. split; [apply Rmin_glb; [apply Rmax_r|lra]|apply Rmin_r].
  - right. exists 100. rewrite n0_fin, lit_fin. cbn. unfold Rltb. repeat (destruct (Rlt_dec _ _); try lra; cbn); split; try (f_equal; lra); lra.
  - right. exists 0. rewrite n0_fin, lit_fin. cbn. unfold Rltb. repeat (destruct (Rlt_dec _ _); try lra; cbn); split; try (f_equal; lra); lra.
  - left. reflexivity.
Qed.
Lemma percent_range v : 0 <= percent v <= 100.
Proof. unfold percent. split; [apply Rmin_glb; [apply Rmax_r|lra]|apply Rmin_r]. Qed.
Lemma percent_mono u v : u <= v -> percent u <= percent v.
Proof. intros H. unfold percent. apply Rle_min_compat_r. apply Rle_max_compat_r. exact H. Qed.
Lemma percent_neg v : v <= 0 -> percent v = 0.
Proof. intros H. unfold percent. rewrite Rmax_right, Rmin_left; lra. Qed.

Lemma reflectance_range oob dask load platform sensor lut sun sat azi band red r :
  @get_reflectance XRN oob dask load platform sensor lut sun sat azi band red = Ok r ->
  forall x, In x (a_data r) -> x = NaN \/ exists v, x = Fin v /\ 0 <= v <= 100.
Proof.
  unfold get_reflectance. cbv zeta. intros E x Hx.
  apply bind_Ok in E as (w & _ & E). apply bind_Ok in E as ([k a] & _ & E). apply bind_Ok in E as ([k' a'] & _ & E).
  assert (r = arr_map (fun x => nclip x n0 (nlit XRN 100 1)) a') as ->.
  { destruct (dask && _)%bool; [destruct k'|]; congruence. }
  cbn in Hx. apply in_map_iff in Hx as (y & <- & _). apply clip100_range.
Qed.

(** ** C37 *)
Lemma axis_equidistant l lo hi i x : axis l lo hi -> equidistant l -> nth_error l i = Some x ->
  x = lo + INR i * ((hi - lo) / IZR (Z.of_nat (List.length l) - 1)).
Proof.
  intros (_ & N & _ & F & L) (b & h & P) E. apply P in F as F'. apply P in L as L'. apply P in E. subst x. change (INR 0) with 0 in F'.
  rewrite minus_INR in L' by lia. change (INR 1) with 1 in L'. 
  assert (Q : IZR (Z.of_nat (List.length l) - 1) = INR (List.length l) - 1) by (rewrite minus_IZR, <- INR_IZR_INZ; reflexivity).
  rewrite Q. assert (1 < INR (List.length l)) by (change 1 with (INR 1); apply lt_INR; lia).
  replace (hi - lo) with ((INR (List.length l) - 1) * h) by lra. replace lo with b by lra. field. lra.
Qed.

Lemma used_node z m : 1 <= m -> 0 <= z < 90 -> sec_deg z <= m -> used_angle (Fin z) m = z.
Proof.
  intros Hm Hz Hs. cbn. apply Rclip_inside. split; [lra|].
  destruct (Rle_lt_dec z (max_angle m)) as [|C]; [auto|exfalso].
  pose proof (max_angle_bounds m Hm) as [[M0 M1] E]. unfold sec_deg in Hs.
  assert (PI > 0) by apply PI_RGT_0.
  assert (D : cos (z * PI / 180) < cos (max_angle m * PI / 180)).
  { apply cos_decreasing_1; try nra. }
  assert (P : 0 < cos (z * PI / 180)).
  { apply cos_gt_0; nra. }
  rewrite E in D. set (c := cos (z * PI / 180)) in *.
  assert (1 < m * c -> False).
  { intros. apply Rmult_lt_compat_r with (r := m) in D; [|lra]. unfold Rdiv in D. rewrite Rmult_assoc, Rinv_l in D; nra. }
  assert (1 <= m * c). { apply Rmult_le_compat_r with (r := c) in Hs; [|lra]. replace (1 / c * c) with 1 in Hs by (field; lra). lra. }
  apply Rmult_lt_compat_r with (r := m) in D; [|lra]. replace (1 / m * m) with 1 in D by (field; lra). nra.
Qed.

Section Angles.
  Variables (oob : XR -> Z) (lut : raylut XRN) (ws ss az ts : list R) (V : list (list R)) (smax tmax : R) (B : list R).
  Hypothesis H : holds lut ws ss az ts V smax tmax.
  Hypothesis HB : List.length B = size3 ss az ts.

  Lemma holds_axes : 1 < smax /\ 1 < tmax /\ (2 <= List.length ss)%nat /\ (2 <= List.length az)%nat /\ (2 <= List.length ts)%nat /\
    (Z.of_nat (List.length ss) <= 2 ^ 31)%Z /\ (Z.of_nat (List.length az) <= 2 ^ 31)%Z /\ (Z.of_nat (List.length ts) <= 2 ^ 31)%Z.
  Proof using H.
    pose proof (h_sun _ _ _ _ _ _ _ _ H) as As. pose proof (h_azi _ _ _ _ _ _ _ _ H) as Aa. pose proof (h_sat _ _ _ _ _ _ _ _ H) as At.
    pose proof (axis_lt _ _ _ As) as Ls. pose proof (axis_lt _ _ _ At) as Lt.
    destruct As as (_ & Ns & Zs & _), Aa as (_ & Na & Za & _), At as (_ & Nt & Zt & _). auto 10.
  Qed.

  Lemma angles_bounds z t a lo hi : 0 <= a <= 180 -> (forall v, In v B -> lo <= v <= hi) ->
    100 * lo <= angles_value oob ss az ts smax tmax B z t a <= 100 * hi.
  Proof using H HB.
    intros Ha Hv. destruct holds_axes as (L1 & L2 & O1 & O2 & O3 & Z1 & Z2 & Z3).
    destruct (secant_used z smax) as [_ Sz]; [lra|]. destruct (secant_used t tmax) as [_ St]; [lra|].
    unfold angles_value.
    enough (lo <= tri_value oob 1 smax 0 180 1 tmax (List.length ss) (List.length az) (List.length ts) B
             (sec_deg (used_angle z smax)) (180 - a) (sec_deg (used_angle t tmax)) <= hi) by lra.
    apply tri_bounds; auto; try lra.
  Qed.

  Lemma angles_node z t a i j k x y u v : equidistant ss -> equidistant az -> equidistant ts ->
    nth_error ss i = Some x -> nth_error az j = Some y -> nth_error ts k = Some u ->
    0 <= z < 90 -> sec_deg z = x -> a = 180 - y -> 0 <= t < 90 -> sec_deg t = u -> at_node az ts B i j k = Some v ->
    angles_value oob ss az ts smax tmax B (Fin z) (Fin t) a = 100 * v.
  Proof using H HB.
    intros Es Ea Et Hx Hy Hu Hz Sz -> Ht St Hv. destruct holds_axes as (L1 & L2 & O1 & O2 & O3 & Z1 & Z2 & Z3).
    pose proof (h_sun _ _ _ _ _ _ _ _ H) as As. pose proof (h_azi _ _ _ _ _ _ _ _ H) as Aa. pose proof (h_sat _ _ _ _ _ _ _ _ H) as At.
    unfold angles_value.
    rewrite used_node; [|lra|exact Hz|rewrite Sz; eapply axis_in; eauto using nth_error_In].
    rewrite used_node; [|lra|exact Ht|rewrite St; eapply axis_in; eauto using nth_error_In].
    rewrite Sz, St. replace (180 - (180 - y)) with y by lra.
    rewrite (axis_equidistant _ _ _ _ _ As Es Hx), (axis_equidistant _ _ _ _ _ Aa Ea Hy), (axis_equidistant _ _ _ _ _ At Et Hu).
    rewrite tri_node; auto; try lra; try (apply nth_error_Some; congruence).
    unfold at_node in Hv. rewrite Rmult_comm. f_equal.
    replace (List.length az * List.length ts * i + List.length ts * j + k)%nat with (i * (List.length az * List.length ts) + j * List.length ts + k)%nat by lia.
    now apply nth_error_nth.
  Qed.

  Lemma angles_affine z t a g : equidistant ss -> equidistant az -> equidistant ts -> multi_affine g -> sampled g ss az ts B ->
    angles_value oob ss az ts smax tmax B z t a = 100 * g (sec_deg (used_angle z smax)) (180 - a) (sec_deg (used_angle t tmax)).
  Proof using H HB.
    intros Es Ea Et Hg Hs. destruct holds_axes as (L1 & L2 & O1 & O2 & O3 & Z1 & Z2 & Z3).
    pose proof (h_sun _ _ _ _ _ _ _ _ H) as As. pose proof (h_azi _ _ _ _ _ _ _ _ H) as Aa. pose proof (h_sat _ _ _ _ _ _ _ _ H) as At.
    unfold angles_value. rewrite Rmult_comm. f_equal. apply tri_affine; auto; try lra.
    intros i j k Hi Hj Hk.
    destruct (nth_error ss i) as [x|] eqn:X; [|apply nth_error_None in X; lia].
    destruct (nth_error az j) as [y|] eqn:Y; [|apply nth_error_None in Y; lia].
    destruct (nth_error ts k) as [u|] eqn:U; [|apply nth_error_None in U; lia].
    rewrite <- (axis_equidistant _ _ _ _ _ As Es X), <- (axis_equidistant _ _ _ _ _ Aa Ea Y), <- (axis_equidistant _ _ _ _ _ At Et U).
    replace (List.length az * List.length ts * i + List.length ts * j + k)%nat with (i * (List.length az * List.length ts) + j * List.length ts + k)%nat by lia.
    apply nth_error_nth. now apply Hs.
  Qed.
End Angles.

(** ** C38 *)
Lemma cloud_low b : b < 20 -> cloud_factor b = 1.
Proof. intros. unfold cloud_factor. destruct (Rlt_dec b 20); lra. Qed.
Lemma cloud_mid b : 20 <= b -> cloud_factor b = (100 - b) / 80.
Proof. intros. unfold cloud_factor. destruct (Rlt_dec b 20); lra. Qed.
Lemma cloud_anti b b' : b <= b' -> cloud_factor b' <= cloud_factor b.
Proof. intros. unfold cloud_factor. repeat destruct (Rlt_dec _ 20); lra. Qed.

(** ** C39 *)
Definition Rreduce (z th mx st : R) : R := Rmin (Rmax (1 - st * (if Rlt_dec z th then 0 else (z - th) / (mx - th))) 0) 1.
Lemma zenith_factor_fin z th mx st : th < mx -> @zenith_factor XRN (Fin z) (Fin th) (Fin mx) (Fin st) = Fin (Rreduce z th mx st).
Proof.
  intros H. unfold zenith_factor, Rreduce. rewrite lit1, n0_fin. cbn [nltb XRN xltb nsub xsub]. unfold Rltb. cbn [xneg xadd].
  destruct (Rlt_dec z th); cbn [ndiv nmul XRN].
  - cbn [nsub xsub xmul xneg xadd XRN]. rewrite nclip_fin. unfold Rclip. do 3 f_equal; lra.
  - rewrite xdiv_fin by lra. cbn [xmul nsub xsub xneg xadd XRN]. rewrite nclip_fin. unfold Rclip. reflexivity.
Qed.
Lemma reduce_factor th mx st : th < mx -> 0 <= st -> forall z, 
  0 <= Rreduce z th mx st <= 1 /\ (z <= th -> Rreduce z th mx st = 1) /\ (st = 0 -> Rreduce z th mx st = 1) /\
  (mx <= z -> 1 <= st -> Rreduce z th mx st = 0) /\ (mx <= z -> st <= 1 -> Rreduce z th mx st <= 1 - st) /\
  (th <= z <= mx -> st <= 1 -> Rreduce z th mx st = 1 - st * ((z - th) / (mx - th))) /\
  (forall z', z <= z' -> Rreduce z' th mx st <= Rreduce z th mx st).
Proof.
  intros Hm Hs z. unfold Rreduce.
  assert (M : forall u, th <= u -> 0 <= (u - th) / (mx - th)) by (intros u Hu; apply Rmult_le_pos; [lra|left; apply Rinv_0_lt_compat; lra]).
  assert (G : forall u, mx <= u -> 1 <= (u - th) / (mx - th)) by (intros u Hu; apply Rmult_le_reg_r with (mx - th); [lra|]; unfold Rdiv; rewrite Rmult_assoc, Rinv_l; lra).
  assert (L : forall u, u <= mx -> (u - th) / (mx - th) <= 1) by (intros u Hu; apply Rmult_le_reg_r with (mx - th); [lra|]; unfold Rdiv; rewrite Rmult_assoc, Rinv_l; lra).
  assert (Z : th < mx -> (th - th) / (mx - th) = 0) by (intros; unfold Rdiv; ring).
  assert (I : forall u v, u <= v -> (u - th) / (mx - th) <= (v - th) / (mx - th)).
  { intros u v Huv. apply Rmult_le_compat_r; [left; apply Rinv_0_lt_compat; lra|lra]. }
  repeat split.
  - apply Rmin_glb; [apply Rmax_r|lra].
  - apply Rmin_r.
  - intros Hz. destruct (Rlt_dec z th); [|replace z with th by lra; rewrite Z by lra]; rewrite Rmax_left, Rmin_left by lra; ring.
  - intros ->. rewrite Rmult_0_l, Rmax_left, Rmin_left by lra. ring.
  - intros Hz H1. destruct (Rlt_dec z th); [lra|]. specialize (G z Hz). rewrite Rmax_right by nra. apply Rmin_left. lra.
  - intros Hz H1. destruct (Rlt_dec z th); [lra|]. specialize (G z Hz). eapply Rle_trans; [apply Rmin_l|]. apply Rmax_lub; nra.
  - intros Hz H1. destruct (Rlt_dec z th); [lra|]. specialize (M z (proj1 Hz)). specialize (L z (proj2 Hz)).
    rewrite Rmax_left by nra. apply Rmin_left. nra.
  - intros z' Hz. apply Rle_min_compat_r, Rle_max_compat_r.
    destruct (Rlt_dec z th), (Rlt_dec z' th); try lra.
    + specialize (M z' ltac:(lra)). nra.
    + specialize (I z z' Hz). nra.
Qed.

Lemma reduced s zen ray th mx st : th < mx -> fits s zen -> fits s ray ->
  exists r, @reduce_rayleigh_highzenith XRN zen ray (Fin th) (Fin mx) (Fin st) = Ok r /\ fits s r /\
    forall k z x, (k < size s)%nat -> pix k zen = Some (Fin z) -> pix k ray = Some (Fin x) -> pix k r = Some (Fin (x * Rreduce z th mx st)).
Proof.
  intros Hm Fz Fr. unfold reduce_rayleigh_highzenith.
  destruct (bmap2_fits (nmul XRN) s ray (arr_map (fun z => zenith_factor z (Fin th) (Fin mx) (Fin st)) zen) Fr (fits_map _ _ _ Fz)) as (c & -> & _ & Fc & Pc).
  exists c. split; [reflexivity|]. split; [exact Fc|]. intros k z x Hk Hz Hx. destruct (Pc k Hk) as (x' & y & Hx' & Hy & ->).
  rewrite Hx in Hx'. injection Hx' as <-. rewrite pix_map, Hz in Hy. cbn [option_map] in Hy. injection Hy as <-. rewrite zenith_factor_fin by exact Hm. reflexivity.
Qed.

(** ** C40 *)
Lemma remove_char_filter c s : list_ascii_of_string (remove_char c s) = filter (fun d => negb (Ascii.eqb d c)) (list_ascii_of_string s).
Proof.
  induction s as [|d s IH]; [reflexivity|]. cbn. rewrite (Ascii.eqb_sym d c). destruct (Ascii.eqb c d); cbn; [exact IH|now rewrite IH].
Qed.
Lemma sensor_name platform sensor :
  let without_slash s r := list_ascii_of_string r = filter (fun c => negb (Ascii.eqb c "/")) (list_ascii_of_string s) in
  (dget platform INSTRUMENTS = None -> exists r, normalize_sensor platform sensor = Ok r /\ without_slash sensor r) /\
  (forall i, dget platform INSTRUMENTS = Some (IOne i) -> exists r, normalize_sensor platform sensor = Ok r /\ without_slash i r) /\
  (forall l, dget platform INSTRUMENTS = Some (IList l) ->
     (In sensor l -> exists r, normalize_sensor platform sensor = Ok r /\ without_slash sensor r) /\
     (~ In sensor l -> normalize_sensor platform sensor = Err ValueError)) /\
  (forall r, normalize_sensor platform sensor = Ok r -> ~ In "/"%char (list_ascii_of_string r)).
Proof.
  intros ws. subst ws. cbv beta. pose proof (remove_char_filter "/") as F.
  assert (S : forall s, existsb_str s [] = false) by reflexivity.
  assert (EB : forall s l, existsb_str s l = true <-> In s l).
  { intros s l. unfold existsb_str. rewrite existsb_exists. split.
    - intros (x & I & E). apply String.eqb_eq in E. now subst.
    - intros I. exists s. split; [exact I|apply String.eqb_refl]. }
  unfold normalize_sensor. destruct (dget platform INSTRUMENTS) as [[i|l]|]; (split; [|split; [|split]]); try discriminate.
  - intros j [= <-]. cbn [bind]. eauto.
  - intros r [= <-]. rewrite F, filter_In. cbn. intros [_ A]. discriminate.
  - intros m [= <-]. split; intros I.
    + apply EB in I. rewrite I. cbn [bind]. eauto.
    + destruct (existsb_str sensor l) eqn:E; [apply EB in E; contradiction|]. reflexivity.
  - intros r E. destruct (existsb_str sensor l); [|discriminate]. injection E as <-. rewrite F, filter_In. cbn. intros [_ A]. discriminate.
  - intros _. cbn [bind]. eauto.
  - intros r [= <-]. rewrite F, filter_In. cbn. intros [_ A]. discriminate.
Qed.
