(** Lemmas about the fake data of pyspectral.testing: the mocked responses and
    the fake Rayleigh table. *)
From Coq Require Import Reals Lra Lia ZArith String Ascii List Bool Sorted.
From Verif Require Import Base NumSig XR M_Tables M_Utils M_Solar M_Nir M_RadTb M_Rayleigh M_World M_Download M_Rsr M_Fake
     S_Names S_Utils S_Solar S_Nir S_Rayleigh S_Fake P_Arr P_Utils P_Central P_Solar P_Names P_Rayleigh P_Rayleigh2 P_Rayleigh3 P_Rayleigh4 P_Rayleigh5 P_Effective S_Effective P_Fake P_Fake2.
Import ListNotations.
Local Open Scope string_scope.
Local Open Scope R_scope.

Lemma mocked_ok dir (central : dict R) platform sensor i t :
  check_and_adjust_instrument_name platform sensor = Ok i -> plain i -> plain platform -> band_table i t ->
  exists s, @mocked_response XRN dir (dmap Fin central) platform sensor = Ok s /\
    rs_instrument s = Some (IOne i) /\ rs_wavespace s = "wavelength" /\ rs_unit s = "1e-6 m" /\
    NoDup (dkeys (rs_rsr s)) /\ (forall b, In b (dkeys (rs_rsr s)) <-> In b (map snd t)) /\
    (forall b, In b (map snd t) -> dget b (rs_rsr s) = Some (saw_tooth (wanted t central b))).
Proof.
  intros A Hi Hp T. destruct (adjusted_form _ _ _ A) as (Hl & _). unfold mocked_response. rewrite A. cbn [bind].
  destruct (fake_info_ok dir central platform i t Hl Hi Hp T) as (info & E & _ & _ & _ & _ & N & K & G). rewrite E. cbn [bind].
  eexists. split; [reflexivity|]. cbn [rs_instrument rs_wavespace rs_unit rs_rsr rsr_init]. repeat split; auto; apply K.
Qed.

Lemma mocked_file dir (central : dict R) platform i t : lower i = i -> plain i -> plain platform -> band_table i t ->
  exists j s, @mocked_response_from_file XRN (dmap Fin central) (join dir (get_rsr_filename platform i)) = Ok (platform, j, s) /\
    (~ is_avhrr i -> j = i) /\ (forall p c, is_avhrr i -> i = p ++ String c "" -> j = "avhrr/" ++ String c "") /\
    rs_instrument s = Some (IOne j) /\
    (forall b, In b (map snd t) -> dget b (rs_rsr s) = Some (saw_tooth (wanted t central b))).
Proof.
  intros Hl Hi Hp T. unfold mocked_response_from_file.
  destruct (fake_info_ok dir central platform i t Hl Hi Hp T) as (info & E & P & I & _ & _ & N & K & G). rewrite E. cbn [bind].
  exists (fake_instrument i). eexists. rewrite P, I. split; [reflexivity|]. unfold fake_instrument. split; [|split; [|split]].
  - intros H. destruct (startswith i "avhrr") eqn:S; [apply prefix_iff in S; contradiction|reflexivity].
  - intros p c H ->. apply prefix_iff in H. rewrite H. destruct (last_char_form (p ++ String c "")) as (q & d & Q & ->); [destruct p; discriminate|].
    apply app_last_inj in Q. now subst.
  - reflexivity.
  - exact G.
Qed.

(** names users know the bands by *)
Lemma in_dget {V} k (v : V) d : dget k d = Some v -> In v (map snd d).
Proof. induction d as [|[k' v'] d IH]; [discriminate|]. cbn. destruct (String.eqb k k'); [intros [= <-]; now left|right; auto]. Qed.
Lemma dget_in_keys {V} k (d : dict V) : dget k d = None <-> ~ In k (dkeys d).
Proof.
  induction d as [|[k' v'] d IH]; cbn; [tauto|]. destruct (String.eqb_spec k k') as [->|Hn]; [intuition discriminate|]. rewrite IH. intuition.
Qed.

Lemma by_name i t n b (d : rsrdata XRN) : ~ is_avhrr i -> band_table i t -> dget n t = Some b ->
  (forall b, In b (dkeys d) <-> In b (map snd t)) -> RSRDict_getitem (Some (IOne i)) d n = of_option KeyError (dget b d) /\ dget b d <> None.
Proof.
  intros Ha T Hn K. pose proof (in_dget _ _ _ Hn) as Hb. split; [|rewrite dget_in_keys, K; tauto].
  assert (Q : In t (map snd BANDNAMES)).
  { destruct T as [[T _]|(_ & [T|[_ ->]])]; [contradiction|exact (in_dget _ _ _ T)|left; reflexivity]. }
  assert (SAME : In n (map snd t) -> b = n).
  { assert (C : forallb (fun t => forallb (fun n => negb (existsb (String.eqb n) (map snd t)) || (match dget n t with Some m => String.eqb m n | None => true end)) (dkeys t)) (map snd BANDNAMES) = true) by (vm_compute; reflexivity).
    rewrite forallb_forall in C. specialize (C t Q). rewrite forallb_forall in C.
    intros In'. specialize (C n). rewrite Hn in C.
    assert (Kn : In n (dkeys t)). { destruct (in_dec string_dec n (dkeys t)) as [I|I]; [exact I|]. apply dget_in_keys in I. congruence. }
    specialize (C Kn). apply orb_true_iff in C. destruct C as [C|C]; [|now apply String.eqb_eq].
    apply negb_true_iff in C. assert (existsb (String.eqb n) (map snd t) = true); [|congruence]. apply existsb_exists. exists n. split; [exact In'|apply String.eqb_refl]. }
  unfold RSRDict_getitem. destruct (dget n d) as [v|] eqn:Dn.
  - assert (In n (map snd t)). { apply K. destruct (in_dec string_dec n (dkeys d)) as [I|I]; [exact I|]. apply dget_in_keys in I. congruence. }
    rewrite (SAME H), Dn. reflexivity.
  - destruct T as [[T _]|(_ & [T|[T ->]])]; [contradiction| |]; rewrite T; rewrite Hn; reflexivity.
Qed.

(** ** the fake Rayleigh table *)
Definition fk_ws := even_grid 400 800 80.
Definition fk_ss := even_grid 1 (2475 / 100) 95.
Definition fk_az := even_grid 0 180 18.
Definition fk_ts := even_grid 1 3 8.
Definition fk_rs := even_grid (668 / 1000) (115 / 1000) 80.
Definition fk_V := map (fun v => repeat v (96 * (19 * 9))) fk_rs.

Lemma grid_nth a b n k : (k <= S n)%nat -> nth_error (even_grid a b (S n)) k = Some (a + INR k * ((b - a) / INR (S n))).
Proof.
  intros H. unfold even_grid. rewrite nth_error_map. rewrite nth_error_nth' with (d := 0%nat) by (rewrite seq_length; lia).
  rewrite seq_nth by lia. reflexivity.
Qed.
Lemma grid_increasing a b n : a < b -> increasing (even_grid a b (S n)).
Proof.
  intros H i j x y Hij Hi Hj.
  assert (Lj : (j < List.length (even_grid a b (S n)))%nat) by (apply nth_error_Some; congruence). rewrite grid_length in Lj.
  rewrite grid_nth in Hi by lia. rewrite grid_nth in Hj by lia. injection Hi as <-. injection Hj as <-.
  assert (HN : 0 < INR (S n)) by (apply lt_0_INR; lia).
  apply Rplus_lt_compat_l, Rmult_lt_compat_r; [|now apply lt_INR]. apply Rdiv_lt_0_compat; [lra|exact HN].
Qed.
Lemma grid_axis a b n : a < b -> (Z.of_nat (S (S n)) <= 2 ^ 31)%Z -> axis (even_grid a b (S n)) a b.
Proof.
  intros H Hz. unfold axis. rewrite grid_length. repeat split; auto; try lia.
  - now apply grid_increasing.
  - rewrite grid_nth by lia. f_equal. cbn [INR]. lra.
  - rewrite grid_nth by lia. f_equal. replace (S (S n) - 1)%nat with (S n) by lia. field. apply not_0_INR. lia.
Qed.
Lemma grid_equidistant a b n : equidistant (even_grid a b (S n)).
Proof.
  exists a, ((b - a) / INR (S n)). intros i x H.
  assert (L : (i < List.length (even_grid a b (S n)))%nat) by (apply nth_error_Some; congruence). rewrite grid_length in L.
  rewrite grid_nth in H by lia. now injection H.
Qed.

Lemma constant_rows (l : list R) m : map (fun v => repeat v m) (map Fin l) = map (map Fin) (map (fun v => repeat v m) l).
Proof. rewrite !map_map. apply map_ext. intros v. induction m; cbn; [reflexivity|]. now f_equal. Qed.
Lemma fake_table_ok : exists lut, @default_rayleigh_lut_data XRN = Ok lut /\ holds lut fk_ws fk_ss fk_az fk_ts fk_V (2475 / 100) 3.
Proof.
  unfold default_rayleigh_lut_data.
  change 81%Z with (Z.of_nat 80 + 1)%Z. change 19%Z with (Z.of_nat 18 + 1)%Z. change 9%Z with (Z.of_nat 8 + 1)%Z. change 96%Z with (Z.of_nat 95 + 1)%Z.
  rewrite (linspace_lit 668 1000 115 1000 80 (668 / 1000) (115 / 1000)) by lra. cbn [bind].
  rewrite (linspace_lit 0 1 180 1 18 0 180) by lra. cbn [bind].
  rewrite (linspace_lit 400 1 800 1 80 400 800) by lra. cbn [bind].
  rewrite (linspace_lit 1 1 3 1 8 1 3) by lra. cbn [bind].
  rewrite (linspace_lit 1 1 2475 100 95 1 (2475 / 100)) by lra. cbn [bind].
  eexists. split; [reflexivity|]. constructor; cbn [rl_wavelengths rl_sunz rl_azid rl_satz rl_refl];
    [reflexivity|reflexivity|reflexivity|reflexivity| | | | | | |].
  - apply constant_rows.
  - unfold fk_V, fk_rs, fk_ws. rewrite map_length, !grid_length. reflexivity.
  - apply Forall_forall. intros row Hr. unfold fk_V in Hr. apply in_map_iff in Hr. destruct Hr as (v & <- & _). rewrite repeat_length.
    unfold fk_ss, fk_az, fk_ts. rewrite !grid_length. reflexivity.
  - apply grid_increasing. lra.
  - apply (grid_axis 1 (2475 / 100) 94); [lra|]. vm_compute. discriminate.
  - apply (grid_axis 0 180 17); [lra|]. vm_compute. discriminate.
  - apply (grid_axis 1 3 7); [lra|]. vm_compute. discriminate.
Qed.
Lemma fake_inside w : 400 < w < 800 <-> inside fk_ws w.
Proof.
  unfold inside, fk_ws. split.
  - intros H. split.
    + exists 400. split; [|lra]. apply nth_error_In with 0%nat. rewrite (grid_nth 400 800 79) by lia. f_equal. cbn [INR]. lra.
    + exists 800. split; [|lra]. apply nth_error_In with 80%nat. rewrite (grid_nth 400 800 79) by lia. f_equal. field. apply not_0_INR. lia.
  - intros [(a & Ia & La) (b & Ib & Lb)]. apply grid_in in Ia; [|lra]. apply grid_in in Ib; [|lra]. lra.
Qed.

Lemma some_eq {A} (a b : A) : Some a = Some b -> a = b. Proof. now intros [= ->]. Qed.
Lemma fake_row w lut : holds lut fk_ws fk_ss fk_az fk_ts fk_V (2475 / 100) 3 -> 400 < w < 800 ->
  exists B, @wavelength_adjusted_lut XRN (Some lut) (Fin w) = Ok (map Fin B) /\ List.length B = size3 fk_ss fk_az fk_ts /\
    forall b, In b B -> b = fake_correction w / 100.
Proof.
  intros H Hw. destruct (blended _ _ _ _ _ _ _ _ w H (proj1 (fake_inside w) Hw)) as (i & w1 & w2 & f & r1 & r2 & B & E & W1 & W2 & Hb & Hf & Hs & V1 & V2 & L1 & L2 & HB & _).
  exists B. split; [exact E|].
  assert (Li : (S i < 81)%nat). { assert (S i < List.length fk_ws)%nat by (apply nth_error_Some; congruence). unfold fk_ws in H0. now rewrite grid_length in H0. }
  unfold fk_V in V1, V2. rewrite nth_error_map in V1, V2. unfold fk_rs in V1, V2. rewrite (grid_nth _ _ 79) in V1, V2 by lia.
  cbn [option_map] in V1, V2. apply some_eq in V1. apply some_eq in V2. subst r1 r2.
  unfold fk_ws in W1, W2. rewrite (grid_nth _ _ 79) in W1, W2 by lia. apply some_eq in W1. apply some_eq in W2. subst w1 w2.
  split. { rewrite L1, repeat_length. unfold size3, fk_ss, fk_az, fk_ts. now rewrite !grid_length. }
  intros b Hin. apply In_nth_error in Hin. destruct Hin as [n Hn].
  assert (Ln : (n < List.length B)%nat) by (apply nth_error_Some; congruence). rewrite L1, repeat_length in Ln.
  destruct (HB n (668 / 1000 + INR i * ((115 / 1000 - 668 / 1000) / INR 80)) (668 / 1000 + INR (S i) * ((115 / 1000 - 668 / 1000) / INR 80)) b) as [-> _].
  - now apply nth_error_repeat.
  - now apply nth_error_repeat.
  - exact Hn.
  - unfold fake_correction. rewrite <- Hs. rewrite (S_INR i). replace (INR 80) with 80 by (rewrite INR_IZR_INZ; reflexivity).
    set (x := INR i). clearbody x. field.
Qed.

Lemma constant_row oob lut B v z t a : holds lut fk_ws fk_ss fk_az fk_ts fk_V (2475 / 100) 3 -> List.length B = size3 fk_ss fk_az fk_ts ->
  (forall b, In b B -> b = v) -> angles_value oob fk_ss fk_az fk_ts (2475 / 100) 3 B z t a = 100 * v.
Proof.
  intros H HB Hv. apply (angles_affine oob lut fk_ws fk_ss fk_az fk_ts fk_V (2475 / 100) 3 B H HB z t a (fun _ _ _ => v)).
  - apply (grid_equidistant _ _ 94).
  - apply (grid_equidistant _ _ 17).
  - apply (grid_equidistant _ _ 7).
  - repeat split; intros ? ?; intros ? ? ?; lra.
  - intros i j k x y u Hi Hj Hk. unfold at_node.
    assert (Li : (i < List.length fk_ss)%nat) by (apply nth_error_Some; congruence).
    assert (Lj : (j < List.length fk_az)%nat) by (apply nth_error_Some; congruence).
    assert (Lk : (k < List.length fk_ts)%nat) by (apply nth_error_Some; congruence).
    destruct (nth_error B _) as [b|] eqn:E; [f_equal; apply Hv; now apply nth_error_In in E|].
    apply nth_error_None in E. unfold size3 in HB. pose proof (index_bound _ _ _ _ _ _ Li Lj Lk). lia.
Qed.

Lemma fake_reflectance oob dask load platform sensor band lut w s sun sat azi red :
  @fake_rayleigh_file XRN None = Ok lut ->
  effective_wavelength load platform sensor band = Ok (Fin w) -> 400 < w < 800 -> ray_image s sun sat azi red ->
  exists r, get_reflectance oob dask load platform sensor (Some lut) sun sat azi band red = Ok r /\ fits s r /\
    forall k a, (k < size s)%nat -> pix k (r_arr azi) = Some (Fin a) ->
      match red with
      | None => pix k r = Some (Fin (fake_correction w))
      | Some rd => forall b, pix k (r_arr rd) = Some (Fin b) -> pix k r = Some (Fin (percent (cloud_factor b * fake_correction w)))
      end.
Proof.
  intros El Ew Hw I. destruct fake_table_ok as (lut' & E' & H). cbn [fake_rayleigh_file] in El. rewrite E' in El. injection El as ->.
  destruct (fake_row w lut H Hw) as (B & EB & LB & HB).
  destruct (reflectance_inside oob dask load platform sensor band lut _ _ _ _ _ _ _ w s sun sat azi red H Ew (proj1 (fake_inside w) Hw) I) as (r & B' & Er & Fr & EB' & P).
  assert (B' = B) as -> by (rewrite EB in EB'; apply map_fin_inj; congruence).
  exists r. split; [exact Er|]. split; [exact Fr|]. intros k a Hk Ha.
  pose proof I as (I1 & I2 & _).
  destruct (pix_some s (r_arr sun) k (or_introl I1) Hk) as [z Z]. destruct (pix_some s (r_arr sat) k (or_introl I2) Hk) as [t T].
  specialize (P k z t a Hk Z T Ha). cbv zeta in P. rewrite (constant_row oob lut B (fake_correction w / 100) z t a H LB HB) in P.
  replace (100 * (fake_correction w / 100)) with (fake_correction w) in P by lra.
  destruct red; [exact P|]. rewrite P. do 2 f_equal. unfold percent, fake_correction. rewrite Rmax_left, Rmin_left by lra. reflexivity.
Qed.

Lemma Exists_last (P : R -> Prop) l d : l <> [] -> P (last l d) -> Exists P l.
Proof.
  intros H HP. apply Exists_exists. exists (last l d). split; [|exact HP].
  destruct l as [|x l]; [congruence|]. clear. revert x. induction l as [|y l IH]; intros x; [now left|]. right. apply IH.
Qed.
Lemma saw_curve c : 2 / 100 < c -> curve_ok (even_grid (c - 2 / 100) (c + 2 / 100) 999) (even_grid (9 / 10000) 1 999).
Proof.
  intros H. unfold curve_ok. rewrite !grid_length. split; [reflexivity|]. split; [lia|]. split; [apply grid_sorted_lt; lra|].
  split; [apply Forall_forall; intros w Hw; apply grid_in in Hw; lra|]. split; [apply Forall_forall; intros w Hw; apply grid_in in Hw; lra|].
  apply (Exists_last _ _ 0).
  - intros E. apply (f_equal (@List.length R)) in E. rewrite grid_length in E. discriminate.
  - rewrite grid_last by lia. lra.
Qed.
Lemma saw_range c : 2 / 100 < c -> c - 2 / 100 <= saw_wavelength c <= c + 2 / 100.
Proof.
  intros H. destruct (rayleigh_wavelength_range _ _ (saw_curve c H)) as ([A B] & C & _). rewrite grid_hd in A. rewrite grid_last in C by lia.
  unfold saw_wavelength. lra.
Qed.

Lemma mocked_wavelength dir (central : dict R) platform sensor i t n b :
  check_and_adjust_instrument_name platform sensor = Ok i -> plain i -> plain platform -> band_table i t ->
  In b (map snd t) -> n = b \/ (~ is_avhrr i /\ dget n t = Some b) -> 2 / 100 < wanted t central b ->
  @effective_wavelength XRN (mocked_response dir (dmap Fin central)) platform sensor (BStr n) = Ok (Fin (1000 * saw_wavelength (wanted t central b))).
Proof.
  intros A Hi Hp T Hb Hn Hc. destruct (mocked_ok dir central platform sensor i t A Hi Hp T) as (s & E & I & _ & _ & N & K & G).
  set (c := wanted t central b) in *. apply (effective_name _ _ _ s n _ _ E); [|now apply saw_curve].
  split; [rewrite I; discriminate|]. exists (saw_tooth c). eexists. split; [|split; [reflexivity|split; reflexivity]].
  destruct Hn as [->|[Ha Hn]]; [left; now apply G|].
  destruct (dget n (rs_rsr s)) as [v|] eqn:D.
  - left. destruct (by_name i t n b (rs_rsr s) Ha T Hn K) as [Q _]. unfold RSRDict_getitem in Q. rewrite D in Q. rewrite (G b Hb) in Q. cbn in Q. fold c in Q. exact (f_equal (fun r => match r with Ok x => Some x | Err _ => None end) Q).
  - right. split; [reflexivity|]. exists b. split; [|now apply G]. rewrite I.
    destruct T as [[T _]|(_ & [T|[T ->]])]; [contradiction| |]; unfold std_name; [left; eauto|right; split; [intros m u [= <-]; congruence|exact Hn]].
Qed.

Lemma mocked_correction oob dask dir (central : dict R) platform sensor i t n b lut s sun sat azi red :
  check_and_adjust_instrument_name platform sensor = Ok i -> plain i -> plain platform -> band_table i t ->
  In b (map snd t) -> n = b \/ (~ is_avhrr i /\ dget n t = Some b) ->
  @fake_rayleigh_file XRN None = Ok lut -> ray_image s sun sat azi red ->
  let c := wanted t central b in 42 / 100 < c < 78 / 100 ->
  exists r, @get_reflectance XRN oob dask (mocked_response dir (dmap Fin central)) platform sensor (Some lut) sun sat azi (BStr n) red = Ok r /\ fits s r /\
    forall k a, (k < size s)%nat -> pix k (r_arr azi) = Some (Fin a) ->
      match red with
      | None => pix k r = Some (Fin (fake_correction (1000 * saw_wavelength c)))
      | Some rd => forall x, pix k (r_arr rd) = Some (Fin x) -> pix k r = Some (Fin (percent (cloud_factor x * fake_correction (1000 * saw_wavelength c))))
      end.
Proof.
  intros A Hi Hp T Hb Hn El I c Hc. assert (2 / 100 < c) by lra. pose proof (saw_range c H).
  apply fake_reflectance; auto; [|lra]. apply (mocked_wavelength dir central platform sensor i t n b); auto.
Qed.
Lemma correction_bounds c : 2 / 100 < c -> fake_correction (1000 * (c + 2 / 100)) <= fake_correction (1000 * saw_wavelength c) <= fake_correction (1000 * (c - 2 / 100)).
Proof. intros H. pose proof (saw_range c H). unfold fake_correction. lra. Qed.

(** ** the other statements *)
Lemma by_user_name dir (central : dict R) platform sensor i t n b :
  check_and_adjust_instrument_name platform sensor = Ok i -> plain i -> plain platform -> band_table i t -> ~ is_avhrr i -> dget n t = Some b ->
  exists s, @mocked_response XRN dir (dmap Fin central) platform sensor = Ok s /\
    RSRDict_getitem (rs_instrument s) (rs_rsr s) n = Ok (saw_tooth (wanted t central b)).
Proof.
  intros A Hi Hp T Ha Hn. destruct (mocked_ok dir central platform sensor i t A Hi Hp T) as (s & E & I & _ & _ & N & K & G).
  exists s. split; [exact E|]. destruct (by_name i t n b (rs_rsr s) Ha T Hn K) as [Q _]. rewrite I, Q, (G b (in_dget _ _ _ Hn)). reflexivity.
Qed.

Lemma entry_get {V} (d : dict V) k v : NoDup (dkeys d) -> In (k, v) d -> dget k d = Some v.
Proof.
  induction d as [|[k' v'] d IH]; [intros _ []|]. cbn. intros N [[= -> ->]|H]; [now rewrite String.eqb_refl|].
  inversion N; subst. destruct (String.eqb_spec k k') as [->|]; [|auto]. exfalso. apply H2. apply in_map_iff. now exists (k', v).
Qed.
Lemma table_two i t : band_table i t -> exists a b, a <> b /\ In a (map snd t) /\ In b (map snd t).
Proof.
  intros T. assert (Q : In t (map snd BANDNAMES)).
  { destruct T as [(_ & [[_ ->]|[_ ->]])|(_ & [T|[_ ->]])]; [cbn; tauto|now left|exact (in_dget _ _ _ T)|now left]. }
  assert (C : forallb (fun t => match map snd t with a :: l => existsb (fun b => negb (String.eqb a b)) l | [] => false end) (map snd BANDNAMES) = true) by (vm_compute; reflexivity).
  rewrite forallb_forall in C. specialize (C t Q). destruct (map snd t) as [|a l]; [discriminate|]. apply existsb_exists in C. destruct C as (b & Ib & Nb).
  exists a, b. split; [|split; [now left|now right]]. intros ->. now rewrite String.eqb_refl in Nb.
Qed.
Lemma same_wavelength dir platform sensor i t name eps (multiple : bool) :
  check_and_adjust_instrument_name platform sensor = Ok i -> plain i -> plain platform -> band_table i t -> 0 < eps ->
  exists s, @mocked_response XRN dir [] platform sensor = Ok s /\
    if multiple then exists l, get_bandname_from_wavelength name (Fin (46 / 100)) (rs_rsr s) (Fin eps) true = Ok (BNames l)
    else get_bandname_from_wavelength name (Fin (46 / 100)) (rs_rsr s) (Fin eps) false = Err AttributeError.
Proof.
  intros A Hi Hp T He. destruct (mocked_ok dir [] platform sensor i t A Hi Hp T) as (s & E & I & _ & _ & N & K & G).
  exists s. split; [exact E|].
  assert (F : forall kb, In kb (rs_rsr s) -> first_cw (snd kb) = Some (46 / 100)).
  { intros [k v] H. pose proof (entry_get _ _ _ N H) as D. assert (Ik : In k (map snd t)). { apply K. apply in_map_iff. now exists (k, v). }
    rewrite (G k Ik) in D. injection D as <-. reflexivity. }
  assert (L : exists x y l, map (fun kb => translate_band name (fst kb)) (filter (near (46 / 100) eps) (rs_rsr s)) = x :: y :: l).
  { replace (filter (near (46 / 100) eps) (rs_rsr s)) with (rs_rsr s).
    - destruct (table_two i t T) as (a & b & Nab & Ia & Ib). apply K in Ia. apply K in Ib. unfold dkeys in Ia, Ib.
      destruct (rs_rsr s) as [|x [|y l]]; cbn in Ia, Ib |- *; [contradiction| |eauto]. destruct Ia as [<-|[]], Ib as [<-|[]]. congruence.
    - revert F. generalize (rs_rsr s). intros l. induction l as [|x l IH]; intros F; [reflexivity|]. cbn [filter].
      unfold near at 1. rewrite (F x (or_introl eq_refl)). replace (46 / 100 - 46 / 100) with 0 by lra. rewrite Rabs_R0.
      rewrite (Rltb_true 0 eps He), (Rltb_true 0 2) by lra. cbn [andb]. f_equal. apply IH. intros kb H. apply F. now right. }
  destruct L as (x & y & l & L).
  assert (FA : Forall (fun kb => first_cw (snd kb) <> None) (rs_rsr s)) by (apply Forall_forall; intros kb H; rewrite (F kb H); discriminate).
  destruct multiple; [exists (x :: y :: l)|]; rewrite bandname_spec by assumption; rewrite L; reflexivity.
Qed.

Lemma fake_wavelengths lut : @fake_rayleigh_file XRN None = Ok lut -> rl_wavelengths lut = map Fin fk_ws.
Proof. intros El. destruct fake_table_ok as (lut' & E' & H). cbn [fake_rayleigh_file] in El. rewrite E' in El. injection El as ->. apply H. Qed.
Lemma fake_outside oob dask load platform sensor band lut w s sun sat azi red :
  @fake_rayleigh_file XRN None = Ok lut ->
  effective_wavelength load platform sensor band = Ok (Fin w) -> ~ 400 < w < 800 -> sane dask sun red ->
  fits s (r_arr (match red with None => sun | Some r => r end)) -> ~ (dask = true /\ r_kind sun = Numpy /\ red = None) ->
  exists r, get_reflectance oob dask load platform sensor (Some lut) sun sat azi band red = Ok r /\ fits s r /\
     forall k, (k < size s)%nat ->
       match red with
       | None => pix k r = Some (Fin 0)
       | Some rd => forall b, pix k (r_arr rd) = Some (Fin b) -> pix k r = Some (Fin 0)
       end.
Proof.
  intros El Ew Hw Hs Hf Hd.
  destruct (reflectance_outside oob dask load platform sensor band lut fk_ws (Fin w) s sun sat azi red (fake_wavelengths _ El) Ew) as [(A & B & C & _)|(_ & r & E & F & P)];
    [intros x [= <-]; now rewrite <- fake_inside|exact Hs|exact Hf|exfalso; apply Hd; auto|].
  exists r. split; [exact E|]. split; [exact F|]. intros k Hk. specialize (P k Hk). destruct red; [|exact P]. intros b Hb. exact (P _ Hb).
Qed.

Lemma avhrr_alias_missing dir (central : dict R) : exists s,
  @mocked_response XRN dir (dmap Fin central) "NOAA-19" "avhrr-3" = Ok s /\
  dget "3b" BN_avhrr_3 = Some "ch3b" /\ dget "ch3b" (rs_rsr s) = Some (saw_tooth (wanted BN_avhrr_3 central "ch3b")) /\
  RSRDict_getitem (rs_instrument s) (rs_rsr s) "3b" = Err KeyError.
Proof.
  destruct (mocked_ok dir central "NOAA-19" "avhrr-3" "avhrr3" BN_avhrr_3) as (s & E & I & _ & _ & N & K & G);
    [reflexivity|split; reflexivity|split; reflexivity|left; split; [now exists "3"|left; split; [now exists "avhrr"|reflexivity]]|].
  exists s. split; [exact E|]. split; [reflexivity|]. split; [apply G; cbn; tauto|].
  rewrite I. unfold RSRDict_getitem. replace (dget "3b" (rs_rsr s)) with (@None (band XRN)).
  - reflexivity.
  - symmetry. apply dget_in_keys. rewrite K. cbn. intuition discriminate.
Qed.
Lemma landsat_file dir (central : dict R) : exists i s,
  check_and_adjust_instrument_name "Landsat-8" "oli_tirs" = Ok i /\
  @mocked_response_from_file XRN (dmap Fin central) (join dir (get_rsr_filename "Landsat-8" i)) = Ok ("tirs", "oli", s).
Proof.
  exists "oli_tirs". 
  assert (E : exists info, @create_fake_rsr_info XRN (dmap Fin central) (join dir (get_rsr_filename "tirs" "oli")) = Ok info /\
    fi_platform_name info = "tirs" /\ fi_instrument info = "oli").
  { destruct (fake_info_ok dir central "tirs" "oli" BN_generic) as (info & E & P & I & _); [reflexivity|split; reflexivity|split; reflexivity| |eauto].
    right. split; [intros [r Hr]; discriminate|]. right. split; reflexivity. }
  destruct E as (info & E & P & I). eexists. split; [reflexivity|]. unfold mocked_response_from_file.
  replace (@create_fake_rsr_info XRN (dmap Fin central) (join dir (get_rsr_filename "Landsat-8" "oli_tirs"))) with (Ok info : res (@fake_info XRN)).
  - cbn [bind]. rewrite P, I. reflexivity.
  - rewrite <- E. unfold create_fake_rsr_info. rewrite !file_stem by reflexivity. reflexivity.
Qed.
