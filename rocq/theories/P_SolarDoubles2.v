(** In-band flux and irradiance in doubles: C116. *)
From Coq Require Import Reals Lra ZArith String List Bool Lia SpecFloat Sorting.Sorted.
From Flocq Require Import Core BinarySingleNaN.
From Verif Require Import Base NumSig XR B64 M_Tables M_Utils M_Solar S_B64 S_Planck S_RadTb S_SolarDoubles P_B64 P_B64ops P_B642 P_B64mono P_B64planck P_B64band P_B64err P_B64err2 P_B64err3 P_NirDoubles P_SolarDoubles.
Import ListNotations.
Local Open Scope list_scope.
Local Open Scope R_scope.

Lemma keep_all {A B} (p : A -> bool) (h : A -> B) g : (forall x, In x g -> p x = true) -> keep (map p g) g = g /\ keep (map p g) (map h g) = map h g.
Proof.
  induction g as [|a g IH]; intros H; [split; reflexivity|]. cbn [map keep]. rewrite (H a) by now left.
  destruct IH as [E1 E2]; [intros x Hx; apply H; now right|]. rewrite E1, E2. split; reflexivity.
Qed.

Lemma first_last_generic {N : Num} (l : list N) a b : hd_error l = Some a -> last l a = b -> first_last_of l = Ok (a, b).
Proof. intros H <-. unfold first_last_of. rewrite H. reflexivity. Qed.

Lemma band_call {N : Num} spline (s : spectrum N) d flux scale det key xs ws rs a b f h g :
  (if String.eqb (so_wavespace s) "wavelength" then "wavelength" else "wavenumber")%string = key -> coord s = Some xs ->
  dget key d = Some (VArr ws) -> dget "response" d = Some (VArr rs) ->
  hd_error (map (fun w => nmul N w scale) ws) = Some a -> last (map (fun w => nmul N w scale) ws) a = b ->
  spline (map (fun w => nmul N w scale) ws) rs = Ok f -> spline xs (so_irradiance s) = Ok h ->
  resample_grid a b (so_dlambda s) = Ok g -> (forall x, In x g -> (nleb N a x && nleb N x b)%bool = true) ->
  let p := map (fun p => nmul N (fst p) (snd p)) (combine (map h g) (map f g)) in
  band_calculations spline s (FlatRsr d) flux scale det =
    (with_ipol s g (map h g), Ok (if flux then trapz p g else ndiv N (trapz p g) (trapz (map f g) g))).
Proof.
  intros KEY CO Hw Hr Ha Hb Hf Hh RG KG p.
  destruct (keep_all (fun x => (nleb N a x && nleb N x b)%bool) h g KG) as [K1 K2].
  assert (RC : rsr_curve s (FlatRsr d) det scale = Ok (map (fun w => nmul N w scale) ws, rs)).
  { unfold rsr_curve. cbv zeta. rewrite KEY. unfold dhas. rewrite Hr. cbn [bind]. unfold get_arr. rewrite Hw, Hr. reflexivity. }
  assert (FL : first_last_of (map (fun w => nmul N w scale) ws) = Ok (a, b)) by (apply first_last_generic; assumption).
  assert (IP : interpolate spline s (Some (so_dlambda s)) (Some (a, b)) = (with_ipol s g (map h g), Ok tt)).
  { unfold interpolate. cbn [bind]. assert (ES : with_dlambda s (so_dlambda s) = s) by now destruct s. rewrite ES, RG. cbn [bind]. rewrite CO. cbn [of_option bind]. rewrite Hh. reflexivity. }
  unfold band_calculations. rewrite RC. cbn [bind]. rewrite FL. cbn [bind]. rewrite RG. cbn [bind]. rewrite Hf. cbn [bind]. rewrite IP.
  cbn [bind with_ipol so_ipol of_option]. f_equal. cbv zeta. rewrite K1, K2.
  unfold vmul. rewrite !map_length, Nat.eqb_refl. cbn [bind]. unfold trapezoid. fold p.
  assert (LP : List.length p = List.length g) by (unfold p; rewrite map_length, combine_length, !map_length, Nat.min_id; reflexivity).
  rewrite LP, Nat.eqb_refl. cbn [bind]. destruct flux; [reflexivity|]. rewrite map_length, Nat.eqb_refl. reflexivity.
Qed.

Lemma sumnear_near0 a b q x r : sumnear a q x r -> 1 <= q <= 2 -> r <= bpow radix2 b -> near0 a (b + 1) q x r.
Proof.
  intros (Nx & Fx & [(E & R)|(E & C)]) Q B; [left; auto|right]. split; [|split; [lra|exact C]]. split; [exact Nx|]. split; [exact Fx|]. split; [exact E|].
  destruct C as (P & _ & C). eapply Rle_trans; [exact C|]. rewrite bpow_plus. change (bpow radix2 1) with 2. apply Rmult_le_compat; lra.
Qed.
Lemma integral_bound a b q lib (g : list b64) ys rs : (-900 <= a)%Z -> (-900 <= b <= 400)%Z -> 1 <= q -> q * v ^ (4 + List.length g) <= 2 ->
  Forall (mag (-40) 40) g -> Sorted Rle (map to_R g) -> Forall2 (near0 a b q) ys rs ->
  near0 (a - 94) (b + 42) (q * v ^ (4 + List.length g)) (@trapz (B64N lib) ys g) (Rtrapz rs (map to_R g)).
Proof.
  intros A B Q V M S Y. destruct (trapz_near lib a b q g A B Q V M S ys rs Y) as [J K].
  replace (b + 42)%Z with (40 + (b + 1) + 1)%Z by lia. apply sumnear_near0; [exact J| |].
  - split; [|exact V]. pose proof (vpow_ge (4 + List.length g)). nra.
  - eapply Rle_trans; [exact K|]. rewrite (bpow_plus radix2 40 (b + 1)). apply Rmult_le_compat_r; [apply bpow_ge_0|].
    assert (0 <= hd 0 (map to_R g)); [|lra]. destruct M as [|w ws (_ & _ & Hw) _]; [cbn; lra|cbn [map hd]; pose proof (bpow_gt_0 radix2 (-40)); lra].
Qed.

Lemma grid_within a b n g : span a b -> even_doubles a b n g -> forall x, In x g -> is_double x /\ to_R a <= to_R x <= to_R b.
Proof.
  intros Sp (L & _ & _ & P) x Hx. apply In_nth_error in Hx. destruct Hx as (i & Hi). assert (K : nth_error g i <> None) by (rewrite Hi; discriminate).
  apply nth_error_Some in K. destruct (P i) as (y & Hy & D & R & _); [lia|]. rewrite Hi in Hy. injection Hy as <-. auto.
Qed.

Lemma ratio_integrals lib (g fs hs : list b64) : Forall (mag (-40) 40) g -> Sorted Rle (map to_R g) -> (Z.of_nat (List.length g) <= 10000)%Z ->
  Forall irradiance_like fs -> Forall irradiance_like hs ->
  let F := Rtrapz (Rvmul (map to_R hs) (map to_R fs)) (map to_R g) in let W := Rtrapz (map to_R fs) (map to_R g) in
  let p := map (fun p => nmul (B64N lib) (fst p) (snd p)) (combine (hs : list (B64N lib)) fs) in
  within (5 / 10 ^ 12) (@trapz (B64N lib) p g) F /\
  (0 < W -> within (5 / 10 ^ 12) (SFdiv 53 1024 (@trapz (B64N lib) p g) (@trapz (B64N lib) fs g)) (F / W)).
Proof.
  intros M S C Hf Hh F W p. set (n := List.length g) in *. pose proof v_ge as V. pose proof (vpow_ge (4 + n)) as V0.
  pose proof (vpow_le (5 + n) ltac:(lia)) as V1. pose proof (vpow_le (4 + n) ltac:(lia)) as V1'. pose proof (vpow_le (10 + (n + n)) ltac:(lia)) as V2.
  assert (EV : v * v ^ (4 + n) = v ^ (5 + n)) by reflexivity.
  pose proof (integral_bound (-80) 40 v lib g p _ ltac:(lia) ltac:(lia) V ltac:(fold n; lra) M S (products_near lib hs Hh fs Hf)) as J. fold n in J. fold F in J.
  pose proof (integral_bound (-40) 20 1 lib g fs _ ltac:(lia) ltac:(lia) ltac:(lra) ltac:(fold n; lra) M S (likes_near fs Hf)) as K. fold n in K. fold W in K.
  split.
  - eapply sumnear_within; [eapply near0_sum; exact J| |]; rewrite EV; [lra|apply vpow_ge].
  - intros PW. destruct K as [(_ & _ & _ & K)|K]; [lra|].
    pose proof (near0_div _ _ _ _ _ _ _ _ _ _ J K ltac:(lia) ltac:(lia)) as D.
    assert (EQ : v * v ^ (4 + n) * (1 * v ^ (4 + n)) * v = v ^ (10 + (n + n))).
    { replace (10 + (n + n))%nat with (1 + ((4 + n) + ((4 + n) + 1)))%nat by lia.
      generalize (4 + n)%nat. intros k. rewrite (pow_add v 1 (k + (k + 1))), (pow_add v k (k + 1)), (pow_add v k 1), pow_1. ring. }
    rewrite EQ in D. eapply sumnear_within; [eapply near0_sum; exact D| |]; [lra|apply vpow_ge].
Qed.

Lemma inband64 : forall lib spline (s : spectrum (B64N lib)) d flux scale det a b f h,
  band64 spline s d scale a b f h -> is_double a -> is_double b -> 1 / 10 ^ 3 <= to_R a -> to_R a + 1 / 10 ^ 6 <= to_R b <= 10 ^ 6 ->
  is_double (so_dlambda s) -> let dl := to_R (so_dlambda s) in 0 < dl -> 1 <= (to_R b - to_R a) / dl <= 9990 ->
  exists n g c, let call := band_calculations (N := B64N lib) spline s (FlatRsr d) flux scale det in
    snd call = Ok c /\ so_ipol (fst call) = Some (g, map h g) /\ (1 <= n)%nat /\ Rabs ((to_R b - to_R a) / dl - INR n) <= 1 / 2 + 1 / 10 ^ 11 /\
    even_doubles a b (S n) g /\ Sorted Rle (map to_R g) /\
    (Forall irradiance_like (map f g) -> Forall irradiance_like (map h g) ->
     let F := Rtrapz (Rvmul (map to_R (map h g)) (map to_R (map f g))) (map to_R g) in let W := Rtrapz (map to_R (map f g)) (map to_R g) in
     if flux then within (5 / 10 ^ 12) c F else 0 < W -> within (5 / 10 ^ 12) c (F / W)).
Proof.
  intros lib spline s d flux scale det a b f h (key & xs & ws & rs & Hax & Hw & Hr & Ha & Hb & Hf & Hh) Da Db A B Dd dl Pd X.
  assert (Sp : span a b) by (repeat split; try apply Da; try apply Db; try lra).
  destruct (n_points64 lib a b (so_dlambda s) Sp Dd X Pd) as (n & En & Bn & Nn).
  destruct (linspace64 lib a b n Sp Bn) as (g & Eg & Ev & So).
  pose proof (grid_within a b _ g Sp Ev) as In_g.
  assert (KG : forall x, In x g -> (nleb (B64N lib) a x && nleb (B64N lib) x b)%bool = true).
  { intros x Hx. destruct (In_g x Hx) as [Dx Rx]. apply andb_true_iff. split.
    - etransitivity; [exact (leb_R a x (proj1 Da) (proj1 Dx) (proj2 Da) (proj2 Dx))|]. apply Rle_bool_true. lra.
    - etransitivity; [exact (leb_R x b (proj1 Dx) (proj1 Db) (proj2 Dx) (proj2 Db))|]. apply Rle_bool_true. lra. }
  assert (KEY : (if String.eqb (so_wavespace s) "wavelength" then "wavelength" else "wavenumber")%string = key /\ coord s = Some (xs : list (B64N lib))).
  { unfold coord. destruct Hax as [(-> & -> & E)|(-> & -> & E)]; cbn; auto. }
  destruct KEY as [KEY CO].
  assert (RG : resample_grid (N := B64N lib) a b (so_dlambda s) = Ok g) by (unfold resample_grid; rewrite En; exact Eg).
  assert (LG : List.length g = S n) by apply Ev.
  set (p := map (fun p => nmul (B64N lib) (fst p) (snd p)) (combine (map h g : list (B64N lib)) (map f g))).
  assert (CALL : band_calculations (N := B64N lib) spline s (FlatRsr d) flux scale det =
    (with_ipol s g (map h g), Ok (if flux then @trapz (B64N lib) p g else SFdiv 53 1024 (@trapz (B64N lib) p g) (@trapz (B64N lib) (map f g) g)))).
  { exact (band_call (N := B64N lib) spline s d flux scale det key xs ws rs a b f h g KEY CO Hw Hr Ha Hb Hf Hh RG KG). }
  exists n, g, (if flux then @trapz (B64N lib) p g else SFdiv 53 1024 (@trapz (B64N lib) p g) (@trapz (B64N lib) (map f g) g)).
  cbv zeta. rewrite CALL. split; [reflexivity|]. split; [reflexivity|]. split; [lia|]. split; [exact Nn|]. split; [exact Ev|]. split; [exact So|].
  intros If Ih. destruct (ratio_integrals lib g (map f g) (map h g)) as [R1 R2]; auto.
  - apply axis_mag. apply Forall_forall. intros x Hx. destruct (In_g x Hx) as [Dx Rx]. split; [exact Dx|]. lra.
  - change (Z.of_nat (@List.length b64 g) <= 10000)%Z. rewrite (LG : @List.length b64 g = S n). lia.
  - destruct flux; [exact R1|exact R2].
Qed.
