(** Lemmas for C28-C32. *)
From Coq Require Import Reals Lra Lia ZArith String List Bool Arith Sorting.Sorted R_Ifp.
From Verif Require Import Base NumSig XR P_Trapz M_Tables M_Utils M_Solar S_Solar.
Import ListNotations.
Local Open Scope string_scope.
Local Open Scope R_scope.

(** ** Rounding *)
Lemma Rround_nearest r : Rabs (r - IZR (Rround r)) <= 1 / 2.
Proof.
  unfold Rround. pose proof (Rfloor_bounds r) as H. set (f := Int_part r) in *.
  destruct (Rlt_dec (r - IZR f) (1/2)); [unfold Rabs; destruct (Rcase_abs _); lra|].
  destruct (Rlt_dec (1/2) (r - IZR f)); [rewrite plus_IZR; unfold Rabs; destruct (Rcase_abs _); lra|].
  destruct (Z.even f); [|rewrite plus_IZR]; unfold Rabs; destruct (Rcase_abs _); lra.
Qed.

Lemma Rround_nonneg r : 0 <= r -> (0 <= Rround r)%Z.
Proof.
  intros H. pose proof (Rround_nearest r) as Hn. unfold Rabs in Hn.
  assert (IZR (-1) < IZR (Rround r)) by (destruct (Rcase_abs _); lra).
  apply lt_IZR in H0. lia.
Qed.

(** ** Grids *)
Definition steps (a b d : R) : nat := Z.to_nat (Rround ((b - a) / d)).

Lemma steps_nearest a b d : a <= b -> 0 < d -> nearest ((b - a) / d) (steps a b d).
Proof.
  intros H Hd. unfold nearest, steps. rewrite INR_IZR_INZ, Z2Nat.id.
  - apply Rround_nearest.
  - apply Rround_nonneg. apply Rmult_le_pos; [lra|]. left. now apply Rinv_0_lt_compat.
Qed.

Lemma npoints_fin a b d : a <= b -> 0 < d ->
  @n_points XRN (Fin a) (Fin b) (Fin d) = Ok (Z.of_nat (steps a b d) + 1)%Z.
Proof.
  intros H Hd. unfold n_points. change (nsub XRN (Fin b) (Fin a)) with (Fin (b - a)).
  change (ndiv XRN) with xdiv. rewrite xdiv_fin by lra. cbn [nround XRN xround].
  unfold steps. rewrite Z2Nat.id; auto. apply Rround_nonneg. apply Rmult_le_pos; [lra|]. left. now apply Rinv_0_lt_compat.
Qed.

Lemma linspace_fin a b n : a <= b ->
  @linspace XRN (Fin a) (Fin b) (Z.of_nat n + 1) = Ok (map Fin (even_grid a b n)).
Proof.
  intros Hab. unfold linspace.
  destruct (Z.ltb_spec (Z.of_nat n + 1) 0); [lia|]. destruct (Z.eqb_spec (Z.of_nat n + 1) 0); [lia|].
  destruct n as [|n].
  - cbn [Z.of_nat Z.add Z.eqb Pos.eqb]. rewrite n0_fin. cbn. do 3 f_equal. lra.
  - destruct (Z.eqb_spec (Z.of_nat (S n) + 1) 1); [lia|].
    replace (Z.of_nat (S n) + 1 - 1)%Z with (Z.of_nat (S n)) by lia. rewrite Nat2Z.id.
    set (N := S n). cbv zeta. rewrite nZ_fin, <- INR_IZR_INZ.
    assert (HN : 0 < INR N) by (apply lt_0_INR; unfold N; lia).
    change (nsub XRN (Fin b) (Fin a)) with (Fin (b - a)). change (ndiv XRN) with xdiv.
    rewrite (xdiv_fin (b - a)) by lra. f_equal.
    assert (G : even_grid a b N = (map (fun i => a + INR i * ((b - a) / INR N)) (seq 0 N) ++ [b])%list).
    { unfold even_grid, N at 1. rewrite seq_S, map_app. f_equal. cbn [map]. f_equal.
      rewrite Nat.add_0_l. fold N. field. lra. }
    rewrite G, map_app, map_map. clear G. clearbody N. f_equal. apply map_ext. intros i.
    rewrite nZ_fin, <- INR_IZR_INZ, n0_fin.
    destruct (Reqb ((b - a) / INR N) 0) eqn:E.
    + change (neqb XRN) with xeqb. cbn [xeqb]. rewrite E. rewrite xdiv_fin by lra. cbn. f_equal. f_equal. field. lra.
    + change (neqb XRN) with xeqb. cbn [xeqb]. rewrite E. reflexivity.
Qed.

Lemma grid_fin a b d : a <= b -> 0 < d ->
  @resample_grid XRN (Fin a) (Fin b) (Fin d) = Ok (map Fin (even_grid a b (steps a b d))).
Proof. intros H Hd. unfold resample_grid. rewrite npoints_fin by auto. cbn [bind]. now apply linspace_fin. Qed.

Lemma grid_in a b n x : a <= b -> In x (even_grid a b n) -> a <= x <= b.
Proof.
  intros H. destruct n as [|n]; cbn [even_grid]; [intros [<-|[]]; lra|].
  intros Hx. apply in_map_iff in Hx. destruct Hx as (i & <- & Hi). apply in_seq in Hi.
  set (N := S n) in *. assert (HN : 0 < INR N) by (apply lt_0_INR; unfold N; lia).
  assert (0 <= INR i) by apply pos_INR. assert (INR i <= INR N) by (apply le_INR; lia).
  assert (E : INR i * ((b - a) / INR N) = (INR i / INR N) * (b - a)) by (field; lra). rewrite E.
  assert (0 <= INR i / INR N) by (apply Rmult_le_pos; [lra|left; now apply Rinv_0_lt_compat]).
  assert (INR i / INR N <= 1). { apply (Rmult_le_reg_r (INR N)); [lra|]. field_simplify; lra. }
  split; [|].
  - assert (0 <= INR i / INR N * (b - a)) by (apply Rmult_le_pos; lra). lra.
  - assert (INR i / INR N * (b - a) <= 1 * (b - a)) by (apply Rmult_le_compat_r; lra). lra.
Qed.

Lemma grid_length a b n : List.length (even_grid a b n) = S n.
Proof. destruct n; [reflexivity|]. unfold even_grid. now rewrite map_length, seq_length. Qed.

Lemma Sorted_map_seq (f : nat -> R) m k : (forall i, f i <= f (S i)) -> Sorted Rle (map f (seq m k)).
Proof.
  intros H. revert m; induction k as [|k IH]; intros m; [constructor|]. cbn. constructor; [apply IH|].
  destruct k; constructor. apply H.
Qed.

Lemma grid_sorted a b n : a <= b -> Sorted Rle (even_grid a b n).
Proof.
  intros H. destruct n as [|n]; [repeat constructor|]. unfold even_grid. apply Sorted_map_seq. intros i.
  rewrite (S_INR i). assert (0 <= (b - a) / INR (S n)); [|lra].
  apply Rmult_le_pos; [lra|]. left. apply Rinv_0_lt_compat, lt_0_INR. lia.
Qed.

Lemma Sorted_map_seq_lt (f : nat -> R) m k : (forall i, f i < f (S i)) -> Sorted Rlt (map f (seq m k)).
Proof.
  intros H. revert m; induction k as [|k IH]; intros m; [constructor|]. cbn. constructor; [apply IH|].
  destruct k; constructor. apply H.
Qed.
Lemma grid_sorted_lt a b n : a < b -> Sorted Rlt (even_grid a b n).
Proof.
  intros H. destruct n as [|n]; [repeat constructor|]. unfold even_grid. apply Sorted_map_seq_lt. intros i.
  rewrite (S_INR i). assert (0 < (b - a) / INR (S n)); [|lra].
  apply Rmult_lt_0_compat; [lra|]. apply Rinv_0_lt_compat, lt_0_INR. lia.
Qed.

Lemma grid_hd a b n : hd 0 (even_grid a b n) = a.
Proof. destruct n; [reflexivity|]. cbn. lra. Qed.
Lemma grid_last a b n : (0 < n)%nat -> last (even_grid a b n) 0 = b.
Proof.
  intros H. destruct n as [|n]; [lia|]. unfold even_grid. rewrite seq_S, map_app. cbn [map]. rewrite last_last.
  rewrite Nat.add_0_l. field. apply not_0_INR. lia.
Qed.

(** the step is at most a factor 1/2 .. 3/2 ... precisely 1 +- 1/(2n) off *)
Lemma step_factor a b d n : 0 < d -> (0 < n)%nat -> nearest ((b - a) / d) n ->
  Rabs ((b - a) / INR n - d) <= d / (2 * INR n).
Proof.
  intros Hd Hn H. unfold nearest in H. assert (HN : 0 < INR n) by now apply lt_0_INR.
  replace ((b - a) / INR n - d) with (((b - a) / d - INR n) * (d / INR n)) by (field; lra).
  rewrite Rabs_mult. rewrite (Rabs_right (d / INR n)).
  - replace (d / (2 * INR n)) with (1/2 * (d / INR n)) by (field; lra).
    apply Rmult_le_compat_r; auto. left. now apply Rdiv_lt_0_compat.
  - apply Rle_ge. left. now apply Rdiv_lt_0_compat.
Qed.

(** ** Band calculations *)
Lemma keep_all {A} (p : XR -> bool) gx (l : list A) : (forall x, In x gx -> p x = true) -> List.length l = List.length gx ->
  keep (map p gx) l = l.
Proof.
  revert l; induction gx as [|x gx IH]; intros [|y l] H Hl; try discriminate; [reflexivity|].
  cbn [map keep]. rewrite (H x) by now left. f_equal. apply IH; [|now injection Hl]. intros z Hz. apply H. now right.
Qed.

Section Spline.
  Variable spline : list XR -> list XR -> res (XR -> XR).

  Lemma map_spline f g xs : (forall t, f (Fin t) = Fin (g t)) -> map f (map Fin xs) = map Fin (map g xs).
  Proof. intros H. rewrite !map_map. apply map_ext. intros. apply H. Qed.

  Lemma scaled_ends ws k : ws <> [] ->
    first_last_of (N := XRN) (map (fun x => nmul XRN x (Fin k)) (map Fin ws)) = Ok (Fin (hd 0 ws * k), Fin (last ws 0 * k)).
  Proof.
    intros H. destruct ws as [|w ws]; [congruence|]. unfold first_last_of. cbn [map hd_error of_option bind hd].
    do 2 f_equal.
    assert (G : forall l (d : R), last (map (fun x => nmul XRN x (Fin k)) (map Fin l)) (Fin (d * k)) = Fin (last l d * k)).
    { induction l as [|a l IH]; intros d; [reflexivity|]. destruct l as [|b l]; [reflexivity|].
      exact (IH d). }
    assert (L : last (w :: ws) w = last (w :: ws) 0).
    { clear. revert w; induction ws as [|a ws IH]; intros w; [reflexivity|]. exact (eq_trans (IH a) eq_refl) || idtac.
      change (last (a :: ws) w = last (a :: ws) 0). clear IH. revert a. induction ws; intros; [reflexivity|]. apply IHws. }
    rewrite <- L. exact (G (w :: ws) w).
  Qed.

  Lemma band_eq (s : spectrum XRN) key xs d k det flux ws rs dl g h :
    has_axis s key xs -> so_dlambda s = Fin dl -> 0 < dl ->
    dget key d = Some (VArr (map Fin ws)) -> dget "response" d = Some (VArr (map Fin rs)) -> ws <> [] ->
    hd 0 ws * k <= last ws 0 * k ->
    spline_is spline (map Fin (map (fun w => w * k) ws)) (map Fin rs) g ->
    spline_is spline xs (so_irradiance s) h ->
    let a := hd 0 ws * k in let b := last ws 0 * k in
    let grid := even_grid a b (steps a b dl) in
    band_calculations (N := XRN) spline s (FlatRsr d) flux (Fin k) det =
    (with_ipol s (map Fin grid) (map Fin (map h grid)),
     Ok (let f := Fin (Rtrapz (Rvmul (map h grid) (map g grid)) grid) in
         if flux then f else xdiv f (Fin (Rtrapz (map g grid) grid)))).
  Proof.
    intros Hax Hdl Hpos Hw Hr Hne Hle (fg & Eg & Hg) (fh & Eh & Hh) a b grid.
    unfold band_calculations, rsr_curve.
    assert (Hkey : (if String.eqb (so_wavespace s) "wavelength" then "wavelength" else "wavenumber") = key).
    { destruct Hax as [(-> & -> & _)|(-> & -> & _)]; reflexivity. }
    assert (Hco : coord s = Some xs).
    { unfold coord. destruct Hax as [(-> & _ & H)|(-> & _ & H)]; exact H. }
    rewrite Hkey. unfold dhas. rewrite Hr. cbn [bind]. unfold get_arr. rewrite Hw. cbn [bind]. rewrite Hr. cbn [bind].
    rewrite (scaled_ends ws k Hne). cbn [bind]. rewrite Hdl.
    fold a. fold b. rewrite (grid_fin a b dl Hle Hpos). cbn [bind].
    assert (Em : map (fun x => nmul XRN x (Fin k)) (map Fin ws) = map Fin (map (fun w => w * k) ws)).
    { rewrite !map_map. reflexivity. }
    change (num XRN) with XR in *. rewrite Em, Eg. cbn [bind]. fold grid.
    rewrite (map_spline fg g grid Hg).
    unfold interpolate. cbn [so_dlambda with_dlambda so_irradiance bind].
    rewrite (grid_fin a b dl Hle Hpos). fold grid. cbn [bind].
    assert (Hco' : coord (with_dlambda s (Fin dl)) = Some xs) by exact Hco.
    change (num XRN) with XR in *. rewrite Hco'. cbn [of_option bind]. rewrite Eh. cbn [bind].
    rewrite (map_spline fh h grid Hh). cbn [so_ipol with_ipol of_option bind].
    assert (Hmask : forall x, In x (map Fin grid) -> (nleb XRN (Fin a) x && nleb XRN x (Fin b))%bool = true).
    { intros x Hx. apply in_map_iff in Hx. destruct Hx as (t & <- & Ht). apply grid_in in Ht; [|exact Hle].
      cbn [nleb XRN xleb]. apply andb_true_intro; split; apply Rleb_iff; lra. }
    rewrite !(keep_all _ (map Fin grid)) by (try exact Hmask; rewrite ?map_length; reflexivity).
    change (num XRN) with XR in *.
    rewrite (vmul_fin (map h grid) (map g grid)) by now rewrite !map_length. cbn [bind].
    rewrite (trapezoid_fin (Rvmul (map h grid) (map g grid)) grid) by (rewrite Rvmul_length; now rewrite ?map_length). cbn [bind].
    f_equal.
    - unfold with_ipol, with_dlambda. cbn. now rewrite Hdl.
    - destruct flux; [reflexivity|]. rewrite (trapezoid_fin (map g grid) grid) by now rewrite map_length. reflexivity.
  Qed.
End Spline.
