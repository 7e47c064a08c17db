(** Interpolation in the Rayleigh tables. *)
From Coq Require Import Reals Lra ZArith String List Bool Lia Arith Psatz.
From Verif Require Import Base NumSig XR M_Tables M_Utils M_Rsr M_RadTb M_Nir M_Rayleigh S_Nir S_Rayleigh P_Arr P_Rayleigh.
Import ListNotations.
Local Open Scope R_scope.

(** ** Wavelength *)
Lemma zip_fin f (a b : list R) : zip_with (fun x y : XR => nadd XRN (nmul XRN (Fin f) x) (nmul XRN (nsub XRN (nlit XRN 1 1) (Fin f)) y)) (map Fin a) (map Fin b) =
  map Fin (zip_with (fun x y => f * x + (1 - f) * y) a b).
Proof.
  rewrite lit1. unfold zip_with. revert b. induction a as [|x a IH]; intros [|y b]; cbn; try reflexivity. now rewrite IH.
Qed.

Definition size3 (ss az ts : list R) : nat := (List.length ss * (List.length az * List.length ts))%nat.

Lemma adjusted lut ws ss az ts V smax tmax w : holds lut ws ss az ts V smax tmax -> inside ws w ->
  exists i w1 w2 f r1 r2 B, @wavelength_adjusted_lut XRN (Some lut) (Fin w) = Ok (map Fin B) /\
    nth_error ws i = Some w1 /\ nth_error ws (S i) = Some w2 /\ w1 < w <= w2 /\ 0 <= f < 1 /\ f * w1 + (1 - f) * w2 = w /\
    nth_error V i = Some r1 /\ nth_error V (S i) = Some r2 /\ List.length B = size3 ss az ts /\
    (forall n, nth_error B n = match nth_error r1 n, nth_error r2 n with Some x, Some y => Some (f * x + (1 - f) * y) | _, _ => None end).
Proof.
  intros H Hin. destruct (wavelength_index ws w (h_winc _ _ _ _ _ _ _ _ H) Hin) as (i & w1 & w2 & f & E & E1 & E2 & Hw & Hf & Hs).
  unfold wavelength_adjusted_lut. rewrite (h_w _ _ _ _ _ _ _ _ H).
  destruct Hin as [(a & Ha & Haw) (b & Hb & Hbw)]. assert (Hne : ws <> []) by (intros ->; destruct Ha).
  destruct (amin_fin ws Hne) as (lo & -> & _ & Hlo). destruct (amax_fin ws Hne) as (hi & -> & _ & Hhi). cbn [bind].
  cbn [nltb XRN xltb]. rewrite !Rltb_true by (specialize (Hlo a Ha); specialize (Hhi b Hb); lra). cbn [andb negb].
  rewrite E. cbn [bind]. rewrite (h_v _ _ _ _ _ _ _ _ H).
  assert (i < List.length V /\ S i < List.length V)%nat as [L1 L2].
  { rewrite (h_wlen _ _ _ _ _ _ _ _ H). split; apply nth_error_Some; congruence. }
  destruct (nth_error V i) as [r1|] eqn:V1; [|apply nth_error_None in V1; lia].
  destruct (nth_error V (S i)) as [r2|] eqn:V2; [|apply nth_error_None in V2; lia].
  unfold pyidx. destruct (Z.ltb_spec (Z.of_nat (S i) - 1) 0); [lia|]. unfold idx.
  replace (Z.to_nat (Z.of_nat (S i) - 1)) with i by lia. rewrite !nth_error_map, V1, V2. cbn [option_map of_option bind].
  pose proof (h_vlen _ _ _ _ _ _ _ _ H) as HL. rewrite Forall_forall in HL.
  pose proof (HL r1 (nth_error_In _ _ V1)) as Q1. pose proof (HL r2 (nth_error_In _ _ V2)) as Q2. fold (size3 ss az ts) in Q1, Q2.
  rewrite !map_length, Q1, Q2, Nat.eqb_refl.
  exists i, w1, w2, f, r1, r2, (zip_with (fun x y => f * x + (1 - f) * y) r1 r2).
  split; [f_equal; apply zip_fin|]. repeat (split; [solve [auto]|]). split; [rewrite zip_length; lia|].
  intros n. destruct (nth_error r1 n) as [x|] eqn:N1.
  - destruct (nth_error r2 n) as [y|] eqn:N2; [now apply (zip_nth (fun x y => f * x + (1 - f) * y))|].
    apply nth_error_None in N2. apply nth_error_None. rewrite zip_length. lia.
  - apply nth_error_None in N1. apply nth_error_None. rewrite zip_length. lia.
Qed.

Lemma lerp_between f x y lo hi : 0 <= f <= 1 -> lo <= x <= hi -> lo <= y <= hi -> lo <= f * x + (1 - f) * y <= hi.
Proof. intros. nra. Qed.

(** between the two rows *)
Lemma adjusted_between f x y : 0 <= f <= 1 -> Rmin x y <= f * x + (1 - f) * y <= Rmax x y.
Proof.
  intros H. apply lerp_between; [exact H| |]; split; first [apply Rmin_l|apply Rmin_r|apply Rmax_l|apply Rmax_r].
Qed.

Lemma outside_err lut ws w : rl_wavelengths lut = map Fin ws -> (forall x, w = Fin x -> ~ inside ws x) ->
  @wavelength_adjusted_lut XRN (Some lut) w = Err ValueError.
Proof.
  intros H Hn. unfold wavelength_adjusted_lut. rewrite H. destruct ws as [|v ws]; [reflexivity|].
  destruct (amin_fin (v :: ws)) as (lo & -> & Ilo & _); [discriminate|].
  destruct (amax_fin (v :: ws)) as (hi & -> & Ihi & _); [discriminate|]. cbn [bind].
  destruct w as [x| | |]; cbn [nltb XRN xltb andb negb]; try reflexivity.
  destruct (Rltb lo x) eqn:A; [|reflexivity]. destruct (Rltb x hi) eqn:B; [|reflexivity].
  apply Rltb_iff in A, B. exfalso. apply (Hn x eq_refl). split; eauto.
Qed.

(** ** One axis *)
Definition Rpos (lo hi : R) (n : nat) (x : R) : R := (x - lo) / (hi - lo) * IZR (Z.of_nat n - 1).
Definition Rcell (oob : XR -> Z) (lo hi : R) (n : nat) (x : R) : Z :=
  let t := Rpos lo hi n x in
  Z.max (Z.min (if in_int32 (Rtrunc t) then Rtrunc t else oob (Fin t)) (Z.of_nat n - 2)) 0.

Lemma axis_cell_fin oob lo hi n x : lo < hi ->
  @axis_cell XRN oob (Fin lo) (Fin hi) n (Fin x) =
    (Z.to_nat (Rcell oob lo hi n x), Fin (Rpos lo hi n x - IZR (Rcell oob lo hi n x))).
Proof.
  intros H. unfold axis_cell. cbv zeta. cbn [nsub ndiv nmul XRN xsub]. rewrite xdiv_fin by lra. rewrite !nZ_fin. cbn [xmul ntrunc XRN xtrunc xsub].
  unfold Rcell, Rpos. cbv zeta. reflexivity.
Qed.
Lemma axis_cell_nan oob lo hi n x : (forall y, x <> Fin y) -> lo < hi ->
  exists q l, @axis_cell XRN oob (Fin lo) (Fin hi) n x = (q, l) /\ (forall y, l <> Fin y).
Proof.
  intros Hx H. unfold axis_cell. cbv zeta. eexists. eexists. split; [reflexivity|]. intros y.
  rewrite !nZ_fin. cbn [nsub ndiv nmul XRN]. destruct x as [x| | |]; [now destruct (Hx x)| | |]; cbn [xsub xneg xadd].
  - unfold xdiv. destruct (Req_EM_T (hi - lo) 0); cbn [xmul]; unfold xinf_sign;
      repeat destruct (Rlt_dec _ _); cbn; try discriminate; unfold xinf_sign; repeat destruct (Rlt_dec _ _); cbn; discriminate.
  - unfold xdiv. destruct (Req_EM_T (hi - lo) 0); cbn [xmul]; unfold xinf_sign;
      repeat destruct (Rlt_dec _ _); cbn; try discriminate; unfold xinf_sign; repeat destruct (Rlt_dec _ _); cbn; discriminate.
  - discriminate.
Qed.

Lemma Rcell_range oob lo hi n x : (2 <= n)%nat -> (0 <= Rcell oob lo hi n x <= Z.of_nat n - 2)%Z.
Proof. intros H. unfold Rcell. cbv zeta. lia. Qed.

Lemma Rtrunc_bounds t : 0 <= t -> (0 <= Rtrunc t)%Z /\ IZR (Rtrunc t) <= t < IZR (Rtrunc t) + 1.
Proof.
  intros H. unfold Rtrunc. destruct (Rlt_dec t 0); [lra|]. pose proof (Rfloor_bounds t) as B. split; [|exact B].
  assert (IZR (-1) < IZR (Int_part t)) by lra. apply lt_IZR in H0. lia.
Qed.

(** the position in the cell is between 0 and 1 for a point of the axis *)
Lemma cell_inside oob lo hi n x : (2 <= n)%nat -> (Z.of_nat n <= 2 ^ 31)%Z -> lo < hi -> lo <= x <= hi ->
  0 <= Rpos lo hi n x - IZR (Rcell oob lo hi n x) <= 1.
Proof.
  intros Hn Hb Hl [Hx1 Hx2].
  assert (P : 0 <= Rpos lo hi n x <= IZR (Z.of_nat n - 1)).
  { unfold Rpos. assert (0 <= (x - lo) / (hi - lo) <= 1).
    { split; [apply Rmult_le_pos; [lra|left; apply Rinv_0_lt_compat; lra]|].
      apply (Rmult_le_reg_r (hi - lo)); [lra|]. unfold Rdiv. rewrite Rmult_assoc, Rinv_l by lra. lra. }
    assert (0 <= IZR (Z.of_nat n - 1)) by (apply IZR_le; lia). nra. }
  destruct (Rtrunc_bounds _ (proj1 P)) as (T0 & T1 & T2). unfold Rcell. cbv zeta. set (t := Rpos lo hi n x) in *. clearbody t.
  assert (T3 : (Rtrunc t <= Z.of_nat n - 1)%Z) by (apply le_IZR; lra).
  assert (in_int32 (Rtrunc t) = true) as -> by (unfold in_int32; rewrite andb_true_iff, Z.leb_le, Z.ltb_lt; lia).
  destruct (Z.le_gt_cases (Rtrunc t) (Z.of_nat n - 2)).
  - rewrite Z.min_l, Z.max_l by lia. lra.
  - rewrite Z.min_r, Z.max_l by lia. assert (Rtrunc t = (Z.of_nat n - 1)%Z) as E by lia. rewrite E in *.
    rewrite !minus_IZR in *. lra.
Qed.

(** the point in terms of its cell *)
Lemma cell_point oob lo hi n x : (2 <= n)%nat -> lo < hi ->
  x = lo + (IZR (Rcell oob lo hi n x) + (Rpos lo hi n x - IZR (Rcell oob lo hi n x))) * ((hi - lo) / IZR (Z.of_nat n - 1)).
Proof.
  intros Hn Hl. assert (0 < IZR (Z.of_nat n - 1)) by (apply (IZR_lt 0); lia). unfold Rpos. field. lra.
Qed.

(** a node: the cell and position select exactly that node *)
Lemma cell_node oob lo hi n i : (2 <= n)%nat -> (Z.of_nat n <= 2 ^ 31)%Z -> lo < hi -> (i < n)%nat ->
  let x := lo + INR i * ((hi - lo) / IZR (Z.of_nat n - 1)) in
  let q := Rcell oob lo hi n x in let l := Rpos lo hi n x - IZR q in
  (q = Z.of_nat i /\ l = 0) \/ (q = (Z.of_nat i - 1)%Z /\ l = 1 /\ (0 < i)%nat).
Proof.
  intros Hn Hb Hl Hi. cbv zeta. assert (0 < IZR (Z.of_nat n - 1)) by (apply (IZR_lt 0); lia).
  assert (P : Rpos lo hi n (lo + INR i * ((hi - lo) / IZR (Z.of_nat n - 1))) = IZR (Z.of_nat i)).
  { unfold Rpos. rewrite INR_IZR_INZ. field. lra. }
  unfold Rcell. cbv zeta. rewrite P.
  assert (T : Rtrunc (IZR (Z.of_nat i)) = Z.of_nat i).
  { unfold Rtrunc. destruct (Rlt_dec _ 0) as [A|_]; [apply lt_IZR in A; lia|]. apply Int_part_unique. lra. }
  rewrite T. assert (in_int32 (Z.of_nat i) = true) as -> by (unfold in_int32; rewrite andb_true_iff, Z.leb_le, Z.ltb_lt; lia).
  destruct (Z.le_gt_cases (Z.of_nat i) (Z.of_nat n - 2)).
  - left. rewrite Z.min_l, Z.max_l by lia. split; [reflexivity|]. lra.
  - right. rewrite Z.min_r, Z.max_l by lia. assert (E : Z.of_nat i = (Z.of_nat n - 1)%Z) by lia. rewrite E. rewrite !minus_IZR. repeat split; [lia|lra|lia].
Qed.

(** ** Three axes *)
Definition Rtri (v : nat -> nat -> nat -> R) (l0 l1 l2 : R) : R :=
  (1 - l0) * ((1 - l1) * ((1 - l2) * v 0%nat 0%nat 0%nat + l2 * v 0%nat 0%nat 1%nat) + l1 * ((1 - l2) * v 0%nat 1%nat 0%nat + l2 * v 0%nat 1%nat 1%nat)) +
  l0 * ((1 - l1) * ((1 - l2) * v 1%nat 0%nat 0%nat + l2 * v 1%nat 0%nat 1%nat) + l1 * ((1 - l2) * v 1%nat 1%nat 0%nat + l2 * v 1%nat 1%nat 1%nat)).
Definition corner (B : list R) (o1 o2 q0 q1 q2 i j k : nat) : R := nth (o1 * o2 * (q0 + i) + o2 * (q1 + j) + (q2 + k)) B 0.

Lemma interp3_fin v r l0 l1 l2 : (forall i j k, (i < 2)%nat -> (j < 2)%nat -> (k < 2)%nat -> v i j k = Ok (Fin (r i j k))) ->
  @interp3 XRN v (Fin l0) (Fin l1) (Fin l2) = Ok (Fin (Rtri r l0 l1 l2)).
Proof.
  intros H. unfold interp3. rewrite !H by lia. cbn [bind]. rewrite lit1. reflexivity.
Qed.

Lemma index_bound o0 o1 o2 i j k : (i < o0)%nat -> (j < o1)%nat -> (k < o2)%nat -> (o1 * o2 * i + o2 * j + k < o0 * (o1 * o2))%nat.
Proof.
  intros Hi Hj Hk. assert (o2 * j + k < o1 * o2)%nat by nia. assert (o1 * o2 * i + o1 * o2 <= o0 * (o1 * o2))%nat by nia. lia.
Qed.

Lemma idx_fin B n : (n < List.length B)%nat -> idx (map Fin B) n = Ok (Fin (nth n B 0)).
Proof. intros H. unfold idx. rewrite nth_error_map, (nth_error_nth' B 0 H). reflexivity. Qed.

Section Tri.
  Variables (oob : XR -> Z) (a0 b0 a1 b1 a2 b2 : R) (o0 o1 o2 : nat) (B : list R) (x0 x1 x2 : R).
  Hypotheses (L0 : a0 < b0) (L1 : a1 < b1) (L2 : a2 < b2) (O0 : (2 <= o0)%nat) (O1 : (2 <= o1)%nat) (O2 : (2 <= o2)%nat)
             (HB : List.length B = (o0 * (o1 * o2))%nat).
  Let q0 := Rcell oob a0 b0 o0 x0. Let q1 := Rcell oob a1 b1 o1 x1. Let q2 := Rcell oob a2 b2 o2 x2.
  Let l0 := Rpos a0 b0 o0 x0 - IZR q0. Let l1 := Rpos a1 b1 o1 x1 - IZR q1. Let l2 := Rpos a2 b2 o2 x2 - IZR q2.
  Definition tri_value : R := Rtri (corner B o1 o2 (Z.to_nat q0) (Z.to_nat q1) (Z.to_nat q2)) l0 l1 l2.

  Lemma corner_in i j k : (i < 2)%nat -> (j < 2)%nat -> (k < 2)%nat ->
    (o1 * o2 * (Z.to_nat q0 + i) + o2 * (Z.to_nat q1 + j) + (Z.to_nat q2 + k) < List.length B)%nat.
  Proof.
    intros Hi Hj Hk. rewrite HB.
    pose proof (Rcell_range oob a0 b0 o0 x0 O0). pose proof (Rcell_range oob a1 b1 o1 x1 O1). pose proof (Rcell_range oob a2 b2 o2 x2 O2).
    fold q0 in H. fold q1 in H0. fold q2 in H1.
    apply index_bound; lia.
  Qed.
  Lemma minterp_fin : @minterp XRN oob (Fin a0, Fin a1, Fin a2) (Fin b0, Fin b1, Fin b2) (o0, o1, o2) (map Fin B) (Fin x0, Fin x1, Fin x2) = Ok (Fin tri_value).
  Proof.
    unfold minterp. rewrite !axis_cell_fin by assumption. fold q0 q1 q2 l0 l1 l2.
    apply interp3_fin. intros i j k Hi Hj Hk. apply idx_fin. now apply corner_in.
  Qed.

  Lemma tri_bounds lo hi : (Z.of_nat o0 <= 2 ^ 31)%Z -> (Z.of_nat o1 <= 2 ^ 31)%Z -> (Z.of_nat o2 <= 2 ^ 31)%Z ->
    a0 <= x0 <= b0 -> a1 <= x1 <= b1 -> a2 <= x2 <= b2 -> (forall v, In v B -> lo <= v <= hi) -> lo <= tri_value <= hi.
  Proof.
    intros Z0 Z1 Z2 X0 X1 X2 Hv.
    pose proof (cell_inside oob a0 b0 o0 x0 O0 Z0 L0 X0) as C0. pose proof (cell_inside oob a1 b1 o1 x1 O1 Z1 L1 X1) as C1.
    pose proof (cell_inside oob a2 b2 o2 x2 O2 Z2 L2 X2) as C2. fold q0 in C0. fold q1 in C1. fold q2 in C2. fold l0 in C0. fold l1 in C1. fold l2 in C2.
    assert (K : forall i j k, (i < 2)%nat -> (j < 2)%nat -> (k < 2)%nat -> lo <= corner B o1 o2 (Z.to_nat q0) (Z.to_nat q1) (Z.to_nat q2) i j k <= hi).
    { intros i j k Hi Hj Hk. apply Hv. unfold corner. apply nth_In. now apply corner_in. }
    unfold tri_value. set (c := corner _ _ _ _ _ _) in *. clearbody c. unfold Rtri.
    assert (E : forall l x y, 0 <= l <= 1 -> lo <= x <= hi -> lo <= y <= hi -> lo <= (1 - l) * x + l * y <= hi) by (intros; nra).
    repeat (apply E; [assumption| |]); apply K; lia.
  Qed.

  Lemma tri_affine g : multi_affine g ->
    (forall i j k, (i < o0)%nat -> (j < o1)%nat -> (k < o2)%nat ->
       nth (o1 * o2 * i + o2 * j + k) B 0 = g (a0 + INR i * ((b0 - a0) / IZR (Z.of_nat o0 - 1)))
                                            (a1 + INR j * ((b1 - a1) / IZR (Z.of_nat o1 - 1)))
                                            (a2 + INR k * ((b2 - a2) / IZR (Z.of_nat o2 - 1)))) ->
    tri_value = g x0 x1 x2.
  Proof.
    intros (G0 & G1 & G2) Hg.
    pose proof (Rcell_range oob a0 b0 o0 x0 O0) as R0. pose proof (Rcell_range oob a1 b1 o1 x1 O1) as R1. pose proof (Rcell_range oob a2 b2 o2 x2 O2) as R2.
    pose proof (cell_point oob a0 b0 o0 x0 O0 L0) as P0. pose proof (cell_point oob a1 b1 o1 x1 O1 L1) as P1. pose proof (cell_point oob a2 b2 o2 x2 O2 L2) as P2.
    fold q0 in R0, P0. fold q1 in R1, P1. fold q2 in R2, P2. fold l0 in P0. fold l1 in P1. fold l2 in P2.
    unfold tri_value, Rtri, corner. rewrite !Hg by lia.
    assert (N : forall q i, (0 <= q)%Z -> INR (Z.to_nat q + i) = IZR q + INR i).
    { intros q i Hq. rewrite plus_INR. f_equal. rewrite INR_IZR_INZ, Z2Nat.id; auto. }
    rewrite !N by lia. change (INR 0) with 0. change (INR 1) with 1.
    set (h0 := (b0 - a0) / IZR (Z.of_nat o0 - 1)) in *. set (h1 := (b1 - a1) / IZR (Z.of_nat o1 - 1)) in *. set (h2 := (b2 - a2) / IZR (Z.of_nat o2 - 1)) in *.
    set (u0 := a0 + (IZR q0 + 0) * h0). set (u1 := a1 + (IZR q1 + 0) * h1). set (u2 := a2 + (IZR q2 + 0) * h2).
    set (v0 := a0 + (IZR q0 + 1) * h0). set (v1 := a1 + (IZR q1 + 1) * h1). set (v2 := a2 + (IZR q2 + 1) * h2).
    replace (g x0 x1 x2) with (g (u0 + l0 * (v0 - u0)) (u1 + l1 * (v1 - u1)) (u2 + l2 * (v2 - u2))).
    2:{ f_equal; symmetry; (etransitivity; [first [exact P0|exact P1|exact P2]|]); unfold u0, v0, u1, v1, u2, v2; ring. }
    rewrite (G0 _ _ u0 v0 l0). rewrite !(G1 _ _ u1 v1 l1). rewrite !(G2 _ _ u2 v2 l2). reflexivity.
  Qed.

End Tri.

Lemma tri_node oob a0 b0 a1 b1 a2 b2 o0 o1 o2 B i j k :
  a0 < b0 -> a1 < b1 -> a2 < b2 -> (2 <= o0)%nat -> (2 <= o1)%nat -> (2 <= o2)%nat ->
  (Z.of_nat o0 <= 2 ^ 31)%Z -> (Z.of_nat o1 <= 2 ^ 31)%Z -> (Z.of_nat o2 <= 2 ^ 31)%Z ->
  (i < o0)%nat -> (j < o1)%nat -> (k < o2)%nat ->
  tri_value oob a0 b0 a1 b1 a2 b2 o0 o1 o2 B
     (a0 + INR i * ((b0 - a0) / IZR (Z.of_nat o0 - 1))) (a1 + INR j * ((b1 - a1) / IZR (Z.of_nat o1 - 1))) (a2 + INR k * ((b2 - a2) / IZR (Z.of_nat o2 - 1)))
  = nth (o1 * o2 * i + o2 * j + k) B 0.
Proof.
  intros. unfold tri_value.
  destruct (cell_node oob a0 b0 o0 i) as [[Q0 P0]|(Q0 & P0 & I0)]; auto;
  destruct (cell_node oob a1 b1 o1 j) as [[Q1 P1]|(Q1 & P1 & I1)]; auto;
  destruct (cell_node oob a2 b2 o2 k) as [[Q2 P2]|(Q2 & P2 & I2)]; auto;
  rewrite P0, P1, P2, Q0, Q1, Q2; unfold Rtri;
  [replace (nth (o1 * o2 * i + o2 * j + k) B 0) with (corner B o1 o2 (Z.to_nat (Z.of_nat i)) (Z.to_nat (Z.of_nat j)) (Z.to_nat (Z.of_nat k)) 0 0 0)
  |replace (nth (o1 * o2 * i + o2 * j + k) B 0) with (corner B o1 o2 (Z.to_nat (Z.of_nat i)) (Z.to_nat (Z.of_nat j)) (Z.to_nat (Z.of_nat k - 1)) 0 0 1)
  |replace (nth (o1 * o2 * i + o2 * j + k) B 0) with (corner B o1 o2 (Z.to_nat (Z.of_nat i)) (Z.to_nat (Z.of_nat j - 1)) (Z.to_nat (Z.of_nat k)) 0 1 0)
  |replace (nth (o1 * o2 * i + o2 * j + k) B 0) with (corner B o1 o2 (Z.to_nat (Z.of_nat i)) (Z.to_nat (Z.of_nat j - 1)) (Z.to_nat (Z.of_nat k - 1)) 0 1 1)
  |replace (nth (o1 * o2 * i + o2 * j + k) B 0) with (corner B o1 o2 (Z.to_nat (Z.of_nat i - 1)) (Z.to_nat (Z.of_nat j)) (Z.to_nat (Z.of_nat k)) 1 0 0)
  |replace (nth (o1 * o2 * i + o2 * j + k) B 0) with (corner B o1 o2 (Z.to_nat (Z.of_nat i - 1)) (Z.to_nat (Z.of_nat j)) (Z.to_nat (Z.of_nat k - 1)) 1 0 1)
  |replace (nth (o1 * o2 * i + o2 * j + k) B 0) with (corner B o1 o2 (Z.to_nat (Z.of_nat i - 1)) (Z.to_nat (Z.of_nat j - 1)) (Z.to_nat (Z.of_nat k)) 1 1 0)
  |replace (nth (o1 * o2 * i + o2 * j + k) B 0) with (corner B o1 o2 (Z.to_nat (Z.of_nat i - 1)) (Z.to_nat (Z.of_nat j - 1)) (Z.to_nat (Z.of_nat k - 1)) 1 1 1)];
  try ring; unfold corner; f_equal; try (replace (Z.to_nat (Z.of_nat i - 1)) with (i - 1)%nat by lia);
   try (replace (Z.to_nat (Z.of_nat j - 1)) with (j - 1)%nat by lia); try (replace (Z.to_nat (Z.of_nat k - 1)) with (k - 1)%nat by lia); rewrite ?Nat2Z.id, ?Nat.add_0_r;
   try (replace (i - 1 + 1)%nat with i by lia); try (replace (j - 1 + 1)%nat with j by lia); try (replace (k - 1 + 1)%nat with k by lia); reflexivity.
Qed.
