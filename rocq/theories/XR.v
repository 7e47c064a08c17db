(** Extended reals: exact arithmetic with IEEE rules for infinities and NaN.
    One unsigned zero; no rounding, overflow or underflow. *)
From Coq Require Import Reals Lra ZArith List Bool R_Ifp Lia.
From Verif Require Import Base NumSig.
Open Scope R_scope.

Inductive XR : Type := Fin (r : R) | PInf | NInf | NaN.

Definition Rltb (a b : R) : bool := if Rlt_dec a b then true else false.
Definition Rleb (a b : R) : bool := if Rle_dec a b then true else false.
Definition Reqb (a b : R) : bool := if Req_EM_T a b then true else false.

Definition xneg (x : XR) : XR :=
  match x with Fin r => Fin (- r) | PInf => NInf | NInf => PInf | NaN => NaN end.

Definition xadd (x y : XR) : XR :=
  match x, y with
  | Fin a, Fin b => Fin (a + b)
  | NaN, _ | _, NaN => NaN
  | PInf, NInf | NInf, PInf => NaN
  | PInf, _ | _, PInf => PInf
  | NInf, _ | _, NInf => NInf
  end.

Definition xsub (x y : XR) : XR := 
  match x, y with
  | Fin a, Fin b => Fin (a - b)
  | _, _ => xadd x (xneg y)
  end.

(** infinity with the sign of [r]; zero times infinity is NaN *)
Definition xinf_sign (r : R) : XR :=
  if Rlt_dec 0 r then PInf else if Rlt_dec r 0 then NInf else NaN.

Definition xmul (x y : XR) : XR :=
  match x, y with
  | Fin a, Fin b => Fin (a * b)
  | NaN, _ | _, NaN => NaN
  | PInf, PInf | NInf, NInf => PInf
  | PInf, NInf | NInf, PInf => NInf
  | PInf, Fin b | Fin b, PInf => xinf_sign b
  | NInf, Fin b | Fin b, NInf => xneg (xinf_sign b)
  end.

Definition xdiv (x y : XR) : XR :=
  match x, y with
  | NaN, _ | _, NaN => NaN
  | Fin a, Fin b => if Req_EM_T b 0 then xinf_sign a else Fin (a / b)
  | Fin a, _ => Fin 0
  | PInf, Fin b => if Req_EM_T b 0 then PInf else xinf_sign b
  | NInf, Fin b => if Req_EM_T b 0 then NInf else xneg (xinf_sign b)
  | _, _ => NaN
  end.

Definition xltb (x y : XR) : bool :=
  match x, y with
  | Fin a, Fin b => Rltb a b
  | NaN, _ | _, NaN => false
  | NInf, NInf => false
  | NInf, _ => true
  | _, NInf => false
  | PInf, _ => false
  | Fin _, PInf => true
  end.

Definition xeqb (x y : XR) : bool :=
  match x, y with
  | Fin a, Fin b => Reqb a b
  | PInf, PInf | NInf, NInf => true
  | _, _ => false
  end.

Definition xleb (x y : XR) : bool :=
  match x, y with
  | Fin a, Fin b => Rleb a b
  | _, _ => xltb x y || xeqb x y
  end.

Definition xexp (x : XR) : XR :=
  match x with Fin r => Fin (exp r) | PInf => PInf | NInf => Fin 0 | NaN => NaN end.

Definition xlog (x : XR) : XR :=
  match x with
  | Fin r => if Rlt_dec 0 r then Fin (ln r) else if Rlt_dec r 0 then NaN else NInf
  | PInf => PInf
  | _ => NaN
  end.

Definition xcos (x : XR) : XR := match x with Fin r => Fin (cos r) | _ => NaN end.

Definition xacos (x : XR) : XR :=
  match x with
  | Fin r => if Rlt_dec r (-1) then NaN else if Rlt_dec 1 r then NaN else Fin (acos r)
  | _ => NaN
  end.

(** [a ** b] with a positive finite base (the only use in the code); other bases
    are not modelled and give NaN. *)
Definition xpowr (x y : XR) : XR :=
  match x, y with
  | Fin a, Fin b => if Rlt_dec 0 a then Fin (Rpower a b) else NaN
  | Fin a, PInf => if Rlt_dec 1 a then PInf else NaN
  | Fin a, NInf => if Rlt_dec 1 a then Fin 0 else NaN
  | _, _ => NaN
  end.

Definition xlit (m : Z) (d : positive) : XR := Fin (IZR m / IZR (Zpos d)).

Definition Rtrunc (r : R) : Z :=
  if Rlt_dec r 0 then (- Int_part (- r))%Z else Int_part r.

(** round half to even *)
Definition Rround (r : R) : Z :=
  let f := Int_part r in
  let d := r - IZR f in
  if Rlt_dec d (1/2) then f
  else if Rlt_dec (1/2) d then (f + 1)%Z
  else if Z.even f then f else (f + 1)%Z.

Definition xtrunc (x : XR) : option Z := match x with Fin r => Some (Rtrunc r) | _ => None end.
Definition xround (x : XR) : option Z := match x with Fin r => Some (Rround r) | _ => None end.
Definition xisnan (x : XR) : bool := match x with NaN => true | _ => false end.
Definition xisinf (x : XR) : bool := match x with PInf | NInf => true | _ => false end.

Definition XRN : Num := {|
  num := XR; nadd := xadd; nsub := xsub; nmul := xmul; ndiv := xdiv; nneg := xneg;
  nltb := xltb; nleb := xleb; neqb := xeqb; nexp := xexp; nlog := xlog; ncos := xcos;
  nacos := xacos; npi := Fin PI; npowr := xpowr; nlit := xlit; nnan := NaN;
  nisnan := xisnan; nisinf := xisinf; ntrunc := xtrunc; nround := xround |}.
Canonical XRN.

(** ** Lemmas *)
Lemma Rltb_true a b : a < b -> Rltb a b = true.
Proof. unfold Rltb. destruct (Rlt_dec a b); auto; lra. Qed.
Lemma Rltb_false a b : b <= a -> Rltb a b = false.
Proof. unfold Rltb. destruct (Rlt_dec a b); auto; lra. Qed.
Lemma Rltb_iff a b : Rltb a b = true <-> a < b.
Proof. unfold Rltb. destruct (Rlt_dec a b); split; intros; auto; try lra; discriminate. Qed.
Lemma Rltb_false_iff a b : Rltb a b = false <-> b <= a.
Proof. unfold Rltb. destruct (Rlt_dec a b); split; intros; auto; try lra; discriminate. Qed.
Lemma Rleb_iff a b : Rleb a b = true <-> a <= b.
Proof. unfold Rleb. destruct (Rle_dec a b); split; intros; auto; try lra; discriminate. Qed.
Lemma Rleb_false_iff a b : Rleb a b = false <-> b < a.
Proof. unfold Rleb. destruct (Rle_dec a b); split; intros; auto; try lra; discriminate. Qed.
Lemma Reqb_iff a b : Reqb a b = true <-> a = b.
Proof. unfold Reqb. destruct (Req_EM_T a b); split; intros; auto; try lra; discriminate. Qed.
Lemma Reqb_false_iff a b : Reqb a b = false <-> a <> b.
Proof. unfold Reqb. destruct (Req_EM_T a b); split; intros; auto; try discriminate. contradiction. Qed.

Lemma xdiv_fin a b : b <> 0 -> xdiv (Fin a) (Fin b) = Fin (a / b).
Proof. intros H. simpl. destruct (Req_EM_T b 0); congruence. Qed.

Lemma xlog_pos r : 0 < r -> xlog (Fin r) = Fin (ln r).
Proof. intros H. simpl. destruct (Rlt_dec 0 r); auto; lra. Qed.

Lemma xpowr_pos a b : 0 < a -> xpowr (Fin a) (Fin b) = Fin (Rpower a b).
Proof. intros H. simpl. destruct (Rlt_dec 0 a); auto; lra. Qed.

Lemma xacos_fin r : -1 <= r <= 1 -> xacos (Fin r) = Fin (acos r).
Proof. intros H. simpl. destruct (Rlt_dec r (-1)); [lra|]. destruct (Rlt_dec 1 r); [lra|auto]. Qed.

Lemma npow_fin (r : R) n : @npow XRN (Fin r) n = Fin (r ^ n).
Proof.
  induction n as [|n IH].
  - simpl. unfold xlit. f_equal. lra.
  - destruct n as [|n].
    + simpl. f_equal. lra.
    + change (@npow XRN (Fin r) (S (S n))) with (xmul (@npow XRN (Fin r) (S n)) (Fin r)).
      rewrite IH. simpl. f_equal. ring.
Qed.

Lemma xlit_eq m d : xlit m d = Fin (IZR m / IZR (Zpos d)).
Proof. reflexivity. Qed.

Lemma nZ_fin z : @nZ XRN z = Fin (IZR z).
Proof. unfold nZ. simpl. unfold xlit. f_equal. lra. Qed.
Lemma n0_fin : @n0 XRN = Fin 0.
Proof. unfold n0. simpl. unfold xlit. f_equal. lra. Qed.
Lemma n1_fin : @n1 XRN = Fin 1.
Proof. unfold n1. simpl. unfold xlit. f_equal. lra. Qed.

Definition Rclip (x lo hi : R) : R := Rmin (Rmax x lo) hi.

Lemma nmax_fin a b : @nmax XRN (Fin a) (Fin b) = Fin (Rmax a b).
Proof.
  unfold nmax. simpl. unfold Rltb, Rmax.
  destruct (Rlt_dec a b), (Rle_dec a b); auto; f_equal; lra.
Qed.
Lemma nmin_fin a b : @nmin XRN (Fin a) (Fin b) = Fin (Rmin a b).
Proof.
  unfold nmin. simpl. unfold Rltb, Rmin.
  destruct (Rlt_dec b a), (Rle_dec a b); auto; f_equal; lra.
Qed.
Lemma nclip_fin x lo hi : @nclip XRN (Fin x) (Fin lo) (Fin hi) = Fin (Rclip x lo hi).
Proof. unfold nclip. now rewrite nmax_fin, nmin_fin. Qed.

Lemma nabs_fin r : @nabs XRN (Fin r) = Fin (Rabs r).
Proof.
  unfold nabs. rewrite n0_fin. simpl. unfold Rltb, Rabs.
  destruct (Rlt_dec r 0), (Rcase_abs r); auto; f_equal; lra.
Qed.

Lemma nan_to_num_fin r : @nan_to_num XRN (Fin r) = Fin r.
Proof. reflexivity. Qed.

(** Real-valued trapezoid and its link to the model's. *)
Fixpoint Rtrapz (ys xs : list R) : R :=
  match ys, xs with
  | cons y0 (cons y1 _ as ys'), cons x0 (cons x1 _ as xs') =>
      (x1 - x0) * (y1 + y0) / 2 + Rtrapz ys' xs'
  | _, _ => 0
  end.

Lemma trapz_fin ys : forall xs, @trapz XRN (map Fin ys) (map Fin xs) = Fin (Rtrapz ys xs).
Proof.
  induction ys as [|y0 ys IH]; intros xs; [apply n0_fin|].
  destruct ys as [|y1 ys]; [apply n0_fin|].
  destruct xs as [|x0 xs]; [apply n0_fin|].
  destruct xs as [|x1 xs]; [apply n0_fin|].
  specialize (IH (x1 :: xs)%list).
  change (@trapz XRN (map Fin (y0 :: y1 :: ys)%list) (map Fin (x0 :: x1 :: xs)%list))
    with (xadd (xdiv (xmul (xsub (Fin x1) (Fin x0)) (xadd (Fin y1) (Fin y0))) (@nZ XRN 2))
               (@trapz XRN (map Fin (y1 :: ys)%list) (map Fin (x1 :: xs)%list))).
  rewrite IH, nZ_fin. simpl xmul. rewrite xdiv_fin by lra. simpl. f_equal.
Qed.

Lemma trapezoid_fin ys xs : length ys = length xs ->
  @trapezoid XRN (map Fin ys) (map Fin xs) = Ok (Fin (Rtrapz ys xs)).
Proof.
  intros H. unfold trapezoid. rewrite !map_length, H, Nat.eqb_refl. now rewrite trapz_fin.
Qed.

Definition Rvmul (a b : list R) : list R := map (fun p => fst p * snd p) (combine a b).

Lemma vmul_fin a b : length a = length b ->
  @vmul XRN (map Fin a) (map Fin b) = Ok (map Fin (Rvmul a b)).
Proof.
  intros H. unfold vmul. rewrite !map_length, H, Nat.eqb_refl. f_equal.
  clear H. unfold Rvmul. revert b. induction a as [|x a IH]; intros [|y b]; simpl; auto.
  f_equal. apply IH.
Qed.

Lemma Rvmul_length a b : length a = length b -> length (Rvmul a b) = length a.
Proof. intros H. unfold Rvmul. rewrite map_length, combine_length, H, Nat.min_id. auto. Qed.

Definition Rsum (l : list R) : R := fold_right Rplus 0 l.
Lemma nsum_fin l : @nsum XRN (map Fin l) = Fin (Rsum l).
Proof. induction l as [|x l IH]; simpl; [apply n0_fin|]. now rewrite IH. Qed.

Lemma Rfloor_bounds r : IZR (Int_part r) <= r < IZR (Int_part r) + 1.
Proof. destruct (base_Int_part r). lra. Qed.

Lemma Int_part_unique r z : IZR z <= r < IZR z + 1 -> Int_part r = z.
Proof.
  intros H. pose proof (Rfloor_bounds r).
  assert (IZR z < IZR (Int_part r + 1)) by (rewrite plus_IZR; lra).
  assert (IZR (Int_part r) < IZR (z + 1)) by (rewrite plus_IZR; lra).
  apply lt_IZR in H1, H2. lia.
Qed.
