(** The numbers used by the modelled code: one record of operations, so that the
    model is written once and read over exact extended reals ([XR]) or over IEEE
    binary64 ([B64]).  All comparisons return [false] when an operand is NaN. *)
From Coq Require Import ZArith List Bool.
Import ListNotations.
From Verif Require Import Base.

Record Num : Type := {
  num :> Type;
  nadd : num -> num -> num;
  nsub : num -> num -> num;
  nmul : num -> num -> num;
  ndiv : num -> num -> num;
  nneg : num -> num;
  nltb : num -> num -> bool;
  nleb : num -> num -> bool;
  neqb : num -> num -> bool;
  nexp : num -> num;
  nlog : num -> num;
  ncos : num -> num;
  nacos : num -> num;
  npi : num;
  npowr : num -> num -> num;        (** [a ** b] for a positive base *)
  nlit : Z -> positive -> num;      (** decimal literal [m / d] *)
  nnan : num;
  nisnan : num -> bool;
  nisinf : num -> bool;
  ntrunc : num -> option Z;         (** C cast to integer; [None] on NaN/inf *)
  nround : num -> option Z;         (** Python [round]: half to even *)
}.

Declare Scope num_scope.
Delimit Scope num_scope with num.
Bind Scope num_scope with num.
Notation "x + y" := (nadd _ x y) : num_scope.
Notation "x - y" := (nsub _ x y) : num_scope.
Notation "x * y" := (nmul _ x y) : num_scope.
Notation "x / y" := (ndiv _ x y) : num_scope.
Notation "x <? y" := (nltb _ x y) : num_scope.
Notation "x <=? y" := (nleb _ x y) : num_scope.
Notation "x =? y" := (neqb _ x y) : num_scope.

Section Derived.
  Context {N : Num}.
  Local Open Scope num_scope.

  (** numpy [x ** n] for a small integer power (numpy calls C [pow]; the model
      multiplies repeatedly, equal in exact arithmetic). *)
  Fixpoint npow (x : N) (n : nat) : N :=
    match n with
    | O => nlit N 1 1
    | S O => x
    | S n' => npow x n' * x
    end.

  Definition n0 : N := nlit N 0 1.
  Definition n1 : N := nlit N 1 1.
  Definition nZ (z : Z) : N := nlit N z 1.

  (** [np.abs] *)
  Definition nabs (x : N) : N := if x <? n0 then nneg N x else x.

  (** [np.maximum] / [np.minimum]: NaN in either operand gives NaN. *)
  Definition nmax (x y : N) : N :=
    if nisnan N x then x else if nisnan N y then y else if x <? y then y else x.
  Definition nmin (x y : N) : N :=
    if nisnan N x then x else if nisnan N y then y else if y <? x then y else x.

  (** [np.clip(x, lo, hi)], which numpy defines as minimum(maximum(x, lo), hi). *)
  Definition nclip (x lo hi : N) : N := nmin (nmax x lo) hi.

  (** [np.nan_to_num]: NaN to 0, infinities to the largest finite double. *)
  Definition dbl_max : N := nlit N (2 ^ 1024 - 2 ^ 971) 1.
  Definition nan_to_num (x : N) : N :=
    if nisnan N x then n0
    else if nisinf N x then (if x <? n0 then nneg N dbl_max else dbl_max)
    else x.

  (** [np.deg2rad] / [np.rad2deg] *)
  Definition deg2rad (x : N) : N := x * (npi N / nZ 180).
  Definition rad2deg (x : N) : N := x * (nZ 180 / npi N).

  (** numpy [sum] (numpy adds pairwise; the order is irrelevant in exact
      arithmetic, and within rounding in binary64). *)
  Fixpoint nsum (l : list N) : N :=
    match l with [] => n0 | x :: t => x + nsum t end.

  (** scipy.integrate.trapezoid(y, x): sum of diff(x) * (y[1:] + y[:-1]) / 2.0 *)
  Fixpoint trapz (ys xs : list N) : N :=
    match ys, xs with
    | y0 :: ((y1 :: _) as ys'), x0 :: ((x1 :: _) as xs') =>
        (x1 - x0) * (y1 + y0) / nZ 2 + trapz ys' xs'
    | _, _ => n0
    end.

  (** The call with numpy's shape check.  numpy would silently broadcast when one
      of the arrays has exactly two (one for the differences) elements; that
      accident is not modelled, the model raises ValueError there too. *)
  Definition trapezoid (ys xs : list N) : res N :=
    if Nat.eqb (length ys) (length xs) then Ok (trapz ys xs) else Err ValueError.

  (** element-wise product of equally long arrays (broadcasting error otherwise) *)
  Definition vmul (a b : list N) : res (list N) :=
    if Nat.eqb (length a) (length b)
    then Ok (map (fun p => fst p * snd p) (combine a b)) else Err ValueError.
End Derived.
