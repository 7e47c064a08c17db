(** Model of pyspectral/atm_correction_ir.py.  Images are flattened: the pixels
    of equally shaped 2-D arrays in the same order. *)
From Coq Require Import ZArith String List Bool Arith.
From Verif Require Import Base NumSig.
Import ListNotations.

Section AtmIR.
  Context {N : Num}.
  Local Open Scope num_scope.

  (** atm_correction_ir.py:92-93 *)
  Definition ratio (value v_null v_ref : N) : N := (value - v_null) / (v_ref - v_null).
  (** atm_correction_ir.py:95-99 *)
  Definition tau0 (t : N) : N :=
    npowr N (n1 + nlit N 985 100) (ratio t (nZ 210) (nZ 320)) - n1.
  (** atm_correction_ir.py:101-106 *)
  Definition tau (t : N) : N := n1 * npow (ratio t (nZ 170) (nZ 295)) 4.
  (** atm_correction_ir.py:108-112 *)
  Definition delta (z : N) : N :=
    npowr N (n1 + nlit N 62 10) (ratio z n0 (nZ 70)) - n1.

  (** The array types the function distinguishes: dask arrays (attribute
      [compute]), masked arrays (attribute [mask]) and plain numpy arrays.  The
      boolean of a masked element is its mask. *)
  (** attributes tested in atm_correction_ir.py:115, 123-129 *)
  Inductive arr := DaskA (l : list N) | PlainA (l : list N) | MaskedA (l : list (N * bool)).

  (** attributes tested in atm_correction_ir.py:115, 123-129 *)
  Definition values (a : arr) : list N :=
    match a with DaskA l | PlainA l => l | MaskedA l => map fst l end.
  Definition is_dask (a : arr) : bool := match a with DaskA _ => true | _ => false end.

  (** dask branch, one pixel, atm_correction_ir.py:117-121 *)
  Definition dask_pixel (t z : N) : N :=
    if z =? n0 then t + tau0 t
    else if (n0 <? z) && (z <? nZ 90) then t + tau t * delta z
    else t.

  (** The angle tests of the numpy branch (atm_correction_ir.py:124,127):
      [np.ma.where] does not select masked angles. *)
  Definition zen_pixels (a : arr) : list (N * bool) :=
    match a with MaskedA l => l | DaskA l | PlainA l => map (fun z => (z, false)) l end.
  Definition at_nadir (z : N * bool) : bool := negb (snd z) && (fst z =? n0).
  Definition off_nadir (z : N * bool) : bool := negb (snd z) && ((n0 <? fst z) && (fst z <? nZ 90)).

  (** [data[i] += inc] for one element of a masked array (numpy.ma): a masked
      element is left alone; the numpy.ma operations that compute [inc]
      (division, power) mask non-finite results, and a masked increment masks the
      element without changing the value below. *)
  (** += of atm_correction_ir.py:125, 128 *)
  Definition masked_iadd (p : N * bool) (inc : N) : N * bool :=
    if snd p then p
    else if nisnan N inc || nisinf N inc then (fst p, true)
    else (fst p + inc, false).

  (** [np.ma.where] and the in-place additions, atm_correction_ir.py:124-125 and
      127-128, for one pixel of a masked array *)
  Definition step1 (p z : N * bool) : N * bool :=
    if at_nadir z then masked_iadd p (tau0 (fst p)) else p.
  Definition step2 (p z : N * bool) : N * bool :=
    if off_nadir z && negb (snd p) then masked_iadd p (tau (fst p) * delta (fst z)) else p.

  (** atm_correction_ir.py:124-125 on a plain array *)
  Definition plain1 (t : N) (z : N * bool) : N := if at_nadir z then t + tau0 t else t.

  (** element-wise operations of atm_correction_ir.py:117-128 *)
  Definition zipw {A B C} (f : A -> B -> C) (a : list A) (b : list B) : list C :=
    map (fun p => f (fst p) (snd p)) (combine a b).

  (** atm_correction_ir.py:82-129.  Returns the contents of the array [data]
      after the call (it is changed in place) and the returned array.  Equal
      shapes are assumed (docstring); dask angles mixed with masked data lose the
      mask in this model. *)
  Definition viewzen_corr (data view_zen : arr) : arr * res arr :=
    if is_dask data || is_dask view_zen
    then (data, Ok (DaskA (zipw dask_pixel (values data) (values view_zen))))
    else
      let z := zen_pixels view_zen in
      match data with
      | MaskedA l =>
          let l := zipw step1 l z in
          let l := zipw step2 l z in
          (MaskedA l, Ok (MaskedA l))
      | PlainA l => (PlainA (zipw plain1 l z), Err AttributeError)   (* data.mask *)
      | DaskA l => (data, Err RuntimeError)                          (* not reached *)
      end.

  (** The arrays in memory; [data.copy()] allocates a new one. *)
  (** data.copy(), atm_correction_ir.py:79 *)
  Definition heap := list arr.

  (** atm_correction_ir.py:74-79.  [data] and [sat_zenith] are addresses. *)
  Definition get_correction (h : heap) (sat_zenith data : nat) : heap * res arr :=
    match nth_error h data, nth_error h sat_zenith with
    | Some d, Some z => let (d', r) := viewzen_corr d z in ((h ++ [d'])%list, r)
    | _, _ => (h, Err IndexError)          (* no such object *)
    end.

  (** atm_correction_ir.py:58-72: the keyword arguments; only the truth value
      of [atmosphere] matters. *)
  Definition AtmosphericalCorrection (kwargs : dict bool) : res unit :=
    let atm_type := match dget "atmosphere"%string kwargs with Some b => b | None => false end in
    if atm_type then Err AttributeError else Ok tt.
End AtmIR.
Arguments arr : clear implicits.
Arguments heap : clear implicits.
