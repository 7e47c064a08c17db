(** Specification vocabulary for the utility functions. *)
From Coq Require Import List Reals String Bool Sorting.Permutation Sorting.Sorted.
From Verif Require Import Base NumSig XR M_Utils.
Import ListNotations.
Local Open Scope nat_scope.

(** [i] and [j] are the positions of the first and last elements satisfying [P]. *)
Definition first_last {A} (P : A -> Prop) (l : list A) (i j : nat) : Prop :=
  i <= j /\
  (exists x, nth_error l i = Some x /\ P x) /\ (exists x, nth_error l j = Some x /\ P x) /\
  (forall k x, nth_error l k = Some x -> P x -> i <= k <= j).

(** What numpy promises about argsort: a permutation of the indices along which
    the values do not decrease.  Nothing about equal values. *)
Definition is_argsort (xs : list R) (idxs : list nat) : Prop :=
  Permutation idxs (seq 0 (List.length xs)) /\
  (forall i j a b x y, i < j -> nth_error idxs i = Some a -> nth_error idxs j = Some b ->
     nth_error xs a = Some x -> nth_error xs b = Some y -> (x <= y)%R).

(** Cumulated energy up to and including sample k, in percent of the total. *)
Definition energy_percent (rs : list R) : list R :=
  map (fun k => Rsum (firstn (S k) rs) / Rsum rs * 100)%R (seq 0 (List.length rs)).

(** Central wavelength of a band's first detector, if it is a number. *)
Definition first_cw (b : band XRN) : option R :=
  match dget "det-1"%string b with
  | Some d => match dget "central_wavelength"%string d with Some (VNum (Fin c)) => Some c | _ => None end
  | None => None
  end.

(** The band has no first detector, or that has no central wavelength. *)
Definition no_cw (b : band XRN) : Prop :=
  match dget "det-1"%string b with Some d => dget "central_wavelength"%string d = None | None => True end.

(** The band is closer than both eps and 2 um. *)
Definition near (wl eps : R) (kb : string * band XRN) : bool :=
  match first_cw (snd kb) with
  | Some c => Rltb (Rabs (c - wl)) eps && Rltb (Rabs (c - wl)) 2
  | None => false
  end.

(** A mean can be formed: equal lengths, increasing abscissae, non-negative
    response with positive integral. *)
Definition has_mean (ws rs : list R) : Prop :=
  List.length rs = List.length ws /\ Sorted Rle ws /\ Forall (fun r => 0 <= r)%R rs /\ (0 < Rtrapz rs ws)%R.
