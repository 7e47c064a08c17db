(** Properties C74, C75: sorting and resampling as the machine computes them,
    in IEEE doubles. *)
From Coq Require Import ZArith Reals List String SpecFloat Sorting.Sorted.
From Flocq Require Import Core BinarySingleNaN.
From Verif Require Import Base NumSig XR B64 M_Utils M_Solar S_Utils S_B64 P_B64sort P_B64grid.
Import ListNotations.
Local Open Scope R_scope.

(** [lib] is the platform's mathematical library. *)

(** sort_data on doubles keeps exactly one point for every distinct wavelength,
    in increasing order, with a response that stood at that wavelength, and
    leaves sorted data alone: testing [diff > 0] on rounded differences loses
    no point, however close two wavelengths are. *)
Theorem C74_sort_doubles : forall lib X (Y : list b64) idxs, is_argsort (map to_R X) idxs -> Forall is_double X ->
  List.length Y = List.length X -> X <> [] ->
  exists X' Y', @sort_data (B64N lib) idxs X Y = Ok (X', Y') /\
    List.length Y' = List.length X' /\ Sorted Rlt (map to_R X') /\
    (forall v, In v (map to_R X') <-> In v (map to_R X)) /\
    (forall p, In p (combine X' Y') -> In p (combine X Y)) /\
    (Sorted Rlt (map to_R X) -> X' = X /\ Y' = Y).
Proof. exact sort_doubles. Qed.
Print Assumptions C74_sort_doubles.
Example C74_case : is_argsort (map to_R case_sort) [1; 3; 2; 0]%nat /\ Forall is_double case_sort.
Proof. exact case_sort_hyps. Qed.
Example C74_case_distinct : exists a b, map to_R case_sort = [b; 0; a; 0] /\ 0 < a < b.
Proof. exact case_sort_R. Qed.

(** The grid of numpy.linspace in doubles never leaves the band, although every
    point is rounded three times; so the mask in inband_solarflux and
    inband_solarirradiance drops no point and the two resampled arrays always
    have the same length. *)
Theorem C75_grid_stays_in_band : forall lib start stop dlambda g, is_double start -> is_double stop ->
  1 / 10 ^ 100 <= to_R stop - to_R start <= 10 ^ 100 -> @resample_grid (B64N lib) start stop dlambda = Ok g ->
  (Z.of_nat (List.length g) <= 2 ^ 50)%Z ->
  Forall (in_band start stop) g /\ Sorted Rle (map to_R g) /\
  (g <> [] -> exists x, hd_error g = Some x /\ to_R x = to_R start) /\
  ((2 <= List.length g)%nat -> last g start = stop).
Proof. exact grid_in_band. Qed.
Print Assumptions C75_grid_stays_in_band.

Theorem C75_band_result : forall lib spline (s : spectrum (B64N lib)) rsr scale det flux wvl resp start stop x respf irrf g,
  rsr_curve s rsr det scale = Ok (wvl, resp) -> hd_error wvl = Some start -> last wvl start = stop ->
  is_double start -> is_double stop -> 1 / 10 ^ 100 <= to_R stop - to_R start <= 10 ^ 100 ->
  resample_grid start stop (so_dlambda s) = Ok g -> (Z.of_nat (List.length g) <= 2 ^ 50)%Z ->
  coord s = Some x -> spline wvl resp = Ok respf -> spline x (so_irradiance s) = Ok irrf ->
  Forall (in_band start stop) g /\ Sorted Rle (map to_R g) /\
  exists v, snd (band_calculations spline s rsr flux scale det) = Ok v /\
            so_ipol (fst (band_calculations spline s rsr flux scale det)) = Some (g, map irrf g).
Proof. exact band_double. Qed.
Print Assumptions C75_band_result.
Example C75_case : forall lib, exists wvl resp start stop x respf irrf g,
  rsr_curve (case_grid_spectrum lib) (case_grid_rsr lib) "det-1" (nlit (B64N lib) 1 1) = Ok (wvl, resp) /\ hd_error wvl = Some start /\ last wvl start = stop /\
  is_double start /\ is_double stop /\ 1 / 10 ^ 100 <= to_R stop - to_R start <= 10 ^ 100 /\
  resample_grid start stop (so_dlambda (case_grid_spectrum lib)) = Ok g /\ List.length g = 5%nat /\
  coord (case_grid_spectrum lib) = Some x /\ first_value lib wvl resp = Ok respf /\ first_value lib x (so_irradiance (case_grid_spectrum lib)) = Ok irrf.
Proof. exact case_grid. Qed.
