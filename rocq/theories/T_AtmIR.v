(** Property theorems C66, C67 (atm_correction_ir.py). *)
From Coq Require Import Reals Lra ZArith String List Bool.
From Verif Require Import Base NumSig XR M_AtmIR S_AtmIR P_AtmIR.
Import ListNotations.
Local Open Scope R_scope.

(** C66, masked arrays: [l] the data, [zen] the angles (masked or plain).  An
    unmasked pixel with unmasked angle gets the value [corrected] for its own
    temperature and angle; all others keep theirs. *)
Theorem C66_masked_array_pixelwise : forall h d z l zen,
  nth_error h d = Some (MaskedA l) -> nth_error h z = Some zen -> is_dask (N := XRN) zen = false ->
  List.length (zen_pixels zen) = List.length l ->
  exists out, get_correction (N := XRN) h z d = ((h ++ [MaskedA out])%list, Ok (MaskedA out)) /\
    List.length out = List.length l /\
    forall i t m za zm k, nth_error l i = Some (Fin t, m) -> nth_error (zen_pixels zen) i = Some (za, zm) -> in_zone za k ->
      nth_error out i = Some (if m || zm then (Fin t, m) else (Fin (corrected t k), false))%bool.
Proof. exact masked_image. Qed.
Print Assumptions C66_masked_array_pixelwise.

(** C66, dask arrays: the same pixel values. *)
Theorem C66_dask_pixelwise : forall h d z (a zen : arr XRN),
  nth_error h d = Some a -> nth_error h z = Some zen -> (is_dask a || is_dask zen)%bool = true ->
  List.length (values zen) = List.length (values a) ->
  exists out, get_correction (N := XRN) h z d = ((h ++ [a])%list, Ok (DaskA out)) /\
    List.length out = List.length (values a) /\
    forall i t za k, nth_error (values a) i = Some (Fin t) -> nth_error (values zen) i = Some za -> in_zone za k ->
      nth_error out i = Some (Fin (corrected t k)).
Proof. exact dask_image. Qed.
Print Assumptions C66_dask_pixelwise.

(** Every angle, finite or not, is in one of the three zones. *)
Theorem C66_zones_cover : forall z, exists k, in_zone z k.
Proof. exact zone_exists. Qed.
Print Assumptions C66_zones_cover.

Theorem C66_never_lowers_off_nadir : forall t z z', 0 < z -> z <= z' -> z' < 90 ->
  t <= corrected t (Slant z) <= corrected t (Slant z').
Proof. exact never_lowers. Qed.
Print Assumptions C66_never_lowers_off_nadir.

Theorem C66_caller_arrays_untouched : forall h z d i (a : arr XRN), nth_error h i = Some a ->
  nth_error (fst (get_correction (N := XRN) h z d)) i = Some a.
Proof. exact caller_untouched. Qed.
Print Assumptions C66_caller_arrays_untouched.

(** 300 K at 35 degrees, at nadir, masked, and with a NaN angle. *)
Example C66_case : exists h out,
  get_correction (N := XRN)
    [MaskedA [(Fin 300, false); (Fin 300, false); (Fin 300, true); (Fin 280, false)];
     PlainA [Fin 35; Fin 0; Fin 35; NaN]] 1 0 = (h, Ok (MaskedA out)) /\
  nth_error out 0 = Some (Fin (300 + slant_inc 300 35), false) /\
  nth_error out 1 = Some (Fin (300 + nadir_inc 300), false) /\
  nth_error out 2 = Some (Fin 300, true) /\ nth_error out 3 = Some (Fin 280, false).
Proof.
  edestruct (C66_masked_array_pixelwise
    [MaskedA [(Fin 300, false); (Fin 300, false); (Fin 300, true); (Fin 280, false)];
     PlainA [Fin 35; Fin 0; Fin 35; NaN]] 0 1) as (out & E & _ & H); try reflexivity.
  assert (zone35 : in_zone (Fin 35) (Slant 35)) by (cbn; split; [reflexivity|lra]).
  eexists _, out. split; [exact E|]. split; [|split; [|split]].
  - exact (H 0%nat 300 false (Fin 35) false (Slant 35) eq_refl eq_refl zone35).
  - exact (H 1%nat 300 false (Fin 0) false Nadir eq_refl eq_refl eq_refl).
  - exact (H 2%nat 300 true (Fin 35) false (Slant 35) eq_refl eq_refl zone35).
  - exact (H 3%nat 280 false NaN false Outside eq_refl eq_refl (or_introl eq_refl)).
Qed.

(** Findings: plain numpy arrays are rejected; in masked arrays a non-finite
    temperature becomes masked (dask keeps NaN). *)
Theorem C66_plain_numpy_refuted : forall h z d l (zen : arr XRN),
  nth_error h d = Some (PlainA l) -> nth_error h z = Some zen ->
  is_dask zen = false -> snd (get_correction (N := XRN) h z d) = Err AttributeError.
Proof. exact plain_raises. Qed.
Print Assumptions C66_plain_numpy_refuted.

Example C66_plain_case : snd (get_correction (N := XRN) [PlainA [Fin 300]; PlainA [Fin 35]] 1 0) = Err AttributeError.
Proof. now apply (C66_plain_numpy_refuted _ _ _ [Fin 300] (PlainA [Fin 35])). Qed.

Theorem C66_nonfinite_becomes_masked : forall t z k, in_zone z k -> k <> Outside -> t = NaN \/ t = PInf ->
  exists h, get_correction (N := XRN) [MaskedA [(t, false)]; PlainA [z]] 1 0 = (h, Ok (MaskedA [(t, true)])).
Proof. exact nonfinite_masked. Qed.
Print Assumptions C66_nonfinite_becomes_masked.

(** C67 *)
Theorem C67_jump_at_nadir : forall T,
  (forall eps, 0 < eps -> exists d, 0 < d <= 90 /\ forall z, 0 < z < d -> T <= corrected T (Slant z) < T + eps) /\
  (210 < T -> T < corrected T Nadir) /\ (T < 210 -> corrected T Nadir < T).
Proof. exact jump. Qed.
Print Assumptions C67_jump_at_nadir.

(** [corrected] is what the call returns for one pixel. *)
Theorem C67_one_pixel : forall t z k, in_zone z k ->
  exists h, get_correction (N := XRN) [MaskedA [(Fin t, false)]; PlainA [z]] 1 0 = (h, Ok (MaskedA [(Fin (corrected t k), false)])).
Proof. exact one_pixel. Qed.
Print Assumptions C67_one_pixel.

Example C67_case : exists h t', t' < 200 /\
  get_correction (N := XRN) [MaskedA [(Fin 200, false)]; PlainA [Fin 0]] 1 0 = (h, Ok (MaskedA [(Fin t', false)])).
Proof.
  destruct (C67_one_pixel 200 (Fin 0) Nadir eq_refl) as [h E]. exists h, (corrected 200 Nadir). split; [|exact E].
  apply C67_jump_at_nadir. lra.
Qed.

Theorem C67_atmosphere_argument : forall kwargs,
  (In ("atmosphere"%string, true) kwargs -> NoDup (dkeys kwargs) -> AtmosphericalCorrection kwargs = Err AttributeError) /\
  (~ In ("atmosphere"%string, true) kwargs -> AtmosphericalCorrection kwargs = Ok tt).
Proof. exact atmosphere_argument. Qed.
Print Assumptions C67_atmosphere_argument.
