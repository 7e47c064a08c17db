(** C107: masked and lazy temperatures in the 3.x um reflectance. *)
From Coq Require Import Reals Lra ZArith String List Bool Lia.
From Verif Require Import Base NumSig XR M_Tables M_Utils M_Rsr M_RadTb M_Solar M_World M_Nir S_Nir M_NirKinds S_NirKinds P_NirKinds Samples3.
Import ListNotations.
Local Open Scope R_scope.

(** The kind of the result: masked if one of the temperatures is a masked array,
    else lazy if one of them is (and dask is there). *)
Theorem C107_kind : forall (N : Num) dask (E : nir_env N) row c sun nir therm lut r,
  reflectance_of_kinds dask E row c sun nir therm lut = Ok r ->
  (is_masked_result r <-> numpy_masked nir \/ numpy_masked therm) /\
  (is_lazy_result r <-> dask = true /\ ~ (numpy_masked nir \/ numpy_masked therm) /\ (k_lazy nir = true \/ k_lazy therm = true)).
Proof. exact @kinds_of. Qed.
Print Assumptions C107_kind.

(** Wherever neither temperature is masked the value is the one of the call with
    plain arrays; such a call never fails if the plain one does not. *)
Theorem C107_values : forall (N : Num) dask (E : nir_env N) row c s sun nir therm lut st st' a,
  reflectance_from_tbs E c sun (k_arg nir) (k_arg therm) None (option_map Some lut) st = (st', Ok a) ->
  one_image s sun (k_arg nir) (k_arg therm) None (option_map Some lut) -> mask_fits nir -> mask_fits therm ->
  exists r, reflectance_of_kinds dask E row c sun nir therm lut = Ok r /\
    forall k, (k < size s)%nat -> ~ hidden k nir -> ~ hidden k therm -> pix k (result_values r) = pix k a.
Proof. exact kinds_values. Qed.
Print Assumptions C107_values.

(** Lazy or plain arrays without masks: the call gives exactly the values of the
    plain one and fails exactly as it does. *)
Theorem C107_plain : forall (N : Num) dask (E : nir_env N) row c sun nir therm lut st, k_mask nir = None -> k_mask therm = None ->
  snd (reflectance_from_tbs E c sun (k_arg nir) (k_arg therm) None (option_map Some lut) st) =
    (r <- reflectance_of_kinds dask E row c sun nir therm lut ;; Ok (result_values r)).
Proof. exact kinds_plain. Qed.
Print Assumptions C107_plain.

(** The mask of the result marks exactly the values that are not finite. *)
Theorem C107_result_mask : forall (N : Num) dask (E : nir_env N) row c sun nir therm lut r a m,
  reflectance_of_kinds dask E row c sun nir therm lut = Ok r -> r = RMasked a m ->
  List.length m = List.length (a_data a) /\ forall k x, nth_error (a_data a) k = Some x -> nth_error m k = Some (nisnan N x || nisinf N x)%bool.
Proof. exact @masked_flags. Qed.
Print Assumptions C107_result_mask.

(** The mask of the temperatures is lost: by day every pixel, masked or not, gets
    a number that is not masked, unless the value under the mask is NaN. *)
Theorem C107_mask_lost : forall dask (E : nir_env XRN) row c s sun nir therm lut st st' a I flux thr lim,
  reflectance_from_tbs E c sun (k_arg nir) (k_arg therm) None (option_map Some lut) st = (st', Ok a) ->
  one_image s sun (k_arg nir) (k_arg therm) None (option_map Some lut) -> floats (k_arg nir) (k_arg therm) -> mask_fits nir -> mask_fits therm ->
  settings c I flux thr lim ->
  exists r, reflectance_of_kinds dask E row c sun nir therm lut = Ok r /\
    forall k z tn, (k < size s)%nat -> pix k (get_as_array sun) = Some (Fin z) -> pix k (get_as_array (k_arg nir)) = Some tn -> tn <> NaN ->
      ~ sun_out lim z ->
      (forall v, In v (lut_radiance (match lut with None => cl_lut c | Some l => l end)) -> exists x, v = Fin x /\ 5 / 1000 <= solar_term flux thr z - x * I) ->
      (exists x, pix k (result_values r) = Some (Fin x)) /\ ~ masked_out k r.
Proof. exact mask_lost. Qed.
Print Assumptions C107_mask_lost.
Theorem C107_mask_kept_refuted : forall dask row, exists (E : nir_env XRN) c sun nir therm lut r k,
  reflectance_of_kinds dask E row c sun nir therm lut = Ok r /\ is_masked_result r /\ numpy_masked nir /\ mask_fits nir /\
  hidden k nir /\ hidden k therm /\ (k < List.length (a_data (result_values r)))%nat /\ ~ masked_out k r.
Proof. exact mask_kept_fails. Qed.
Print Assumptions C107_mask_kept_refuted.

(** four pixels, the first masked in both channels, the second in the 3.x um channel with NaN under the mask *)
Example C107_case : forall dask row, exists r x,
  reflectance_of_kinds dask nir_E row (nir_calc (2 * PI) (Some 88) nir_lut) nir_sun (masked_nir nir_tb [true; true; false; false]) (masked_nir nir_therm [true; false; false; false]) (Some nir_lut) = Ok r /\
  hidden 0 (masked_nir nir_tb [true; true; false; false]) /\ pix 0 (result_values r) = Some (Fin x) /\ ~ masked_out 0 r /\
  ~ hidden 2 (masked_nir nir_tb [true; true; false; false]) /\ ~ hidden 2 (masked_nir nir_therm [true; false; false; false]) /\ masked_out 2 r.
Proof. exact masked_case. Qed.
Example C107_lazy_case : forall row, exists r,
  reflectance_of_kinds true nir_E row (nir_calc (2 * PI) (Some 88) nir_lut) nir_sun {| k_arg := nir_tb; k_lazy := true; k_mask := None |} (plain nir_therm) (Some nir_lut) = Ok (RLazy r) /\
  reflectance_of_kinds false nir_E row (nir_calc (2 * PI) (Some 88) nir_lut) nir_sun {| k_arg := nir_tb; k_lazy := true; k_mask := None |} (plain nir_therm) (Some nir_lut) = Ok (RArray r).
Proof. exact lazy_case. Qed.
