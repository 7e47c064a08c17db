(** Model of /repo/pyspectral/near_infrared_reflectance.py:182-245 for the kinds of
    arrays that lines 213-221 and 240-245 tell apart: dask arrays and masked arrays.

    Covered are calls without a CO2 channel and with a table (the default or the
    one given).  numpy.ma writes values of its own choosing under the mask when it
    multiplies and subtracts; what reaches [clip] there is any function [row]. *)
From Coq Require Import String List Bool ZArith.
From Verif Require Import Base NumSig M_Tables M_Utils M_Rsr M_RadTb M_Solar M_World M_Nir.
Import ListNotations.

Section Kinds.
  Context {N : Num}.
  Local Open Scope num_scope.

  (** what is handed over: the values, whether they are a dask array, and the mask
      of a masked array or of the masked blocks of a dask array *)
  (** the arguments of near_infrared_reflectance.py:182 *)
  Record karg := { k_arg : nirarg N; k_lazy : bool; k_mask : option (list bool) }.

  (** lines 215, 218: a dask array has [compute] and no [mask] *)
  Definition has_compute (a : karg) : bool := k_lazy a.
  Definition has_mask (a : karg) : bool :=
    negb (k_lazy a) && match k_mask a with Some _ => true | None => false end.

  (** radiance_tb_conversion.py:180-194 for masked temperatures: the mask is not
      used when the table is indexed, and the radiances have none *)
  Definition masked_row (row oob : N -> Z) (scale : N) (start last : Z) (m : bool) (tb : N) : Z :=
    if m then clipZ (row tb) 0 last else lut_index oob scale start last tb.
  Definition masked_lookup (row oob : N -> Z) (scale : N) (lut : tblut N) (mask : list bool) (tbs : list N) : res (list N) :=
    start <- lut_start lut scale ;;
    let last := (Z.of_nat (List.length (lut_radiance lut)) - 1)%Z in
    if (last >? 32767)%Z then Err OverflowError else
    mapM (fun mt : bool * N =>
            let i := masked_row row oob scale start last (fst mt) (snd mt) in
            if (i <? 0)%Z then Err IndexError else idx (lut_radiance lut) (Z.to_nat i)) (combine mask tbs).
  Definition kind_mask (a : karg) : list bool :=
    match k_mask a with Some m => m | None => map (fun _ => false) (a_data (get_as_array (k_arg a))) end.
  Definition kind_tb2rad (E : nir_env N) (row : N -> Z) (c : converter N) (a : karg) (t : tblut N) : res (arr N) :=
    let b := get_as_array (k_arg a) in
    let t' := {| lut_tb := lut_tb t; lut_radiance := map (cast E (a_dtype b)) (lut_radiance t) |} in
    r <- masked_lookup row (nx_oob16 E) (cv_tb_scale c) t' (kind_mask a) (a_data b) ;;
    Ok (item {| a_dtype := a_dtype b; a_shape := a_shape b; a_data := r |}).

  (** lines 240-245: a numpy array, a dask array or a masked array with its mask *)
  Inductive kresult := RArray (a : arr N) | RLazy (a : arr N) | RMasked (a : arr N) (mask : list bool).
  (** [np.ma.masked_invalid]: line 244 *)
  Definition masked_invalid (a : arr N) : kresult :=
    RMasked a (map (fun x => nisnan N x || nisinf N x) (a_data a)).

  (** lines 182-245; [dask]: whether the import in line 14 succeeds, so that all
      intermediate arrays are dask arrays.  [np.where] ignores masks (line 282).
      The attributes are changed as in M_Nir and not repeated here. *)
  Definition reflectance_of_kinds (dask : bool) (E : nir_env N) (row : N -> Z) (c : calculator N) (sun_zenith : nirarg N)
             (tb_near_ir tb_thermal : karg) (lut : option (tblut N)) : res kresult :=
    match rsr_data (cv_rsr (cl_conv c)) with
    | [] => Err NotImplementedError
    | _ =>
        let nir := get_as_array (k_arg tb_near_ir) in
        let therm := get_as_array (k_arg tb_thermal) in
        if negb (shape_eqb (a_shape therm) (a_shape nir)) then Err ValueError
        else
          let compute := negb (has_compute tb_near_ir || has_compute tb_thermal) in
          let is_masked := has_mask tb_near_ir || has_mask tb_thermal in
          let sunz := get_as_array sun_zenith in
          let tbl := match lut with None => cl_lut c | Some l => l end in
          rad11 <- kind_tb2rad E row (cl_conv c) tb_thermal tbl ;;
          rad3x <- kind_tb2rad E row (cl_conv c) tb_near_ir tbl ;;
          let solar := solar_radiance E c sunz (a_dtype nir) in
          let corr := astype E (a_dtype nir) (scalar (nlit N 1 1)) in
          r <- calculate_r3x E c rad11 rad3x corr solar therm sunz nir ;;
          Ok (if is_masked then masked_invalid r
              else if dask && negb compute then RLazy r else RArray r)
    end.
End Kinds.
Arguments karg : clear implicits.
Arguments kresult : clear implicits.
