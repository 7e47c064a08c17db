(** The wavelength behind the Rayleigh correction: property C73. *)
From Coq Require Import Reals Lra ZArith String List Bool Lia Sorting.Sorted.
From Verif Require Import Base NumSig XR M_Tables M_Utils M_Rsr M_RadTb M_Nir M_Rayleigh S_Names S_Effective P_Effective.
Import ListNotations.
Local Open Scope R_scope.

(** C73.  [load] is what RelativeSpectralResponse does for a platform and a
    sensor.  A band given by its name is corrected exactly as if the wavelength
    [rayleigh_wavelength] (its mean wavelength under the weight 1/w^4) had been
    given as a number. *)
Theorem C73_name_is_wavelength : forall oob dask load p s lut sun sat azi st name red ws rs,
  load p s = Ok st -> band_curve st name ws rs -> curve_ok ws rs ->
  @get_reflectance XRN oob dask load p s lut sun sat azi (BStr name) red =
  @get_reflectance XRN oob dask load p s lut sun sat azi (BNumber (Fin (rayleigh_wavelength ws rs))) red.
Proof. exact reflectance_by_name. Qed.
Print Assumptions C73_name_is_wavelength.

(** that wavelength lies in the band and never above the mean wavelength, which
    is what get_central_wave gives without a weight *)
Theorem C73_towards_blue : forall ws rs, curve_ok ws rs ->
  hd 0 ws <= rayleigh_wavelength ws rs <= mean_wavelength ws rs /\ mean_wavelength ws rs <= last ws 0 /\
  get_central_wave (map Fin ws) (map Fin rs) (WScalar (@n1 XRN)) = Ok (Fin (mean_wavelength ws rs)).
Proof. exact rayleigh_wavelength_range. Qed.
Print Assumptions C73_towards_blue.

(** normalising the responses does not change it *)
Theorem C73_normalisation : forall ws rs k, curve_ok ws rs -> 0 < k ->
  curve_ok ws (map (Rmult k) rs) /\ rayleigh_wavelength ws (map (Rmult k) rs) = rayleigh_wavelength ws rs.
Proof. exact rayleigh_wavelength_scale. Qed.
Print Assumptions C73_normalisation.

(** the wavelength is looked up in nanometres *)
Theorem C73_nanometres : forall load p s x, @effective_wavelength XRN load p s (BNumber (Fin x)) = Ok (Fin (1000 * x)).
Proof. exact effective_number. Qed.
Print Assumptions C73_nanometres.

(** a name without readable responses: OSErrors become KeyError *)
Theorem C73_unreadable : forall oob dask load p s lut sun sat azi b red e, load p s = Err e -> (forall x, b <> BNumber x) ->
  (In e [OSError; FileNotFoundError; HTTPError; NetworkError] ->
     @get_reflectance XRN oob dask load p s lut sun sat azi b red = Err KeyError) /\
  (~ In e [OSError; FileNotFoundError; HTTPError; NetworkError] ->
     @get_reflectance XRN oob dask load p s lut sun sat azi b red = Err e).
Proof. exact reflectance_unreadable'. Qed.
Print Assumptions C73_unreadable.

Theorem C73_unknown_name : forall oob dask load p s lut sun sat azi st name red,
  load p s = Ok st -> (forall l, rs_instrument st <> Some (IList l)) ->
  dget name (rs_rsr st) = None -> (forall k, std_name (rs_instrument st) name k -> dget k (rs_rsr st) = None) ->
  @get_reflectance XRN oob dask load p s lut sun sat azi (BStr name) red = Err KeyError.
Proof. exact reflectance_unknown. Qed.
Print Assumptions C73_unknown_name.

(** a flat band from 1 to 2 um: 18/17 um, while its mean is 1.5 um *)
Example C73_case : exists st, band_curve st "ch3a" [1; 2] [1; 1] /\ curve_ok [1; 2] [1; 1] /\
  rayleigh_wavelength [1; 2] [1; 1] = 18 / 17 /\ mean_wavelength [1; 2] [1; 1] = 3 / 2.
Proof.
  exists (rsr_init (Some (IOne "avhrr-3")) [("ch3a"%string, [("det-1"%string,
    [("wavelength"%string, VArr (map Fin [1; 2])); ("response"%string, VArr (map Fin [1; 1]))])])]).
  split; [|split; [|split]].
  - split; [discriminate|]. eexists _, _. split; [left; reflexivity|]. repeat split.
  - unfold curve_ok. split; [reflexivity|]. split; [cbn; lia|]. split; [repeat constructor; lra|].
    split; [repeat constructor; lra|]. split; [constructor; [lra|constructor; [lra|constructor]]|left; lra].
  - unfold rayleigh_wavelength, curve_integral. field.
  - unfold mean_wavelength, curve_integral. field.
Qed.
