(** Property theorems C50-C52, C56-C61, C70 (utils.py). *)
From Coq Require Import Reals Lra ZArith String Ascii List Bool Lia Sorting.Sorted Sorting.Permutation.
From Verif Require Import Base NumSig XR P_Trapz M_Tables M_Utils S_Utils S_Names
     S_Utf8 P_Utf8 P_Utils P_Sort P_Width P_Central P_Names P_Utils2 P_Utils3.
Import ListNotations.
Local Open Scope string_scope.
Open Scope R_scope.

(** ** C50: central wavelength *)
Theorem C50_central_within_band : forall ws rs, has_mean ws rs ->
  exists c, get_central_wave (map Fin ws) (map Fin rs) (WScalar n1) = Ok (Fin c) /\ hd 0 ws <= c <= last ws 0.
Proof. exact central_within. Qed.
Print Assumptions C50_central_within_band.

Example C50_case : has_mean [1; 2; 4] [1/10; 1; 2/10] /\
  get_central_wave (map Fin [1; 2; 4]) (map Fin [1/10; 1; 2/10]) (WScalar n1) = Ok (Fin (385/175)).
Proof. exact central_case. Qed.

Theorem C50_scaling_the_response : forall ws rs k, List.length rs = List.length ws -> k <> 0 -> Rtrapz rs ws <> 0 ->
  get_central_wave (map Fin ws) (map Fin (map (Rmult k) rs)) (WScalar n1) =
  get_central_wave (map Fin ws) (map Fin rs) (WScalar n1).
Proof. exact central_scale. Qed.
Print Assumptions C50_scaling_the_response.

Theorem C50_reversing_the_samples : forall ws rs, List.length rs = List.length ws -> Rtrapz rs ws <> 0 ->
  get_central_wave (map Fin (rev ws)) (map Fin (rev rs)) (WScalar n1) =
  get_central_wave (map Fin ws) (map Fin rs) (WScalar n1).
Proof. exact central_reverse. Qed.
Print Assumptions C50_reversing_the_samples.

Theorem C50_axis_change : forall ws rs a b c, List.length rs = List.length ws -> a <> 0 -> Rtrapz rs ws <> 0 ->
  get_central_wave (map Fin ws) (map Fin rs) (WScalar n1) = Ok (Fin c) ->
  get_central_wave (map Fin (map (fun w => a * w + b) ws)) (map Fin rs) (WScalar n1) = Ok (Fin (a * c + b)).
Proof. exact central_affine. Qed.
Print Assumptions C50_axis_change.

Theorem C50_symmetric_response : forall ws rs m, List.length rs = List.length ws -> Rtrapz rs ws <> 0 ->
  rev rs = rs -> rev ws = map (fun w => 2 * m - w) ws ->
  get_central_wave (map Fin ws) (map Fin rs) (WScalar n1) = Ok (Fin m).
Proof. exact central_symmetric. Qed.
Print Assumptions C50_symmetric_response.

Example C50_symmetric_case :
  get_central_wave (map Fin [1; 2; 4; 5]) (map Fin [1/10; 1; 1; 1/10]) (WScalar n1) = Ok (Fin 3).
Proof. exact symmetric_case. Qed.

(** non-negative weights, and the weights rayleigh.py uses *)
Theorem C50_weighted_within_band : forall ws rs vs,
  List.length rs = List.length ws -> List.length vs = List.length ws -> Sorted Rle ws ->
  Forall (fun r => 0 <= r) rs -> Forall (fun r => 0 <= r) vs -> 0 < Rtrapz (Rvmul rs vs) ws ->
  exists c, get_central_wave (map Fin ws) (map Fin rs) (WArray (map Fin vs)) = Ok (Fin c) /\
            hd 0 ws <= c <= last ws 0.
Proof. exact central_weighted_bounds. Qed.
Print Assumptions C50_weighted_within_band.

Theorem C50_rayleigh_weight_within_band : forall ws rs,
  List.length rs = List.length ws -> (2 <= List.length ws)%nat -> Sorted Rlt ws ->
  Forall (fun w => 0 < w) ws -> Forall (fun r => 0 <= r) rs -> Exists (fun r => 0 < r) rs ->
  exists c, get_central_wave (map Fin ws) (map Fin rs)
              (WArray (map (fun w : XRN => (nlit XRN 1 1 / npow w 4)%num) (map Fin ws))) = Ok (Fin c) /\
            hd 0 ws <= c <= last ws 0.
Proof. exact central_rayleigh. Qed.
Print Assumptions C50_rayleigh_weight_within_band.

Example C50_rayleigh_case : exists c, get_central_wave (map Fin [1; 2; 4]) (map Fin [0; 1; 2/10])
              (WArray (map (fun w : XRN => (nlit XRN 1 1 / npow w 4)%num) (map Fin [1; 2; 4]))) = Ok (Fin c) /\
            1 <= c <= 4.
Proof. exact rayleigh_case. Qed.

(** ** C51: band name from wavelength *)
Theorem C51_candidates : forall sensor wl eps multiple (rsr : rsrdata XRN), NoDup (dkeys rsr) ->
  Forall (fun kb => first_cw (snd kb) <> None) rsr ->
  get_bandname_from_wavelength sensor (Fin wl) rsr (Fin eps) multiple =
  match map (fun kb => translate_band sensor (fst kb)) (filter (near wl eps) rsr) with
  | [] => Ok BNone
  | [b] => Ok (BName b)
  | l => if multiple then Ok (BNames l) else Err AttributeError
  end.
Proof. exact bandname_spec. Qed.
Print Assumptions C51_candidates.

Example C51_case :
  get_bandname_from_wavelength "unknown" (Fin (37/10)) three_bands (Fin (1/10)) false = Ok (BName "ch3") /\
  get_bandname_from_wavelength "unknown" (Fin (63/100)) three_bands (Fin (1/10)) false = Err AttributeError /\
  get_bandname_from_wavelength "unknown" (Fin (63/100)) three_bands (Fin (1/10)) true = Ok (BNames ["ch1"; "ch2"]) /\
  get_bandname_from_wavelength "unknown" (Fin 2) three_bands (Fin (1/10)) false = Ok BNone.
Proof. exact bandname_cases. Qed.

Theorem C51_missing_first_detector : forall sensor wl eps multiple (rsr : rsrdata XRN), NoDup (dkeys rsr) ->
  Forall (fun kb => first_cw (snd kb) <> None \/ no_cw (snd kb)) rsr ->
  Exists (fun kb => no_cw (snd kb)) rsr ->
  get_bandname_from_wavelength sensor (Fin wl) rsr (Fin eps) multiple = Err KeyError.
Proof. exact bandname_missing. Qed.
Print Assumptions C51_missing_first_detector.

Example C51_missing_case : get_bandname_from_wavelength "x" (Fin 2)
  [("1", [("det-1", det3 2)]); ("2", [("det-7", det3 2)])] (Fin 1) true = Err KeyError.
Proof.
  apply C51_missing_first_detector.
  - repeat constructor; cbn; intuition discriminate.
  - constructor; [left; discriminate|constructor; [right; exact I|constructor]].
  - apply Exists_cons_tl. apply Exists_cons_hd. exact I.
Qed.

(** Finding: the name returned need not be a key of the response data. *)
Theorem C51_name_is_a_band_refuted : exists sensor wl (rsr : rsrdata XRN) eps b,
  NoDup (dkeys rsr) /\
  get_bandname_from_wavelength sensor (Fin wl) rsr (Fin eps) false = Ok (BName b) /\
  dget b rsr = None.
Proof. exact bandname_not_a_key. Qed.
Print Assumptions C51_name_is_a_band_refuted.

(** ** C52: sorting and de-duplicating.  [idxs] is any permutation numpy's
    argsort may return. *)
Theorem C52_sort_data : forall xs ys idxs, is_argsort xs idxs -> List.length ys = List.length xs -> xs <> [] ->
  exists xs' ys', sort_data idxs (map Fin xs) (map Fin ys) = Ok (map Fin xs', map Fin ys') /\
    List.length ys' = List.length xs' /\ Sorted Rlt xs' /\ (forall v, In v xs' <-> In v xs) /\
    (forall p, In p (combine xs' ys') -> In p (combine xs ys)) /\
    (NoDup xs -> Permutation (combine xs' ys') (combine xs ys)) /\
    (Sorted Rlt xs -> xs' = xs /\ ys' = ys).
Proof. exact sort_data_spec. Qed.
Print Assumptions C52_sort_data.

Example C52_case : forall idxs, idxs = [2; 0; 1; 3]%nat \/ idxs = [2; 1; 0; 3]%nat -> is_argsort [5; 5; 1; 7] idxs.
Proof. exact argsort_case. Qed.

Theorem C52_empty : forall idxs ys, is_argsort [] idxs ->
  @sort_data XRN idxs [] (map Fin ys) = Err IndexError.
Proof. exact sort_data_empty. Qed.
Print Assumptions C52_empty.

Example C52_empty_case : is_argsort [] [].
Proof. split; [constructor|]. intros i j a b x y _ H. destruct i; discriminate. Qed.

(** ** C56: full width at half maximum *)
Theorem C56_fwhm : forall rs ws, List.length ws = List.length rs ->
  (forall i j wi wj, first_last (fun r => 1 / 2 <= r) rs i j -> i <> j ->
     nth_error ws i = Some wi -> nth_error ws j = Some wj ->
     get_fullwidth_halfmax (map Fin rs) (map Fin ws) = Ok (Fin (wj - wi))) /\
  ((forall i j a b, nth_error rs i = Some a -> nth_error rs j = Some b -> 1 / 2 <= a -> 1 / 2 <= b -> i = j) ->
   get_fullwidth_halfmax (map Fin rs) (map Fin ws) = Err ValueError).
Proof. exact fwhm_spec. Qed.
Print Assumptions C56_fwhm.

Example C56_case : get_fullwidth_halfmax (map Fin [4/10; 6/10; 1; 6/10; 2/10]) (map Fin [1; 2; 3; 4; 5]) = Ok (Fin (4 - 2)).
Proof. exact fwhm_case. Qed.

(** Finding: not half of the maximum unless the maximum is 1; scaling the
    response changes the width. *)
Theorem C56_scale_invariance_refuted : exists rs ws k v v', Sorted Rlt ws /\ 0 < k /\
  get_fullwidth_halfmax (map Fin rs) (map Fin ws) = Ok (Fin v) /\
  get_fullwidth_halfmax (map Fin (map (Rmult k) rs)) (map Fin ws) = Ok (Fin v') /\ v <> v'.
Proof. exact fwhm_scaling. Qed.
Print Assumptions C56_scale_invariance_refuted.

(** ** C57: wave range *)
Theorem C57_wave_range : forall (ch : detector XRN) ws rs t, List.length rs = List.length ws ->
  dget "wavelength" ch = Some (VArr (map Fin ws)) -> dget "response" ch = Some (VArr (map Fin rs)) ->
  (forall i j wi wj, first_last (fun r => t < r) rs i j ->
     nth_error ws i = Some wi -> nth_error ws j = Some wj ->
     get_wave_range ch (Fin t) = Ok (Fin wi, xdiv (Fin (Rtrapz (Rvmul rs ws) ws)) (Fin (Rtrapz rs ws)), Fin wj)) /\
  (Forall (fun r => r <= t) rs -> get_wave_range ch (Fin t) = Err IndexError).
Proof. exact wave_range_spec. Qed.
Print Assumptions C57_wave_range.

Theorem C57_threshold_monotone : forall (ch : detector XRN) ws rs t t' lo c hi lo' c' hi',
  List.length rs = List.length ws -> Sorted Rle ws ->
  dget "wavelength" ch = Some (VArr (map Fin ws)) -> dget "response" ch = Some (VArr (map Fin rs)) ->
  t <= t' -> get_wave_range ch (Fin t) = Ok (Fin lo, c, Fin hi) ->
  get_wave_range ch (Fin t') = Ok (Fin lo', c', Fin hi') ->
  (lo <= lo' /\ lo' <= hi' <= hi) /\ c = c'.
Proof. exact wave_range_mono. Qed.
Print Assumptions C57_threshold_monotone.

Example C57_case : get_wave_range (det3 2) (Fin (15/100)) = Ok (Fin 2, Fin (385/175), Fin 4).
Proof. exact wave_range_case. Qed.

(** ** C58: integrated energy *)
Theorem C58_energy_bounds : forall rs ws p, List.length ws = List.length rs -> rs <> [] ->
  Forall (fun r => 0 <= r) rs -> 0 < Rsum rs ->
  (forall i i' j' j wi wj,
     first_last (fun c => p <= c) (energy_percent rs) i i' ->
     first_last (fun c => c <= 100 - p) (energy_percent rs) j' j ->
     nth_error ws i = Some wi -> nth_error ws j = Some wj ->
     get_bounds_integrated_energy (map Fin rs) (map Fin ws) (Fin p) = Ok (Fin wi, Fin wj)) /\
  (Forall (fun c => c < p) (energy_percent rs) \/ Forall (fun c => 100 - p < c) (energy_percent rs) ->
   get_bounds_integrated_energy (map Fin rs) (map Fin ws) (Fin p) = Err IndexError).
Proof. exact energy_spec'. Qed.
Print Assumptions C58_energy_bounds.

Example C58_case :
  get_bounds_integrated_energy (map Fin [10; 80; 10]) (map Fin [10; 11; 12]) (Fin 10) = Ok (Fin 10, Fin 11).
Proof. exact energy_case. Qed.

(** defined whenever the first sample's share leaves room *)
Theorem C58_defined : forall rs ws p r0 rest, rs = r0 :: rest -> List.length ws = List.length rs ->
  Forall (fun r => 0 <= r) rs -> 0 < Rsum rs -> p <= 100 -> r0 / Rsum rs * 100 <= 100 - p ->
  exists lo hi, get_bounds_integrated_energy (map Fin rs) (map Fin ws) (Fin p) = Ok (Fin lo, Fin hi).
Proof. exact energy_ok. Qed.
Print Assumptions C58_defined.

Theorem C58_scale_invariant : forall rs ws p k, List.length ws = List.length rs -> rs <> [] ->
  Forall (fun r => 0 <= r) rs -> 0 < Rsum rs -> 0 < k ->
  get_bounds_integrated_energy (map Fin (map (Rmult k) rs)) (map Fin ws) (Fin p) =
  get_bounds_integrated_energy (map Fin rs) (map Fin ws) (Fin p).
Proof. exact energy_scale. Qed.
Print Assumptions C58_scale_invariant.

Theorem C58_percentage_monotone : forall rs ws p p' lo hi lo' hi', List.length ws = List.length rs -> rs <> [] ->
  Forall (fun r => 0 <= r) rs -> 0 < Rsum rs -> Sorted Rle ws -> p <= p' ->
  get_bounds_integrated_energy (map Fin rs) (map Fin ws) (Fin p) = Ok (Fin lo, Fin hi) ->
  get_bounds_integrated_energy (map Fin rs) (map Fin ws) (Fin p') = Ok (Fin lo', Fin hi') ->
  lo <= lo' /\ hi' <= hi.
Proof. exact energy_mono. Qed.
Print Assumptions C58_percentage_monotone.

(** Finding: the "interval" may be inverted. *)
Theorem C58_lower_below_upper_refuted : exists rs ws p lo hi, Sorted Rlt ws /\ Forall (fun r => 0 <= r) rs /\ 0 < p <= 50 /\
  get_bounds_integrated_energy (map Fin rs) (map Fin ws) (Fin p) = Ok (Fin lo, Fin hi) /\ hi < lo.
Proof. exact energy_inverted. Qed.
Print Assumptions C58_lower_below_upper_refuted.

(** ** C59: text conversion *)
Theorem C59_convert2str : forall v,
  (forall w, convert2str v = Ok w <-> exists s, w = TStr s /\ holds_text v s) /\
  (convert2str v = Err UnicodeDecodeError <-> bad_bytes v) /\
  (convert2str v = Err AttributeError <-> boxed_nontext v) /\
  (forall e, convert2str v = Err e -> e = UnicodeDecodeError \/ e = AttributeError \/ e = ValueError).
Proof. exact convert2str_spec. Qed.
Print Assumptions C59_convert2str.

Theorem C59_idempotent : forall v w, convert2str v = Ok w -> convert2str w = Ok w.
Proof. exact convert2str_idem. Qed.
Print Assumptions C59_idempotent.

(** bytes: they are decoded if they are the UTF-8 form of some text *)
Theorem C59_utf8 : forall s,
  (utf8_text s <-> convert2str (TBytes s) = Ok (TStr s)) /\
  (~ utf8_text s <-> convert2str (TBytes s) = Err UnicodeDecodeError).
Proof. exact convert2str_bytes. Qed.
Print Assumptions C59_utf8.

(** a Greek letter and a musical sign; an overlong form and a surrogate *)
Example C59_utf8_case : utf8_text (of_bytes [109; 0xCE; 0xBC; 0xF0; 0x9D; 0x84; 0x9E]%N) /\
  convert2str (TBytes (of_bytes [0xC0; 0x80]%N)) = Err UnicodeDecodeError /\
  convert2str (TBytes (of_bytes [0xED; 0xA0; 0x80]%N)) = Err UnicodeDecodeError.
Proof.
  split; [|split; vm_compute; reflexivity]. exists [109; 0x3BC; 0x1D11E]%N. split; [|vm_compute; reflexivity].
  repeat (apply Forall_cons; [unfold scalar_value; lia|]). apply Forall_nil.
Qed.

Example C59_case : convert2str (TObjArray [TBytes "modis"]) = Ok (TStr "modis") /\
  convert2str (TStrArray ["a"; "b"]) = Err ValueError /\ convert2str TOther = Err ValueError.
Proof. repeat split. Qed.

(** Finding: "ValueError for anything else" does not hold. *)
Theorem C59_only_value_error_refuted : exists v e, convert2str v = Err e /\ e <> ValueError.
Proof. exact convert2str_other_error. Qed.
Print Assumptions C59_only_value_error_refuted.

(** ** C60: instrument name adjustment *)
Theorem C60_adjusted_name : forall p i, exists r, check_and_adjust_instrument_name p i = Ok r /\
  lower_case r /\ without "-"%char r /\ without "/"%char r /\
  (dget p INSTRUMENTS = None -> r = normal_form i) /\
  (forall x, dget p INSTRUMENTS = Some (IOne x) -> r = normal_form x) /\
  (dget p INSTRUMENTS <> None -> exists x, carries p x /\ r = normal_form x).
Proof. exact adjust_spec. Qed.
Print Assumptions C60_adjusted_name.

(** platforms with several instruments: the given name if the platform carries
    it, otherwise the first of them *)
Theorem C60_several_instruments : forall p l i, dget p INSTRUMENTS = Some (IList l) ->
  (In (lower i) l -> check_and_adjust_instrument_name p i = Ok (normal_form i)) /\
  (~ In (lower i) l -> check_and_adjust_instrument_name p i = Ok (normal_form (hd "" l))).
Proof. exact adjust_multi. Qed.
Print Assumptions C60_several_instruments.

Theorem C60_single_instrument_idempotent : forall p x i j, dget p INSTRUMENTS = Some (IOne x) ->
  check_and_adjust_instrument_name p i = check_and_adjust_instrument_name p j /\
  exists r, check_and_adjust_instrument_name p i = Ok r /\ check_and_adjust_instrument_name p r = Ok r.
Proof. exact adjust_single. Qed.
Print Assumptions C60_single_instrument_idempotent.

Example C60_case : check_and_adjust_instrument_name "NOAA-19" "AVHRR/3" = Ok "avhrr3" /\
  check_and_adjust_instrument_name "NOAA-19" "modis" = Ok "avhrr3" /\
  check_and_adjust_instrument_name "unknown" "My/In-Str" = Ok "myinstr".
Proof. repeat split; vm_compute; reflexivity. Qed.

(** Finding *)
Theorem C60_idempotent_refuted : exists p i r r', check_and_adjust_instrument_name p i = Ok r /\
  check_and_adjust_instrument_name p r = Ok r' /\ r <> r'.
Proof. exact adjust_not_idem. Qed.
Print Assumptions C60_idempotent_refuted.

(** ** C61: instrument identity *)
Theorem C61_identity : forall a b,
  are_instruments_identical (NmStr a) (NmStr b) = Ok true \/ are_instruments_identical (NmStr a) (NmStr b) = Ok false.
Proof. exact identical_total. Qed.
Print Assumptions C61_identity.

Theorem C61_identical_iff : forall a b,
  are_instruments_identical (NmStr a) (NmStr b) = Ok true <->
  a = b \/ In (b, a) [("avhrr-1", "avhrr/1"); ("avhrr-2", "avhrr/2"); ("avhrr-3", "avhrr/3")].
Proof. exact identical_list. Qed.
Print Assumptions C61_identical_iff.

Theorem C61_non_strings : forall x y, x = NmOther \/ y = NmOther -> are_instruments_identical x y = Err ValueError.
Proof. exact identical_other. Qed.
Print Assumptions C61_non_strings.

Example C61_case : are_instruments_identical (NmStr "avhrr/2") (NmStr "avhrr-2") = Ok true /\
  are_instruments_identical (NmStr "viirs") (NmStr "viirs") = Ok true /\
  are_instruments_identical (NmStr "viirs") (NmStr "modis") = Ok false /\
  are_instruments_identical (NmStr "viirs") NmOther = Err ValueError.
Proof. repeat split. Qed.

(** Finding *)
Theorem C61_symmetric_refuted : exists a b, are_instruments_identical (NmStr a) (NmStr b) = Ok true /\
  are_instruments_identical (NmStr b) (NmStr a) = Ok false.
Proof. exact identical_asym. Qed.
Print Assumptions C61_symmetric_refuted.

(** ** C70: translation tables *)
Theorem C70_translation_idempotent : forall s b, translate_band s (translate_band s b) = translate_band s b.
Proof. exact translate_idem. Qed.
Print Assumptions C70_translation_idempotent.

Theorem C70_targets_fixed : forall i t k k', dget i BANDNAMES = Some t -> dget k t = Some k' ->
  dget k' t = None \/ dget k' t = Some k'.
Proof. exact tables_fixpoint. Qed.
Print Assumptions C70_targets_fixed.

Theorem C70_generic_numbers : forall n, (1 <= n <= 36)%nat -> forall s, dget s BANDNAMES = None ->
  translate_band s (str_nat n) = "ch" ++ str_nat n.
Proof. exact generic_numeric. Qed.
Print Assumptions C70_generic_numbers.

Theorem C70_generic_numbers_only : forall b k', all_digits b = true -> dget b BN_generic = Some k' ->
  exists n, (1 <= n <= 36)%nat /\ b = str_nat n /\ k' = "ch" ++ str_nat n.
Proof. exact generic_numeric_only. Qed.
Print Assumptions C70_generic_numbers_only.

Example C70_case : translate_band "seviri" "IR_108" = "IR10.8" /\ translate_band "nosuch" "36" = "ch36" /\
  translate_band "nosuch" "37" = "37".
Proof. repeat split; vm_compute; reflexivity. Qed.
