(** Property theorems C43, C48, C49, C84 (rsr_reader.py, utils.py:153-214). *)
From Coq Require Import Reals Lra ZArith String List Bool Sorting.Sorted.
From Verif Require Import Base NumSig XR M_Tables M_Utils M_Rsr M_RadTb S_Rsr S_Names S_Convert P_Integral
     P_Names P_Convert P_Convert2 Samples P_Rsr3.
Import ListNotations.
Local Open Scope string_scope.
Open Scope R_scope.

(** ** C43: band lookup *)
Theorem C43_indexing : forall V i (d : dict V) key, (forall l, i <> Some (IList l)) ->
  (forall v, RSRDict_getitem i d key = Ok v <->
     dget key d = Some v \/
     (dget key d = None /\ exists k', std_name i key k' /\ dget k' d = Some v)) /\
  (forall e, RSRDict_getitem i d key = Err e -> e = KeyError).
Proof. exact getitem_spec. Qed.
Print Assumptions C43_indexing.

(** the standard name is unique *)
Theorem C43_standard_name_unique : forall i key a b, std_name i key a -> std_name i key b -> a = b.
Proof. exact std_name_fun. Qed.
Print Assumptions C43_standard_name_unique.

Theorem C43_get_with_default : forall V i (d : dict V) key def, (forall l, i <> Some (IList l)) ->
  RSRDict_get i d key def = match RSRDict_getitem i d key with Ok v => Ok v | Err _ => Ok def end.
Proof. exact get_spec. Qed.
Print Assumptions C43_get_with_default.

Example C43_case : RSRDict_getitem (Some (IOne "seviri")) [("IR10.8", 1%nat); ("ch1", 2%nat)] "IR_108" = Ok 1%nat /\
  RSRDict_getitem (Some (IOne "seviri")) [("IR10.8", 1%nat); ("ch1", 2%nat)] "1" = Ok 2%nat /\
  RSRDict_getitem (Some (IOne "seviri")) [("IR10.8", 1%nat); ("ch1", 2%nat)] "2" = Err KeyError /\
  RSRDict_get (Some (IOne "seviri")) [("IR10.8", 1%nat); ("ch1", 2%nat)] "2" 7%nat = Ok 7%nat.
Proof. repeat split; vm_compute; reflexivity. Qed.

(** Finding: a response object whose instrument is a list of names (the
    default for a platform with several instruments) raises TypeError on any
    name not stored, also from get(). *)
Theorem C43_get_never_raises_refuted : exists (d : dict nat) l key, In (IList l) (map snd INSTRUMENTS) /\
  RSRDict_get (Some (IList l)) d key 0%nat = Err TypeError.
Proof. exact get_raises. Qed.
Print Assumptions C43_get_never_raises_refuted.

Theorem C43_list_instrument : forall V l (d : dict V) key def, dget key d = None ->
  RSRDict_getitem (Some (IList l)) d key = Err TypeError /\
  RSRDict_get (Some (IList l)) d key def = Err TypeError.
Proof. exact getitem_list. Qed.
Print Assumptions C43_list_instrument.

(** [in] does not follow translations *)
Theorem C43_membership_follows_indexing_refuted : exists i (d : dict nat) key v,
  RSRDict_getitem i d key = Ok v /\ RSRDict_contains d key = false.
Proof. exact contains_no_alias. Qed.
Print Assumptions C43_membership_follows_indexing_refuted.

(** ** C48: response data in wavenumber space *)
Theorem C48_conversion : forall d : rsrdata XRN, typed_data d ->
  exists d', convert2wavenumber d = Ok (d', ("cm-1", Fin 100)) /\ dkeys d' = dkeys d /\
    (forall b bd, dget b d = Some bd -> exists bd', dget b d' = Some bd' /\ dkeys bd' = dkeys bd) /\
    (forall b k dd, det_at d b k = Some dd -> exists dd', det_at d' b k = Some dd' /\ in_wavenumbers dd dd').
Proof. exact convert_data. Qed.
Print Assumptions C48_conversion.

Theorem C48_order : forall ws, Sorted Rlt ws -> Forall (fun w => 0 < w) ws ->
  Sorted Rlt (wavenumbers ws) /\ List.length (wavenumbers ws) = List.length ws /\
  Forall (fun w => 0 < w) (wavenumbers ws).
Proof. exact wavenumbers_sorted. Qed.
Print Assumptions C48_order.

(** sample [k] of the wavelengths and its response are sample [n-1-k] afterwards *)
Theorem C48_same_pairs : forall (ws rs : list R) w r, List.length rs = List.length ws ->
  In (w, r) (combine ws rs) -> In (10000 / w, r) (combine (wavenumbers ws) (rev rs)).
Proof. exact wavenumber_pairs. Qed.
Print Assumptions C48_same_pairs.

Example C48_case : typed_data mixed_wn_data /\
  exists d' dd1 dd2, convert2wavenumber mixed_wn_data = Ok (d', ("cm-1", Fin 100)) /\
    det_at d' "1" "det-1" = Some dd1 /\ dget "wavenumber" dd1 = Some (VArr (map Fin [10000 / 4; 10000 / 2])) /\
    dget "response" dd1 = Some (VArr [Fin 9; Fin 8]) /\ dget "central_wavelength" dd1 = None /\
    det_at d' "1" "det-2" = Some dd2 /\ dget "central_wavelength" dd2 = Some (VNum (Fin 3)).
Proof. exact wn_case. Qed.

(** ** C49: convert() *)
Theorem C49_first_convert : forall s : rsr_state XRN,
  rs_wavespace s = WAVE_LENGTH -> reader_shaped (rs_rsr s) -> all_dets same_length (rs_rsr s) ->
  exists s', convert s = (s', Ok tt) /\ rs_wavespace s' = WAVE_NUMBER /\ rs_instrument s' = rs_instrument s /\
    dkeys (rs_rsr s') = dkeys (rs_rsr s) /\
    (forall b bd, dget b (rs_rsr s) = Some bd -> exists bd', dget b (rs_rsr s') = Some bd' /\ dkeys bd' = dkeys bd) /\
    (forall b k d ws rs, det_at (rs_rsr s) b k = Some d ->
       dget "wavelength" d = Some (VArr (map Fin ws)) -> dget "response" d = Some (VArr (map Fin rs)) ->
       Forall (fun w => w <> 0) ws ->
       exists d', det_at (rs_rsr s') b k = Some d' /\ converted ws rs d d') /\
    ((exists b k d, det_at (rs_rsr s) b k = Some d) -> rs_unit s' = "cm-1" /\ rs_si_scale s' = Fin 100).
Proof. exact convert_state. Qed.
Print Assumptions C49_first_convert.

Theorem C49_histories : forall s pre post, rs_wavespace s = WAVE_LENGTH -> reader_shaped (rs_rsr s) ->
  all_dets same_length (rs_rsr s) -> ~ In CConvert pre ->
  exists s' opre opost,
    convert s = (s', Ok tt) /\
    run_calls (pre ++ CConvert :: post)%list s = (s', (opre ++ OConvert (Ok tt) :: opost)%list) /\
    run_calls pre s = (s, opre) /\
    Forall2 (fun c o => match c with
                        | CConvert => o = OConvert (Err NotImplementedError)
                        | CIntegral b => forall bd, dget b (rs_rsr s) = Some bd -> bd <> [] ->
                                           o = OIntegral (Err KeyError)
                        end) post opost.
Proof. exact convert_history. Qed.
Print Assumptions C49_histories.

Example C49_case : rs_wavespace sample_state = WAVE_LENGTH /\ reader_shaped (rs_rsr sample_state) /\
  all_dets same_length (rs_rsr sample_state) /\ (exists d, det_at (rs_rsr sample_state) "ch4" "det-1" = Some d).
Proof. exact sample_convertible. Qed.

(** Finding: a conversion that fails half way leaves the object half converted. *)
Theorem C49_failed_conversion_changes_nothing_refuted : exists (s s' : rsr_state XRN) e d1 d2,
  rs_wavespace s = WAVE_LENGTH /\ reader_shaped (rs_rsr s) /\
  convert s = (s', Err e) /\ rs_wavespace s' = WAVE_NUMBER /\
  det_at (rs_rsr s') "1" "det-1" = Some d1 /\ dget "wavelength" d1 = None /\
  det_at (rs_rsr s') "1" "det-2" = Some d2 /\ dget "wavelength" d2 <> None /\ dget "wavenumber" d2 <> None.
Proof. exact mixed_state. Qed.
Print Assumptions C49_failed_conversion_changes_nothing_refuted.

(** Finding: without detectors the object claims wavenumbers but keeps the
    unit of wavelengths. *)
Theorem C49_empty_keeps_unit : forall s : rsr_state XRN,
  rs_wavespace s = WAVE_LENGTH -> reader_shaped (rs_rsr s) -> pairs_of (rs_rsr s) = [] ->
  exists s', convert s = (s', Ok tt) /\ rs_wavespace s' = WAVE_NUMBER /\ rs_unit s' = rs_unit s.
Proof. exact convert_no_dets. Qed.
Print Assumptions C49_empty_keeps_unit.

Example C49_empty_case : @reader_shaped XRN [("1", [])] /\ @pairs_of XRN [("1", [])] = [].
Proof. repeat split; repeat constructor; cbn; tauto. Qed.

(** ** C84: integrals of the responses *)
Theorem C84_integral : forall (s : rsr_state XRN) name bd,
  RSRDict_getitem (rs_instrument s) (rs_rsr s) name = Ok bd -> NoDup (dkeys bd) ->
  Forall (fun dv => exists ws rs, curve_of (snd dv) ws rs) bd ->
  exists out, integral s name = Ok out /\ dkeys out = dkeys bd /\
    forall det d ws rs, dget det bd = Some d -> curve_of d ws rs -> dget det out = Some (Fin (Rtrapz rs ws)).
Proof. exact integral_all. Qed.
Print Assumptions C84_integral.

(** the converter's integral is the same one in SI units *)
Theorem C84_converter_integral : forall load p i b det tbr (s : rsr_state XRN) (c : converter XRN) name bd d ws rs k,
  load p i = Ok s -> rs_si_scale s = Fin k ->
  RadTbConverter load p i b det WAVE_LENGTH tbr = Ok c -> cv_bandname c = Some name ->
  RSRDict_getitem (rs_instrument s) (rs_rsr s) name = Ok bd -> dget det bd = Some d -> curve_of d ws rs ->
  cv_rsr_integral c = Fin (k * Rtrapz rs ws).
Proof. exact converter_integral. Qed.
Print Assumptions C84_converter_integral.

(** responses as they are loaded: micrometres, hence a millionth of it in metres *)
Theorem C84_freshly_loaded : forall load p i b det tbr j data (c : converter XRN) name bd d ws rs,
  load p i = Ok (rsr_init j data) -> RadTbConverter load p i b det WAVE_LENGTH tbr = Ok c -> cv_bandname c = Some name ->
  RSRDict_getitem j data name = Ok bd -> dget det bd = Some d -> curve_of d ws rs ->
  cv_rsr_integral c = Fin (Rtrapz rs ws / 1000000).
Proof. exact fresh_integral. Qed.
Print Assumptions C84_freshly_loaded.

(** two detectors, one of them dead *)
Example C84_case : exists out, integral sample_state "ch3b" = Ok out /\ dkeys out = ["det-1"; "det-2"]%string /\
  dget "det-1"%string out = Some (Fin (15 / 100)) /\ dget "det-2"%string out = Some (Fin 0) /\ rs_si_scale sample_state = Fin (1 / 1000000).
Proof.
  destruct (C84_integral sample_state "ch3b" _ eq_refl) as (out & E & K & G).
  - repeat constructor; simpl; intuition discriminate.
  - repeat constructor; cbn [snd]; [exists [36/10; 37/10; 38/10]%R, [1/2; 1; 1/2]%R|exists [36/10; 37/10; 38/10]%R, [0; 0; 0]%R]; repeat split.
  - exists out. split; [exact E|]. split; [exact K|]. split; [|split; [|cbn; unfold xlit; f_equal; lra]].
    + rewrite (G "det-1"%string _ [36/10; 37/10; 38/10]%R [1/2; 1; 1/2]%R eq_refl) by (repeat split). do 2 f_equal. cbn [Rtrapz]. lra.
    + rewrite (G "det-2"%string _ [36/10; 37/10; 38/10]%R [0; 0; 0]%R eq_refl) by (repeat split). do 2 f_equal. cbn [Rtrapz]. lra.
Qed.
