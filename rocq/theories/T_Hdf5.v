(** RSR files: properties C53, C54 and C55. *)
From Coq Require Import String List Bool ZArith Lia Reals Lra.
From Verif Require Import Base NumSig XR M_Tables M_Utils S_Names M_Hdf5 S_Hdf5 P_Hdf5 P_Hdf52 P_Hdf53 Samples6.
Import ListNotations.
Local Open Scope string_scope.

(** ** C54: what reading returns *)
(** Every band named is there, with exactly det-1 ... det-n, each detector with
    its own data if the file has any, else the band's. *)
Theorem C54_contents : forall (N : Num) (h : h5file N) i, read_rsr h = Ok i ->
  names_bands h (ri_bands i) /\ describes h (ri_description i) /\
  (forall b, In b (ri_bands i) -> exists g y, dget b (h_bands h) = Some g /\ dget b (ri_rsr i) = Some y /\ band_data g y) /\
  (forall b, In b (dkeys (ri_rsr i)) -> In b (ri_bands i)) /\
  (NoDup (ri_bands i) -> dkeys (ri_rsr i) = ri_bands i).
Proof. exact contents. Qed.
Print Assumptions C54_contents.

(** With readable attributes a file is read if and only if all bands named have
    all the data needed; otherwise it is a KeyError. *)
Theorem C54_reads_or_KeyError : forall (N : Num) (h : h5file N) names d p r ins,
  names_bands h names -> describes h d -> names_platform h p -> oscar_opt p r -> names_instrument h r ins ->
  (complete_bands h names -> exists rsr, read_rsr h = Ok {| ri_platform := r; ri_instrument := ins; ri_bands := names; ri_description := d; ri_rsr := rsr |}) /\
  (~ complete_bands h names -> read_rsr h = Err KeyError).
Proof. exact @reads_iff. Qed.
Print Assumptions C54_reads_or_KeyError.

(** two detectors; the second has no response of its own, the first has a
    wavelength without scale *)
Example C54_case : exists x1 x2, read_rsr file1 = Ok {| ri_platform := Some "Metop-B"; ri_instrument := Some (IOne "avhrr/3");
    ri_bands := ["ch1"]; ri_description := "test"; ri_rsr := [("ch1", [("det-1", x1); ("det-2", x2)])] |} /\
  get_arr "response" x1 = Ok [Fin 1; Fin 2] /\ get_arr "response" x2 = Ok [Fin 8; Fin 9] /\
  get_arr "wavelength" x1 = Ok [Fin 500; Fin 600] /\ get_arr "wavelength" x2 = Ok [Fin 700; Fin 800].
Proof. exact file1_read. Qed.
Example C54_case_missing : read_rsr file2 = Err KeyError.
Proof. reflexivity. Qed.

(** ** C55: platform and instrument *)
Theorem C55_platform : forall (N : Num) (h : h5file N) i, read_rsr h = Ok i ->
  exists p, names_platform h p /\ oscar_opt p (ri_platform i).
Proof. exact platform_read. Qed.
Print Assumptions C55_platform.
Theorem C55_instrument : forall (N : Num) (h : h5file N) i, read_rsr h = Ok i ->
  names_instrument h (ri_platform i) (ri_instrument i).
Proof. exact instrument_read. Qed.
Print Assumptions C55_instrument.
(** these relations determine the results *)
Theorem C55_determined : forall (N : Num) (h : h5file N) p p' q q' i i', names_platform h p -> names_platform h p' -> oscar_opt p q -> oscar_opt p' q' ->
  names_instrument h q i -> names_instrument h q' i' -> q = q' /\ i = i'.
Proof. exact determined. Qed.
Print Assumptions C55_determined.
(** Translating twice is translating once. *)
Theorem C55_translation_idempotent : forall s t, oscar s t -> forall u, oscar t u <-> u = t.
Proof. exact oscar_idem. Qed.
Print Assumptions C55_translation_idempotent.
(** An unreadable platform_name is an error even if platform and sat_number
    are there. *)
Theorem C55_bad_name : forall (N : Num) (h : h5file N) v, h_platform_name h = Some v -> (forall s, ~ holds_text v s) ->
  exists e, read_rsr h = Err e.
Proof. exact bad_name. Qed.
Print Assumptions C55_bad_name.

Example C55_case_number : read_platform_name file3 = Ok (Some "Meteosat-8") /\ read_instrument file3 (Some "Meteosat-8") = Ok (Some (IOne "seviri")).
Proof. split; reflexivity. Qed.
Example C55_case_oscar : oscar "eos-2" "EOS-Aqua".
Proof. now constructor. Qed.
Example C55_case_bad : read_rsr file4 = Err ValueError.
Proof. reflexivity. Qed.

(** ** C53: writing and reading back *)
(** One detector: responses as stored in 32 bits and the central wavelength come
    back; but the wavelengths that come back are made from the responses. *)
Theorem C53_single : forall (N : Num) (f32 : N -> N) upper load p bns scale h, convert2hdf5 f32 upper load p bns scale None = Ok h ->
  exists i, read_rsr h = Ok i /\ ri_bands i = bns /\ oscar_opt (Some p) (ri_platform i) /\
    (forall t, oscar p t -> ri_instrument i = dget t INSTRUMENTS) /\ dkeys (ri_rsr i) = bns /\
    forall b, In b bns -> exists s r c, load b = Ok s /\ sn_rsr s = RSingle r /\
      central_of (numbered (rw_wavelength r) (rw_wavelength r)) (numbered (rw_wavelength r) (rw_response r)) c /\
      dget b (ri_rsr i) = Some [("det-1", [("response", VArr (map f32 (rw_response r)));
        ("wavelength", VArr (map (fun x => nmul N (nmul N (f32 x) scale) (nlit N 1000000 1)) (rw_response r)));
        ("central_wavelength", VNum c)])].
Proof. exact @single_back. Qed.
Print Assumptions C53_single.
Theorem C53_single_writes : forall (N : Num) (f32 : N -> N) upper load p bns scale, bns <> [] -> NoDup bns ->
  (forall b, In b bns -> exists s r, load b = Ok s /\ sn_rsr s = RSingle r /\ List.length (rw_wavelength r) = List.length (rw_response r)) ->
  exists h, convert2hdf5 f32 upper load p bns scale None = Ok h.
Proof. exact @single_writes. Qed.
Print Assumptions C53_single_writes.

(** Several detectors, with the names the reader looks for. *)
Theorem C53_multi : forall (N : Num) (f32 : N -> N) upper load p bns scale ds h, convert2hdf5 f32 upper load p bns scale (Some ds) = Ok h -> standard_names ds ->
  exists i, read_rsr h = Ok i /\ ri_bands i = bns /\ oscar_opt (Some p) (ri_platform i) /\
    (forall t, oscar p t -> ri_instrument i = dget t INSTRUMENTS) /\ dkeys (ri_rsr i) = bns /\
    forall b, In b bns -> exists s m d0 r0 rl y, load b = Ok s /\ sn_rsr s = RMulti m /\
      hd_error ds = Some d0 /\ dget d0 m = Some r0 /\ dget (last ds d0) m = Some rl /\
      dget b (ri_rsr i) = Some y /\ dkeys y = map det_name (seq 1 (List.length ds)) /\
      forall d, In d ds -> exists r c, dget d m = Some r /\
        central_of (numbered (rw_wavelength r0) (rw_wavelength r0)) (numbered (rw_wavelength r) (rw_response r)) c /\
        dget d y = Some [("response", VArr (map f32 (rw_response r)));
          ("wavelength", VArr (map (fun x => nmul N (nmul N (f32 x) scale) (nlit N 1000000 1)) (rw_response rl)));
          ("central_wavelength", VNum c)].
Proof. exact @multi_back. Qed.
Print Assumptions C53_multi.
(** With any other names the file that was written cannot be read. *)
Theorem C53_other_names : forall (N : Num) (f32 : N -> N) upper load p bns scale ds h, convert2hdf5 f32 upper load p bns scale (Some ds) = Ok h ->
  ~ standard_names ds -> read_rsr h = Err KeyError.
Proof. exact @multi_odd_names. Qed.
Print Assumptions C53_other_names.

(** Given the same responses, files written from any two sets of wavelengths
    yield the same wavelengths. *)
Theorem C53_wavelengths_lost : forall (N : Num) (f32 : N -> N) upper load load' p bns scale h h' i i' b, In b bns ->
  (forall s s', load b = Ok s -> load' b = Ok s' -> same_responses s s') ->
  convert2hdf5 f32 upper load p bns scale None = Ok h -> convert2hdf5 f32 upper load' p bns scale None = Ok h' ->
  read_rsr h = Ok i -> read_rsr h' = Ok i' ->
  exists x x' w, dget b (ri_rsr i) = Some [("det-1", x)] /\ dget b (ri_rsr i') = Some [("det-1", x')] /\
    get_arr "wavelength" x = Ok w /\ get_arr "wavelength" x' = Ok w.
Proof. exact @waves_lost. Qed.
Print Assumptions C53_wavelengths_lost.

(** So the expectation that wavelengths survive fails, even with exact storage. *)
Theorem C53_wavelengths_refuted : exists (load : string -> res (sensor XRN)) h i r x w,
  convert2hdf5 (fun v => v) (fun s => s) load "GOES-16" ["ch1"] (nlit XRN 1 1000000) None = Ok h /\ read_rsr h = Ok i /\
  load "ch1" = Ok {| sn_instrument := "abi"; sn_rsr := RSingle r |} /\ dget "ch1" (ri_rsr i) = Some [("det-1", x)] /\
  get_arr "wavelength" x = Ok w /\ w <> rw_wavelength r.
Proof. exact waves_differ. Qed.
Print Assumptions C53_wavelengths_refuted.

Example C53_case_multi : (exists h, convert2hdf5 (fun v => v) (fun s => s) load2 "GOES-16" ["ch1"] (nlit XRN 1 1000000) (Some ["det-2"; "det-1"]) = Ok h) /\
  standard_names ["det-2"; "det-1"].
Proof. exact multi_case. Qed.
Example C53_case_odd : (exists h, convert2hdf5 (fun v => v) (fun s => s) load2 "GOES-16" ["ch1"] (nlit XRN 1 1000000) (Some ["det-0"; "det-1"]) = Ok h) /\
  ~ standard_names ["det-0"; "det-1"].
Proof. exact odd_case. Qed.
