(** Specification vocabulary: contents of RSR files. *)
From Coq Require Import String List ZArith.
From Verif Require Import Base NumSig M_Tables M_Utils S_Names M_Hdf5.
Import ListNotations.
Local Open Scope string_scope.

Section S.
  Context {N : Num}.
  Local Open Scope num_scope.

  (** what a group holds; wavelengths in micrometres *)
  Definition has_response (g : h5data N) (r : list N) : Prop := hd_response g = Some r.
  Definition has_wavelengths (g : h5data N) (w : list N) : Prop :=
    exists l s, hd_wavelength g = Some {| wv_data := l; wv_scale := Some s |} /\ w = map (fun x => x * s * nlit N 1000000 1) l.
  Definition has_central (g : h5data N) (c : N) : Prop := hd_central g = Some c.

  (** the detector's own data if it has any, else what the band shares *)
  Definition available {A} (P : h5data N -> A -> Prop) (b : h5band N) (d : string) (x : A) : Prop :=
    (exists g, dget d (hb_dets b) = Some g /\ P g x) \/
    ((forall g y, dget d (hb_dets b) = Some g -> ~ P g y) /\ P (hb_shared b) x).

  Definition detector_count (b : h5band N) : nat := match hb_count b with Some z => Z.to_nat z | None => 1 end.

  Definition detector_data (b : h5band N) (d : string) (x : detector N) : Prop :=
    exists r w c, available has_response b d r /\ available has_wavelengths b d w /\ available has_central b d c /\
    x = [("response", VArr r); ("wavelength", VArr w); ("central_wavelength", VNum c)].

  (** a band as it should be read: exactly the detectors det-1 ... det-n *)
  Definition band_data (b : h5band N) (x : band N) : Prop :=
    dkeys x = map det_name (seq 1 (detector_count b)) /\
    forall k, 1 <= k <= detector_count b -> exists y, dget (det_name k) x = Some y /\ detector_data b (det_name k) y.

  (** everything needed is there *)
  Definition complete (b : h5band N) : Prop :=
    forall k, 1 <= k <= detector_count b ->
      (exists r, available has_response b (det_name k) r) /\ (exists w, available has_wavelengths b (det_name k) w) /\
      (exists c, available has_central b (det_name k) c).
  Definition complete_bands (h : h5file N) (names : list string) : Prop :=
    forall b, In b names -> exists g, dget b (h_bands h) = Some g /\ complete g.

  (** platform, before translation *)
  Inductive names_platform (h : h5file N) : option string -> Prop :=
  | np_name v s : h_platform_name h = Some v -> holds_text v s -> names_platform h (Some s)
  | np_number v s n : h_platform_name h = None -> h_platform h = Some v -> holds_text v s -> h_sat_number h = Some n ->
      names_platform h (Some (s ++ "-" ++ n))
  | np_no_number v s : h_platform_name h = None -> h_platform h = Some v -> holds_text v s -> h_sat_number h = None ->
      names_platform h None
  | np_nothing : h_platform_name h = None -> h_platform h = None -> names_platform h None.
  (** the name OSCAR uses *)
  Inductive oscar : string -> string -> Prop :=
  | oscar_known s t : dget s OSCAR_PLATFORM_NAMES = Some t -> oscar s t
  | oscar_other s : ~ In s (dkeys OSCAR_PLATFORM_NAMES) -> oscar s s.
  Inductive oscar_opt : option string -> option string -> Prop :=
  | oo_some s t : oscar s t -> oscar_opt (Some s) (Some t)
  | oo_none : oscar_opt None None.
  Inductive names_instrument (h : h5file N) : option string -> option instr_entry -> Prop :=
  | ni_sensor v s p : h_sensor h = Some v -> holds_text v s -> names_instrument h p (Some (IOne s))
  | ni_default p : h_sensor h = None -> names_instrument h (Some p) (dget p INSTRUMENTS)
  | ni_unknown : h_sensor h = None -> names_instrument h None None.

  (** all text attributes that get read are text *)
  Definition names_bands (h : h5file N) (names : list string) : Prop :=
    exists bn, h_band_names h = Some bn /\ Forall2 holds_text bn names.
  Definition describes (h : h5file N) (d : string) : Prop := exists v, h_description h = Some v /\ holds_text v d.

  (** ** writing *)
  (** samples at which the wavelength is a number *)
  Definition numbered (w a : list N) : list N := map snd (filter (fun p => negb (nisnan N (fst p))) (combine w a)).
  (** central wavelength, weighting with the response *)
  Definition central_of (w a : list N) (c : N) : Prop := get_central_wave w a (WScalar n1) = Ok c.
  (** the detectors' names are those the reader expects *)
  Definition standard_names (ds : list string) : Prop := forall k, 1 <= k <= List.length ds -> In (det_name k) ds.
  (** the same responses, whatever the wavelengths *)
  Definition same_responses (a b : sensor N) : Prop :=
    exists r r', sn_rsr a = RSingle r /\ sn_rsr b = RSingle r' /\ rw_response r = rw_response r'.
End S.
