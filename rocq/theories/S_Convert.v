(** Specification vocabulary: response data in wavenumber space. *)
From Coq Require Import Reals String List.
From Verif Require Import Base NumSig XR M_Utils M_Rsr.
Import ListNotations.
Local Open Scope string_scope.
Local Open Scope R_scope.

(** wavenumbers (cm-1) of wavelengths (um), from the largest wavelength on *)
Definition wavenumbers (ws : list R) : list R := rev (map (fun w => 10000 / w) ws).

(** a response in reversed order: an array, or each array of a dictionary *)
Definition resp_reversed (v v' : pyval XRN) : Prop :=
  match v, v' with
  | VArr r, VArr r' => r' = rev r
  | VDict m, VDict m' => forall nm, dget nm m' = option_map (@rev XRN) (dget nm m)
  | _, _ => False
  end.

(** [d'] is detector [d] in wavenumber space. *)
Definition in_wavenumbers (d d' : detector XRN) : Prop :=
  if dhas "wavenumber" d then d' = d
  else
    (forall ws, dget "wavelength" d = Some (VArr (map Fin ws)) -> Forall (fun w => w <> 0) ws ->
                dget "wavenumber" d' = Some (VArr (map Fin (wavenumbers ws)))) /\
    (dget "wavelength" d = None -> dget "wavenumber" d' = None) /\
    match dget "response" d with
    | Some v => exists v', dget "response" d' = Some v' /\ resp_reversed v v'
    | None => dget "response" d' = None
    end /\
    (forall k, k <> "wavenumber" -> k <> "response" -> dget k d' = None).

(** [d'] is what convert() makes of a detector [d] with wavelengths [ws] and
    responses [rs]. *)
Definition converted (ws rs : list R) (d d' : detector XRN) : Prop :=
  dget "wavenumber" d' = Some (VArr (map Fin (wavenumbers ws))) /\
  dget "response" d' = Some (VArr (map Fin (rev rs))) /\
  (let wn := wavenumbers ws in Rtrapz (rev rs) wn <> 0 ->
   dget "central_wavenumber" d' =
     Some (VNum (Fin (Rtrapz (Rvmul (rev rs) wn) wn / Rtrapz (rev rs) wn)))) /\
  dget "wavelength" d' = None /\
  (forall k, ~ In k ["wavenumber"; "response"; "central_wavenumber"; "wavelength"] -> dget k d' = dget k d).

(** Call histories on one response object. *)
Inductive call := CConvert | CIntegral (band : string).
Inductive outcome := OConvert (r : res unit) | OIntegral (r : res (dict XR)).
Fixpoint run_calls (l : list call) (s : rsr_state XRN) : rsr_state XRN * list outcome :=
  match l with
  | [] => (s, [])
  | CConvert :: t => let (s', r) := convert s in let (s'', os) := run_calls t s' in (s'', OConvert r :: os)
  | CIntegral b :: t => let (s'', os) := run_calls t s in (s'', OIntegral (integral s b) :: os)
  end.
