(** Model of the fake data behind pyspectral.testing's mocks:
    /repo/pyspectral/testing.py:529-640.

    Simplified: single precision rounding of the fake responses (dtype float32)
    is left out; the attributes and the "info" text of the fake Rayleigh file,
    which nothing reads, are left out. *)
From Coq Require Import String Ascii ZArith List Bool.
From Verif Require Import Base NumSig M_Tables M_Utils M_Solar M_Nir M_Rayleigh M_World M_Download M_Rsr.
Import ListNotations.
Local Open Scope string_scope.

(** [s.split(c)] for one character: testing.py:605 *)
Fixpoint split_on (c : ascii) (s : string) : list string :=
  match s with
  | EmptyString => [""]
  | String d t =>
      if Ascii.eqb c d then "" :: split_on c t
      else match split_on c t with h :: r => String d h :: r | [] => [String d ""] end
  end.

(** what precedes and what follows the last dot; pathlib's PurePath.stem, testing.py:605 *)
Fixpoint split_dot (s : string) : option (string * string) :=
  match s with
  | EmptyString => None
  | String c t =>
      match split_dot t with
      | Some (h, b) => Some (String c h, b)
      | None => if Ascii.eqb c "." then Some ("", t) else None
      end
  end.
(** pathlib's PurePath.stem, testing.py:605: the last component without its
    suffix; a leading or trailing dot starts no suffix *)
Definition stem (path : string) : string :=
  let name := snd (split_slash path) in
  match split_dot name with
  | Some (h, b) => if String.eqb h "" || String.eqb b "" then name else h
  | None => name
  end.

(** [s[-1]], testing.py:609; only used on texts that start with "avhrr" *)
Fixpoint last_char (s : string) : string :=
  match s with
  | EmptyString => ""
  | String c EmptyString => s
  | String c t => last_char t
  end.

(** testing.py:608-609 *)
Definition fake_instrument (instrument : string) : string :=
  if startswith instrument "avhrr" then "avhrr/" ++ last_char instrument else instrument.

(** testing.py:610-612 *)
Definition fake_band_name_map (instrument : string) : dict string :=
  match dget (replace_char "/" "-" (lower instrument)) BANDNAMES with Some t => t | None => BN_generic end.

Section Fake.
  Context {N : Num}.
  Local Open Scope num_scope.

  (** testing.py:561-584 *)
  Definition default_rayleigh_lut_data : res (raylut N) :=
    refl <- linspace (nlit N 668 1000) (nlit N 115 1000) 81 ;;
    azid <- linspace (nlit N 0 1) (nlit N 180 1) 19 ;;
    wvl <- linspace (nlit N 400 1) (nlit N 800 1) 81 ;;
    satz <- linspace (nlit N 1 1) (nlit N 3 1) 9 ;;
    sunz <- linspace (nlit N 1 1) (nlit N 2475 100) 96 ;;
    Ok {| rl_wavelengths := wvl; rl_azid := azid; rl_satz := satz; rl_sunz := sunz;
          rl_refl := map (fun v => repeat v (96 * (19 * 9))) refl |}.

  (** testing.py:529-558: what the file holds, given the argument [lut_data] *)
  Definition fake_rayleigh_file (lut_data : option (raylut N)) : res (raylut N) :=
    match lut_data with Some l => Ok l | None => default_rayleigh_lut_data end.

  (** the dictionary of testing.py:614-620 *)
  Record fake_info := {
    fi_platform_name : string; fi_instrument : string; fi_description : string;
    fi_band_names : list string; fi_rsr : rsrdata N }.

  (** testing.py:621-625 *)
  Definition central_wvl_map (band_name_map : dict string) (central_wavelengths : dict N) : dict N :=
    fold_left (fun m e => dset (match dget (fst e) band_name_map with Some b => b | None => fst e end) (snd e) m)
              central_wavelengths [].

  (** testing.py:628-637 *)
  Definition fake_band (wvl response : list N) (central_wvl : N) : band N :=
    [("det-1", [("wavelength", VArr (map (fun w => w + central_wvl) wvl));
                ("central_wavelength", VNum central_wvl);
                ("response", VArr response)])].

  (** testing.py:596-640; [central_wavelengths] is [] for None *)
  Definition create_fake_rsr_info (central_wavelengths : dict N) (rsr_path : string) : res fake_info :=
    let parts := split_on "_" (stem rsr_path) in
    i <- idx parts 1 ;;
    platform_name <- idx parts 2 ;;
    let instrument := fake_instrument i in
    let band_name_map := fake_band_name_map instrument in
    let band_names := map snd band_name_map in
    let central := central_wvl_map band_name_map central_wavelengths in
    response <- linspace (nlit N 9 10000) (nlit N 1 1) 1000 ;;
    wvl <- linspace (nlit N (-2) 100) (nlit N 2 100) 1000 ;;
    rsr <- fold_left (fun acc band_name =>
                        a <- acc ;;
                        cw <- RSRDict_get (Some (IOne instrument)) central band_name (nlit N 46 100) ;;
                        Ok (dset band_name (fake_band wvl response cw) a)) band_names (Ok []) ;;
    Ok {| fi_platform_name := platform_name; fi_instrument := instrument;
          fi_description := "Relative Response for " ++ instrument;
          fi_band_names := band_names; fi_rsr := rsr |}.

  (** RelativeSpectralResponse(platform, instrument), rsr_reader.py:142-202, with
      the loader that mock_rsr_files puts in place (testing.py:299-311) and
      nothing to download; [dir] is the response directory *)
  Definition mocked_response (dir : string) (central_wavelengths : dict N) (platform_name instrument : string) : res (rsr_state N) :=
    i <- check_and_adjust_instrument_name platform_name instrument ;;
    info <- create_fake_rsr_info central_wavelengths (join dir (get_rsr_filename platform_name i)) ;;
    Ok (rsr_init (Some (IOne i)) (fi_rsr info)).
  (** RelativeSpectralResponse(filename=...), rsr_reader.py:142-180: the names come from the loader *)
  Definition mocked_response_from_file (central_wavelengths : dict N) (filename : string) : res (string * string * rsr_state N) :=
    info <- create_fake_rsr_info central_wavelengths filename ;;
    Ok (fi_platform_name info, fi_instrument info, rsr_init (Some (IOne (fi_instrument info))) (fi_rsr info)).
End Fake.
