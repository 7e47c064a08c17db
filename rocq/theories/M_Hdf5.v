(** Model of reading and writing RSR files: pyspectral/rsr_reader.py:254-365 and
    pyspectral/utils.py:280-353.  An HDF5 file is modelled by what the code can
    see of it; not modelled: group names containing '/', datasets that are not
    one-dimensional, a failing disk.  Storage as 32-bit floats is the oracle
    [f32]. *)
From Coq Require Import String Ascii List Bool ZArith DecimalString.
From Verif Require Import Base NumSig M_Tables M_Utils M_World.
Import ListNotations.
Local Open Scope string_scope.

(** 'det-{0:d}'.format(i), rsr_reader.py:325 *)
Definition det_name (i : nat) : string := "det-" ++ NilZero.string_of_uint (Nat.to_uint i).

Section Hdf5.
  Context {N : Num}.
  Local Open Scope num_scope.

  (** a 'wavelength' dataset and its 'scale' attribute *)
  (** the file layout of utils.py:280-353 and rsr_reader.py:254-365 *)
  Record h5wave := { wv_data : list N; wv_scale : option N }.
  (** what a detector group or a band group holds *)
  (** the file layout of utils.py:280-353 and rsr_reader.py:254-365 *)
  Record h5data := { hd_response : option (list N); hd_wavelength : option h5wave; hd_central : option N }.
  Record h5band := { hb_count : option Z;              (** attribute 'number_of_detectors' *)
                     hb_dets : dict h5data; hb_shared : h5data }.
  Record h5file := {
    h_band_names : option (list textval);
    h_description : option textval;
    h_platform_name : option textval;
    h_platform : option textval;
    h_sat_number : option string;                      (** as shown by str *)
    h_sensor : option textval;
    h_bands : dict h5band
  }.

  (** convert2str gives a str or raises (C59) *)
  (** rsr_reader.py:262-263, 277-302 *)
  Definition as_text (v : textval) : res string :=
    s <- convert2str v ;; match s with TStr s => Ok s | _ => Err ValueError end.

  (** rsr_reader.py:277-292 *)
  Definition read_platform_name (h : h5file) : res (option string) :=
    name <- (match h_platform_name h with
             | Some v => s <- as_text v ;; Ok (Some s)
             | None =>
                 match h_platform h with
                 | None => Ok None
                 | Some v =>
                     satname <- as_text v ;;
                     match h_sat_number h with
                     | None => Ok None
                     | Some n => Ok (Some (satname ++ "-" ++ n))
                     end
                 end
             end) ;;
    Ok (match name with
        | None => None
        | Some s => Some (match dget s OSCAR_PLATFORM_NAMES with Some t => t | None => s end)
        end).

  (** rsr_reader.py:295-302 *)
  Definition read_instrument (h : h5file) (platform_name : option string) : res (option instr_entry) :=
    match h_sensor h with
    | Some v => s <- as_text v ;; Ok (Some (IOne s))
    | None => Ok (match platform_name with None => None | Some p => dget p INSTRUMENTS end)
    end.

  (** rsr_reader.py:322-335; a missing band is taken for one with one detector *)
  Definition detector_names (h : h5file) (band_name : string) : list string :=
    let n := match dget band_name (h_bands h) with
             | Some b => match hb_count b with Some z => z | None => 1%Z end
             | None => 1%Z
             end in
    map det_name (seq 1 (Z.to_nat n)).

  (** h5f[band_name][detector_name] *)
  (** rsr_reader.py:338-365 *)
  Definition det_group (h : h5file) (band_name detector_name : string) : res h5data :=
    b <- of_option KeyError (dget band_name (h_bands h)) ;; of_option KeyError (dget detector_name (hb_dets b)).
  (** h5f[band_name] *)
  (** rsr_reader.py:338-365 *)
  Definition band_group (h : h5file) (band_name : string) : res h5data :=
    b <- of_option KeyError (dget band_name (h_bands h)) ;; Ok (hb_shared b).
  (** try: a  except KeyError: b *)
  (** rsr_reader.py:338-365 *)
  Definition except_key {A} (a b : res A) : res A := match a with Err KeyError => b | _ => a end.

  (** rsr_reader.py:338-344 *)
  Definition read_response (h : h5file) (b d : string) : res (list N) :=
    except_key (g <- det_group h b d ;; of_option KeyError (hd_response g))
               (g <- band_group h b ;; of_option KeyError (hd_response g)).
  (** rsr_reader.py:349-354 *)
  Definition scaled (g : h5data) : res (list N) :=
    w <- of_option KeyError (hd_wavelength g) ;;
    s <- of_option KeyError (wv_scale w) ;;
    Ok (map (fun x => x * s) (wv_data w)).
  (** rsr_reader.py:347-356 *)
  Definition read_wavelength (h : h5file) (b d : string) : res (list N) :=
    w <- except_key (g <- det_group h b d ;; scaled g) (g <- band_group h b ;; scaled g) ;;
    Ok (map (fun x => x * nlit N 1000000 1) w).
  (** rsr_reader.py:359-365 *)
  Definition read_central (h : h5file) (b d : string) : res N :=
    except_key (g <- det_group h b d ;; of_option KeyError (hd_central g))
               (g <- band_group h b ;; of_option KeyError (hd_central g)).

  (** rsr_reader.py:311-318 *)
  Definition read_detector (h : h5file) (b d : string) : res (detector N) :=
    r <- read_response h b d ;;
    w <- read_wavelength h b d ;;
    c <- read_central h b d ;;
    Ok [("response", VArr r); ("wavelength", VArr w); ("central_wavelength", VNum c)].
  Fixpoint read_dets (h : h5file) (b : string) (ds : list string) (acc : band N) : res (band N) :=
    match ds with
    | [] => Ok acc
    | d :: ds => x <- read_detector h b d ;; read_dets h b ds (dset d x acc)
    end.
  (** rsr_reader.py:305-319 *)
  Fixpoint read_bands (h : h5file) (bs : list string) (acc : rsrdata N) : res (rsrdata N) :=
    match bs with
    | [] => Ok acc
    | b :: bs => x <- read_dets h b (detector_names h b) [] ;; read_bands h bs (dset b x acc)
    end.

  (** the dictionary of rsr_reader.py:254-274 *)
  Record rsr_info := { ri_platform : option string; ri_instrument : option instr_entry; ri_bands : list string;
                       ri_description : string; ri_rsr : rsrdata N }.
  (** rsr_reader.py:254-274, the file being there *)
  Definition read_rsr (h : h5file) : res rsr_info :=
    bn <- of_option KeyError (h_band_names h) ;;
    band_names <- mapM as_text bn ;;
    dv <- of_option KeyError (h_description h) ;;
    description <- as_text dv ;;
    platform_name <- read_platform_name h ;;
    instrument <- read_instrument h platform_name ;;
    rsr <- read_bands h band_names [] ;;
    Ok {| ri_platform := platform_name; ri_instrument := instrument; ri_bands := band_names;
          ri_description := description; ri_rsr := rsr |}.

  (** ** writing *)
  (** what ClassIn(band, platform).rsr holds: arrays, arrays per detector, or
      None (raw_reader.py:27, nothing loaded) *)
  Record raw := { rw_wavelength : list N; rw_response : list N }.
  Inductive raw_rsr := RSingle (r : raw) | RMulti (d : dict raw) | RNone.
  Record sensor := { sn_instrument : string; sn_rsr : raw_rsr }.
  Variable f32 : N -> N.
  (** str.upper, an oracle *)
  Variable upper : string -> string.

  (** a[~np.isnan(w)] *)
  (** utils.py:320-326, 342-349 *)
  Definition where_wave (w a : list N) : res (list N) :=
    if Nat.eqb (List.length w) (List.length a) then Ok (map snd (filter (fun p => negb (nisnan N (fst p))) (combine w a)))
    else Err IndexError.
  (** utils.py:333-337 *)
  Definition saved_wavelengths (arr : list N) (scale : N) : h5wave := {| wv_data := map f32 arr; wv_scale := Some scale |}.
  (** sensor.rsr[key] *)
  (** utils.py:320-326, 342-349 *)
  Definition single (s : sensor) : res raw := match sn_rsr s with RSingle r => Ok r | RMulti _ => Err KeyError | RNone => Err TypeError end.
  Definition of_det (s : sensor) (d : string) : res raw :=
    match sn_rsr s with RSingle _ => Err KeyError | RMulti m => of_option KeyError (dget d m) | RNone => Err TypeError end.
  (** utils.py:319-330 *)
  Definition write_single (s : sensor) (scale : N) : res h5band :=
    r <- single s ;;
    wvl <- where_wave (rw_wavelength r) (rw_wavelength r) ;;
    rsp <- where_wave (rw_wavelength r) (rw_response r) ;;
    c <- get_central_wave wvl rsp (WScalar n1) ;;
    let arr := rw_response r in
    Ok {| hb_count := None; hb_dets := [];
          hb_shared := {| hd_response := Some (map f32 arr); hd_wavelength := Some (saved_wavelengths arr scale); hd_central := Some c |} |}.
  (** utils.py:345-351, the loop; [arr] is the last response array *)
  Fixpoint write_dets (s : sensor) (wvl : list N) (ds : list string) (acc : dict h5data) (arr : list N)
    : res (dict h5data * list N) :=
    match ds with
    | [] => Ok (acc, arr)
    | d :: ds =>
        if dhas d acc then Err ValueError else
        r <- of_det s d ;;
        rsp <- where_wave (rw_wavelength r) (rw_response r) ;;
        c <- get_central_wave wvl rsp (WScalar n1) ;;
        write_dets s wvl ds (dset d {| hd_response := Some (map f32 (rw_response r)); hd_wavelength := None; hd_central := Some c |} acc)
                   (rw_response r)
    end.
  (** utils.py:340-353 *)
  Definition write_multi (s : sensor) (scale : N) (detectors : list string) : res h5band :=
    d0 <- of_option IndexError (hd_error detectors) ;;
    r0 <- of_det s d0 ;;
    wvl <- where_wave (rw_wavelength r0) (rw_wavelength r0) ;;
    out <- write_dets s wvl detectors [] [] ;;
    let (dets, arr) := out in
    Ok {| hb_count := Some (Z.of_nat (List.length detectors)); hb_dets := dets;
          hb_shared := {| hd_response := None; hd_wavelength := Some (saved_wavelengths arr scale); hd_central := None |} |}.
  (** utils.py:307-316 *)
  Fixpoint write_channels (sensors : list sensor) (bandnames : list string) (scale : N) (detectors : option (list string)) (acc : dict h5band)
    : res (dict h5band) :=
    match bandnames, sensors with
    | b :: bs, s :: ss =>
        if dhas b acc then Err ValueError else
        g <- (match detectors with Some ds => write_multi s scale ds | None => write_single s scale end) ;;
        write_channels ss bs scale detectors (dset b g acc)
    | _, _ => Ok acc
    end.
  (** utils.py:289-293: its name *)
  Definition converted_filename (platform_name instrument : string) : string :=
    "rsr_" ++ remove_char "/" instrument ++ "_" ++ platform_name ++ ".h5".
  (** utils.py:280-304: the file written; [load] stands for ClassIn *)
  Definition convert2hdf5 (load : string -> res sensor) (platform_name : string) (bandnames : list string) (scale : N)
      (detectors : option (list string)) : res h5file :=
    sensors <- mapM load bandnames ;;
    s0 <- of_option IndexError (hd_error sensors) ;;
    bands <- write_channels sensors bandnames scale detectors [] ;;
    Ok {| h_band_names := Some (map TStr bandnames);
          h_description := Some (TStr ("Relative Spectral Responses for " ++ upper (sn_instrument s0)));
          h_platform_name := Some (TStr platform_name); h_platform := None; h_sat_number := None; h_sensor := None;
          h_bands := bands |}.
End Hdf5.
Arguments h5wave : clear implicits. Arguments h5data : clear implicits. Arguments h5band : clear implicits.
Arguments h5file : clear implicits. Arguments rsr_info : clear implicits. Arguments raw : clear implicits.
Arguments raw_rsr : clear implicits. Arguments sensor : clear implicits.
