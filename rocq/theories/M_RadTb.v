(** Model of /repo/pyspectral/radiance_tb_conversion.py. *)
From Coq Require Import String Ascii List Bool Arith ZArith.
From Verif Require Import Base NumSig M_Tables M_Utils M_Blackbody M_Rsr.
Import ListNotations.
Local Open Scope string_scope.

(** The [band] argument: a str, a number, or anything else. *)
(** the argument of radiance_tb_conversion.py:109-138 *)
Inductive bandarg (N : Type) := BStr (s : string) | BNumber (x : N) | BOther.
Arguments BStr {N}. Arguments BNumber {N}. Arguments BOther {N}.

Section RadTb.
  Context {N : Num}.
  Local Open Scope num_scope.

  (** radiance_tb_conversion.py:23-24 *)
  Definition TB_MIN : N := nlit N 150 1.
  Definition TB_MAX : N := nlit N 360 1.

  (** Attributes of a RadTbConverter, radiance_tb_conversion.py:84-105. *)
  Record converter := {
    cv_platform : string;
    cv_instrument : string;
    cv_band : bandarg N;
    cv_wavespace : string;
    cv_detector : string;
    cv_tb_resolution : N;
    cv_tb_scale : N;
    cv_rsr : rsrobj N;
    cv_unit : string;
    cv_si_scale : N;
    cv_bandname : option string;
    cv_bandwavelength : option N;
    cv_waves : list N;              (** wavelength_or_wavenumber, SI units *)
    cv_response : list N;
    cv_rsr_integral : N }.

  (** radiance_tb_conversion.py:93-95 *)
  Definition check_wavespace (w : string) : res unit :=
    if String.eqb w WAVE_LENGTH || String.eqb w WAVE_NUMBER then Ok tt else Err AttributeError.

  (** radiance_tb_conversion.py:118-126: the responses in the wanted space *)
  Definition rsr_in_space (sensor : rsr_state N) (wavespace : string)
    : res (rsrobj N * (string * N)) :=
    if String.eqb wavespace WAVE_NUMBER then
      ' (d, info) <- convert2wavenumber (rs_rsr sensor) ;;
      Ok (PlainDict d, info)
    else Ok (RsrDict (rs_instrument sensor) (rs_rsr sensor), (rs_unit sensor, rs_si_scale sensor)).

  (** radiance_tb_conversion.py:128-132: [None] as band name stays None *)
  Definition resolve_band (instrument : string) (band : bandarg N) (rsr : rsrobj N)
    : res (option string * option N) :=
    match band with
    | BStr s => Ok (Some (translate_band instrument s), None)
    | BNumber x =>
        b <- get_bandname_from_wavelength instrument x (rsr_data rsr) (nlit N 1 10) false ;;
        Ok (match b with BName n => Some n | _ => None end, Some x)
    | BOther => Ok (None, None)
    end.

  (** [self.rsr[self.bandname]]; None is never a key *)
  (** radiance_tb_conversion.py:109-138, 148-151 *)
  Definition band_entry (rsr : rsrobj N) (bandname : option string) : res (band N) :=
    match bandname with
    | Some b => rsr_getitem rsr b
    | None => Err KeyError
    end.

  (** radiance_tb_conversion.py:74-138.  [load] stands for
      RelativeSpectralResponse(platform_name, instrument), i.e. for the file
      system and network; see M_Download / M_Hdf5 for models of it. *)
  Definition RadTbConverter (load : string -> string -> res (rsr_state N))
             (platform_name instrument : string) (band : bandarg N)
             (detector wavespace : string) (tb_resolution : N) : res converter :=
    _ <- check_wavespace wavespace ;;
    _ <- (if tb_resolution =? n0 then Err ZeroDivisionError else Ok tt) ;;   (* line 102 *)
    sensor <- load platform_name instrument ;;
    ' (rsr, (unit, si_scale)) <- rsr_in_space sensor wavespace ;;
    ' (bandname, bandwavelength) <- resolve_band instrument band rsr ;;
    b <- band_entry rsr bandname ;;
    d <- of_option KeyError (dget detector b) ;;
    w <- get_arr wavespace d ;;
    let waves := map (fun x => x * si_scale) w in
    response <- get_arr "response" d ;;
    rsr_integral <- trapezoid response waves ;;
    Ok {| cv_platform := platform_name; cv_instrument := instrument; cv_band := band;
          cv_wavespace := wavespace; cv_detector := detector;
          cv_tb_resolution := tb_resolution; cv_tb_scale := nlit N 1 1 / tb_resolution;
          cv_rsr := rsr; cv_unit := unit; cv_si_scale := si_scale;
          cv_bandname := bandname; cv_bandwavelength := bandwavelength;
          cv_waves := waves; cv_response := response; cv_rsr_integral := rsr_integral |}.

  (** ** Look-up tables *)

  (** The npz file's two arrays, radiance_tb_conversion.py:214. *)
  Record tblut := { lut_tb : list N; lut_radiance : list N }.

  (** [x.astype('int16')] of a float: truncation when the result fits; otherwise C
      leaves the value undefined, so [oob] (any function) supplies it. *)
  (** radiance_tb_conversion.py:182-186 *)
  Definition in_int16 (z : Z) : bool := (-32768 <=? z)%Z && (z <=? 32767)%Z.
  Definition cast_int16 (oob : N -> Z) (x : N) : Z :=
    match ntrunc N x with
    | Some z => if in_int16 z then z else oob x
    | None => oob x
    end.
  (** int16 subtraction wraps *)
  (** radiance_tb_conversion.py:182-186 *)
  Definition wrap16 (z : Z) : Z := ((z + 32768) mod 65536 - 32768)%Z.

  (** numpy clip on integers *)
  (** radiance_tb_conversion.py:182-186 *)
  Definition clipZ (z lo hi : Z) : Z := Z.min (Z.max z lo) hi.

  (** radiance_tb_conversion.py:180-190: the row index of one temperature.
      [start] and the upper bound are Python ints combined with an int16 array:
      numpy raises OverflowError if they do not fit. *)
  Definition lut_start (lut : tblut) (scale : N) : res Z :=
    t0 <- of_option IndexError (hd_error (lut_tb lut)) ;;
    s <- of_option ValueError (ntrunc N (t0 * scale)) ;;
    if in_int16 s then Ok s else Err OverflowError.
  Definition lut_index (oob : N -> Z) (scale : N) (start last : Z) (tb : N) : Z :=
    clipZ (wrap16 (cast_int16 oob (tb * scale) - start)) 0 last.
  Definition lut_lookup (oob : N -> Z) (scale : N) (lut : tblut) (tbs : list N) : res (list N) :=
    start <- lut_start lut scale ;;
    let last := (Z.of_nat (length (lut_radiance lut)) - 1)%Z in
    if (last >? 32767)%Z then Err OverflowError else
    mapM (fun t => let i := lut_index oob scale start last t in
                   if (i <? 0)%Z then Err IndexError
                   else idx (lut_radiance lut) (Z.to_nat i)) tbs.

  (** radiance_tb_conversion.py:199-203: one band radiance per temperature; the
      table of Planck values (temperature x wave) times the response, integrated
      along the waves. *)
  Definition blackbody_function (wavespace : string) (waves temps : list N) : list (list N) :=
    if String.eqb wavespace WAVE_NUMBER then blackbody_wn waves temps else blackbody waves temps.

  (** radiance_tb_conversion.py:199-203 *)
  Definition planck_radiance (c : converter) (tbs : list N) (normalized : bool) : res (list N) :=
    match cv_waves c, tbs with
    | [], _ | _, [] => Err ValueError        (* blackbody.py:101-104 on empty arrays *)
    | _, _ =>
        mapM (fun row =>
                p <- vmul row (cv_response c) ;;
                r <- trapezoid p (cv_waves c) ;;
                Ok (if normalized then r / cv_rsr_integral c else r))
             (blackbody_function (cv_wavespace c) (cv_waves c) tbs)
    end.

  (** radiance_tb_conversion.py:167-207 for an array of temperatures; the unit is
      the dictionary's 'unit' entry, 'scale' is always 1.0. *)
  Definition tb2radiance_unit (c : converter) (normalized : bool) : string :=
    if normalized then
      (if String.eqb (cv_wavespace c) WAVE_NUMBER then "W/m^2 sr^-1 (m^-1)^-1"
       else "W/m^2 sr^-1 m^-1")
    else "W/m^2 sr^-1".
  Definition tb2radiance (oob : N -> Z) (c : converter) (tbs : list N) (lut : option tblut)
             (normalized : bool) : res (list N) :=
    match lut with
    | Some l => lut_lookup oob (cv_tb_scale c) l tbs
    | None => planck_radiance c tbs normalized
    end.

  (** [np.arange(start, stop, step)]: ceil((stop-start)/step) values
      start + i*delta with delta = (start+step) - start *)
  (** numpy.arange, radiance_tb_conversion.py:211 *)
  Definition nceil (x : N) : option Z :=
    match ntrunc N x with
    | Some z => Some (if nZ z <? x then (z + 1)%Z else z)
    | None => None
    end.
  Definition arange (start stop step : N) : list N :=
    match nceil ((stop - start) / step) with
    | Some n => map (fun i => start + nZ (Z.of_nat i) * ((start + step) - start))
                    (seq 0 (Z.to_nat n))
    | None => []
    end.

  (** radiance_tb_conversion.py:209-214 (contents of the file written) *)
  Definition make_tb2rad_lut (c : converter) (normalized : bool) : res tblut :=
    let tb := arange TB_MIN TB_MAX (cv_tb_resolution c) in
    rad <- planck_radiance c tb normalized ;;
    Ok {| lut_tb := tb; lut_radiance := rad |}.

  (** radiance_tb_conversion.py:231-240 *)
  Definition radiance2tb (rad : arg N) (wavelength : N) : res (arg N) :=
    blackbody_rad2temp [NpScalar wavelength; rad].

  (** radiance_tb_conversion.py:222-228 *)
  Definition converter_radiance2tb (c : converter) (rad : arg N) : res (arg N) :=
    b <- band_entry (cv_rsr c) (cv_bandname c) ;;
    d <- of_option KeyError (dget (cv_detector c) b) ;;
    cw <- get_num "central_wavelength" d ;;
    radiance2tb rad (cw * nlit N 1 1000000).

  (** ** SEVIRI, radiance_tb_conversion.py:38-63; rows are
      [central wavenumber; alpha; beta] *)
  Definition row (vc a b : Z) : list N := [nlit N vc 1000; nlit N a 10000; nlit N b 1000].
  Definition SEVIRI : dict (dict (list N)) :=
    [ ("IR3.9", [("Meteosat-8", row 2567330 9956 3410); ("Meteosat-9", row 2568832 9954 3438);
                 ("Meteosat-10", [])]);
      ("WV6.2", [("Meteosat-8", row 1598103 9962 2218); ("Meteosat-9", row 1600548 9963 2185)]);
      ("WV7.3", [("Meteosat-8", row 1362081 9991 478); ("Meteosat-9", row 1360330 9991 470)]);
      ("IR8.7", [("Meteosat-8", row 1149069 9996 179); ("Meteosat-9", row 1148620 9996 179)]);
      ("IR9.7", [("Meteosat-8", row 1034343 9999 60); ("Meteosat-9", row 1035289 9999 56)]);
      ("IR10.8", [("Meteosat-8", row 930647 9983 625); ("Meteosat-9", row 931700 9983 640)]);
      ("IR12.0", [("Meteosat-8", row 839660 9988 397); ("Meteosat-9", row 836445 9988 408)]);
      ("IR13.4", [("Meteosat-8", row 752387 9981 578); ("Meteosat-9", row 751792 9981 561)]) ].

  (** the attributes set in radiance_tb_conversion.py:252-270 *)
  Record seviri := { sv_platform : string; sv_bandname : string }.

  (** radiance_tb_conversion.py:252-266, 268-270 (no response data are read) *)
  Definition SeviriRadTbConverter (platform_name : string) (band : bandarg N) (wavespace : string)
             (tb_resolution : N) : res seviri :=
    _ <- check_wavespace wavespace ;;
    _ <- (if tb_resolution =? n0 then Err ZeroDivisionError else Ok tt) ;;
    match band with
    | BStr s => Ok {| sv_platform := platform_name; sv_bandname := translate_band "seviri" s |}
    | _ => Err AttributeError
    end.

  (** radiance_tb_conversion.py:286-290 and 317-321 *)
  Definition seviri_coeffs (c : seviri) : res (N * N * N) :=
    b <- of_option KeyError (dget (sv_bandname c) SEVIRI) ;;
    l <- of_option KeyError (dget (sv_platform c) b) ;;
    vc <- idx l 0 ;;
    alpha <- idx l 1 ;;
    beta <- idx l 2 ;;
    Ok (vc * nZ 100, alpha, beta).

  (** radiance_tb_conversion.py:283-284, 314-315 *)
  Definition sv_c1 : N := nZ 2 * H_PLANCK * npow C_SPEED 2.
  Definition sv_c2 : N := H_PLANCK * C_SPEED / K_BOLTZMANN.

  (** radiance_tb_conversion.py:272-295 *)
  Definition seviri_radiance2tb (c : seviri) (rad : list N) : res (list N) :=
    ' (vc, alpha, beta) <- seviri_coeffs c ;;
    Ok (map (fun l => sv_c2 * vc / (alpha * nlog N (sv_c1 * npow vc 3 / l + nZ 1)) - beta / alpha)
            rad).

  (** radiance_tb_conversion.py:297-330 *)
  Definition seviri_tb2radiance (c : seviri) (tb : list N) (lut_given normalized : bool)
    : res (list N) :=
    if lut_given then Err NotImplementedError
    else if negb normalized then Err NotImplementedError
    else
      ' (vc, alpha, beta) <- seviri_coeffs c ;;
      Ok (map (fun t => sv_c1 * npow vc 3 / (nexp N (sv_c2 * vc / (alpha * t + beta)) - nZ 1)) tb).
End RadTb.
Arguments converter : clear implicits.
Arguments tblut : clear implicits.
