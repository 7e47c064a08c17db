(** The scripts in /repo/bin: download_rsr.py, download_atm_correction_luts.py,
    find_wavelengths_for_satpy.py, plot_rsr.py and composite_rsr_plot.py.
    The command line is given as parsed by argparse.  What matplotlib draws is a
    list of curves (label and points); figure sizes, axis limits, titles and the
    legend's position are not modelled. *)
From Coq Require Import String Ascii List Bool Arith ZArith DecimalString.
From Verif Require Import Base NumSig M_Tables M_Utils M_Rsr M_World M_Config M_Logging M_Download.
Import ListNotations.
Local Open Scope string_scope.

(** ** The download scripts *)

(** [if verbose: logging_on(logging.DEBUG) else: logging_off()]:
    bin/download_rsr.py:28-31, bin/download_atm_correction_luts.py:33-36 *)
Definition script_logging (verbose : bool) (s : lstate) : lstate :=
  fst (if verbose then logging_on (Level DEBUG) s else logging_off s).

(** bin/download_rsr.py:23-36 *)
Record rsr_args := { da_destination : option string; da_dry_run : bool; da_verbose : bool }.
Definition download_rsr_main (x : extern) (a : rsr_args) (s : lstate) (w : world) : lstate * (world * res unit) :=
  (script_logging (da_verbose a) s,
   match da_destination a with
   | Some (String _ _ as d) => rsr_check_and_download x (Some d) (da_dry_run a) w
   | _ => rsr_check_and_download x None (da_dry_run a) w
   end).

(** bin/download_atm_correction_luts.py:17-38; without -a the types are
    AEROSOL_TYPES, "-a" alone is an empty list *)
Record lut_args := { la_aerosol_types : option (list string); la_dry_run : bool; la_verbose : bool }.
Definition download_luts_main (x : extern) (a : lut_args) (s : lstate) (w : world) : lstate * (world * res unit) :=
  (script_logging (la_verbose a) s,
   ray_check_and_download x (la_dry_run a)
     (Some (match la_aerosol_types a with Some l => l | None => AEROSOL_TYPES end)) w).

Section Scripts.
  Context {N : Num}.
  Local Open Scope num_scope.

  (** What the scripts use of a RelativeSpectralResponse. *)
  (** bin/find_wavelengths_for_satpy.py:31-47, bin/plot_rsr.py:36-68, bin/composite_rsr_plot.py:17-223 *)
  Record robj := { so_platform : string; so_instrument : string; so_bands : list string; so_rsr : rsrdata N }.
  (** RelativeSpectralResponse(platform, sensor): an oracle (modelled in
      M_Download.rsr_init and M_Hdf5.read_rsr) *)
  Variable make : string -> string -> res robj.

  (** [obj.rsr[name]] *)
  (** bin/find_wavelengths_for_satpy.py:31-47, bin/plot_rsr.py:36-68, bin/composite_rsr_plot.py:17-223 *)
  Definition so_band (o : robj) (name : string) : res (band N) :=
    RSRDict_getitem (Some (IOne (so_instrument o))) (so_rsr o) name.

  (** ** bin/find_wavelengths_for_satpy.py:31-47: the triples printed, and how
      the script ended.  The format of the numbers (5.3f) is not modelled. *)
  Definition line : Type := string * (N * N * N).
  Fixpoint print_ranges (o : robj) (det : string) (threshold : N) (bands : list string) : list line * res unit :=
    match bands with
    | [] => ([], Ok tt)
    | b :: rest =>
        match (bd <- so_band o b ;; d <- of_option KeyError (dget det bd) ;; get_wave_range d threshold) with
        | Err e => ([], Err e)
        | Ok t => let (l, r) := print_ranges o det threshold rest in ((b, t) :: l, r)
        end
    end.
  Definition find_wavelengths (platform sensor : string) (threshold : N) (bandname : option string) (det : string)
    : list line * res unit :=
    match make platform sensor with
    | Err e => ([], Err e)
    | Ok o => print_ranges o det threshold
                (match bandname with Some (String _ _ as b) => [b] | _ => so_bands o end)
    end.

  (** ** Plotting *)
  (** bin/plot_rsr.py:56-68, bin/composite_rsr_plot.py:17-41 *)
  Record curve := { pl_label : string; pl_points : list (N * N) }.

  (** Points that are not masked: bin/plot_rsr.py:56-62 and
      bin/composite_rsr_plot.py:27-33.  [np.ma.masked_less_equal] does not mask
      NaN.  Arrays of equal length only. *)
  Definition unmasked (minimum : N) (d : detector N) : res (list (N * N)) :=
    resp <- get_arr "response" d ;;
    wvl <- get_arr "wavelength" d ;;
    Ok (filter (fun p => negb (snd p <=? minimum)) (combine wvl resp)).

  (** bin/plot_rsr.py:36-68: all detectors of the band; the curves have no label.
      A band not found by wavelength is None, and [rsr.rsr[None]] is a KeyError;
      with several bands get_bandname_from_wavelength raises, so [BNames] does
      not occur. *)
  Definition plot_rsr (platform sensor : string) (minimum : N) (bandname : option string) (wavelength : N)
    : res (list (list (N * N)) * string) :=
    o <- make platform sensor ;;
    b <- (match bandname with
          | Some (String _ _ as b) => Ok b
          | _ => r <- get_bandname_from_wavelength (so_instrument o) wavelength (so_rsr o) (nlit N 1 10) false ;;
                 match r with BName b => Ok b | BNone => Err KeyError | BNames _ => Err TypeError end
          end) ;;
    bd <- so_band o b ;;
    cs <- mapM (fun kd : string * detector N => unmasked minimum (snd kd)) bd ;;
    Ok (cs, platform ++ "_" ++ sensor ++ "_rsr_band" ++ b ++ ".png").

  (** [sorted(names)[0]]: bin/composite_rsr_plot.py:24-26 *)
  Fixpoint least (m : string) (l : list string) : string :=
    match l with [] => m | s :: t => least (if String.ltb s m then s else m) t end.
  Definition first_sorted (l : list string) : res string :=
    match l with [] => Err IndexError | s :: t => Ok (least s t) end.

  (** bin/composite_rsr_plot.py:17-41 *)
  Definition plot_band (minimum : N) (platform_name_in_legend : bool) (o : robj) (band_name : string) : res curve :=
    bd <- so_band o band_name ;;
    det <- first_sorted (dkeys bd) ;;
    d <- of_option KeyError (dget det bd) ;;
    pts <- unmasked minimum d ;;
    Ok {| pl_label := if platform_name_in_legend then so_platform o ++ " - " ++ band_name else band_name;
          pl_points := pts |}.

  (** How a run of the script can end early: an exception of the library, the
      NameError of line 152 if the variable rsr was never assigned, or (a limit of
      the model) the while loop of line 177 still running after the given number
      of rounds. *)
  Inductive stop := Raise (e : exn) | NameError | StillRunning.
  Inductive out (A : Type) := Done (a : A) | Stop (s : stop).
  Arguments Done {A}. Arguments Stop {A}.
  Definition of_res {A} (r : res A) : out A := match r with Ok a => Done a | Err e => Stop (Raise e) end.

  (** bin/composite_rsr_plot.py:186-190 *)
  Fixpoint draw_new (draw : string -> res curve) (excluded bands prev : list string) (acc : list curve)
    : res (list string * list curve) :=
    match bands with
    | [] => Ok (prev, acc)
    | b :: rest =>
        if negb (existsb_str b excluded) && negb (existsb_str b prev)
        then c <- draw b ;; draw_new draw excluded rest (prev ++ [b]) (acc ++ [c])
        else draw_new draw excluded rest (prev ++ [b]) acc
    end.
  (** bin/composite_rsr_plot.py:175-190; [fuel] bounds the number of rounds *)
  Fixpoint scan (fuel : nat) (draw : string -> res curve) (o : robj) (excluded : list string) (wavel_res x wvlmax : N)
           (prev : list string) (acc : list curve) : out (list curve) :=
    match fuel with
    | O => Stop StillRunning
    | S fuel' =>
        if x <? wvlmax then
          match get_bandname_from_wavelength (so_instrument o) x (so_rsr o) wavel_res true with
          | Err e => Stop (Raise e)
          | Ok bands =>
              let x' := x + wavel_res / nlit N 5 1 in
              match bands with
              | BNone | BName "" => scan fuel' draw o excluded wavel_res x' wvlmax prev acc
              | BName _ | BNames _ =>
                  match draw_new draw excluded (match bands with BNames l => l | BName b => [b] | BNone => [] end) prev acc with
                  | Err e => Stop (Raise e)
                  | Ok (prev', acc') => scan fuel' draw o excluded wavel_res x' wvlmax prev' acc'
                  end
              end
          end
        else Done acc
    end.

  (** Parsed arguments: bin/composite_rsr_plot.py:44-93; --range defaults to
      [None, None], here [None] *)
  Record plot_args := {
    ca_platforms : list string; ca_sensors : list string; ca_minimum : N; ca_no_name : bool; ca_resolution : N;
    ca_filename : option string; ca_bandname : option string; ca_wavelength : option N; ca_range : option (list N);
    ca_exclude : list string }.
  Definition text_given (o : option string) : option string := match o with Some (String _ _ as s) => Some s | _ => None end.
  Definition number_given (o : option N) : option N :=
    match o with Some x => if x =? nlit N 0 1 then None else Some x | None => None end.

  (** [platform in INSTRUMENTS and sensor not in INSTRUMENTS.get(platform)]: for a
      single name this is the substring test; bin/composite_rsr_plot.py:141-142 *)
  Fixpoint substring_of (s t : string) : bool :=
    prefix s t || match t with EmptyString => false | String _ t' => substring_of s t' end.
  Definition skipped (platform sensor : string) : bool :=
    match dget platform INSTRUMENTS with
    | None => false
    | Some (IOne i) => negb (substring_of sensor i)
    | Some (IList l) => negb (existsb_str sensor l)
    end.
  (** [except IOError]: requests' exceptions are IOErrors *)
  (** bin/composite_rsr_plot.py:145 *)
  Definition is_ioerror (e : exn) : bool :=
    match e with FileNotFoundError | OSError | HTTPError | NetworkError => true | _ => false end.
  (** The variable rsr of the script: unassigned, None or an object *)
  (** bin/composite_rsr_plot.py:139-150 *)
  Inductive variable := Unbound | NoObj | Obj (o : robj).
  (** bin/composite_rsr_plot.py:140-150 *)
  Fixpoint pick (platform : string) (sensors : list string) (v : variable) : res variable :=
    match sensors with
    | [] => Ok v
    | s :: rest =>
        if skipped platform s then pick platform rest v
        else match make platform s with
             | Ok o => Ok (Obj o)
             | Err e => if is_ioerror e then pick platform rest NoObj else Err e
             end
    end.
  (** bin/composite_rsr_plot.py:158-190: the curves of one platform *)
  Definition curves_of (fuel : nat) (a : plot_args) (range : option (N * N)) (o : robj) : out (list curve) :=
    let draw := plot_band (ca_minimum a) (negb (ca_no_name a)) o in
    match text_given (ca_bandname a), number_given (ca_wavelength a) with
    | None, Some w =>
        match get_bandname_from_wavelength (so_instrument o) w (so_rsr o) (nlit N 25 100) true with
        | Err e => Stop (Raise e)
        | Ok BNone | Ok (BName "") => Done []
        | Ok (BName b) => of_res (c <- draw b ;; Ok [c])
        | Ok (BNames l) => of_res (mapM draw l)
        end
    | Some b, _ => of_res (c <- draw b ;; Ok [c])
    | None, None =>
        match range with
        | None => Stop (Raise TypeError)
        | Some (lo, hi) => scan fuel draw o (ca_exclude a) (ca_resolution a) lo hi [] []
        end
    end.
  (** bin/composite_rsr_plot.py:139-190: the curves and something2plot *)
  Fixpoint all_platforms (fuel : nat) (a : plot_args) (range : option (N * N)) (platforms : list string) (v : variable)
           (acc : list curve) (something : bool) : out (list curve * bool) :=
    match platforms with
    | [] => Done (acc, something)
    | p :: rest =>
        match pick p (ca_sensors a) v with
        | Err e => Stop (Raise e)
        | Ok Unbound => Stop NameError
        | Ok NoObj => all_platforms fuel a range rest NoObj acc something
        | Ok (Obj o) =>
            match curves_of fuel a range o with
            | Stop s => Stop s
            | Done cs => all_platforms fuel a range rest (Obj o) (acc ++ cs) true
            end
        end
    end.
  (** '{:>04d}'.format(int(100 * x)) *)
  (** bin/composite_rsr_plot.py:218-221 *)
  Definition pad4 (z : Z) : string :=
    let s := NilZero.string_of_int (Z.to_int z) in
    append (String.concat "" (repeat "0" (4 - String.length s))) s.
  Definition hundredths (x : N) : res string :=
    match ntrunc N (nlit N 100 1 * x) with
    | Some z => Ok (pad4 z)
    | None => if nisnan N (nlit N 100 1 * x) then Err ValueError else Err OverflowError
    end.
  (** bin/composite_rsr_plot.py:214-223 *)
  Definition plot_filename (a : plot_args) (range : option (N * N)) : res string :=
    match text_given (ca_filename a) with
    | Some f => Ok f
    | None =>
        match text_given (ca_bandname a), number_given (ca_wavelength a) with
        | None, Some w => h <- hundredths w ;; Ok ("rsr_band_" ++ h ++ ".png")
        | b, _ =>
            match range with
            | Some (lo, hi) =>
                if negb (lo =? nlit N 0 1) && negb (hi =? nlit N 0 1)
                then h <- hundredths lo ;; h' <- hundredths hi ;; Ok ("rsr_band_" ++ h ++ "_" ++ h' ++ ".png")
                else Ok ("rsr_band_" ++ match b with Some b => b | None => "None" end ++ ".png")
            | None => Ok ("rsr_band_" ++ match b with Some b => b | None => "None" end ++ ".png")
            end
        end
    end.
  (** bin/composite_rsr_plot.py:96-223; [Done None]: nothing to plot, no file *)
  Definition composite (fuel : nat) (a : plot_args) : out (option (list curve * string)) :=
    match (match ca_range a with None => Ok None | Some [lo; hi] => Ok (Some (lo, hi)) | Some _ => Err ValueError end) with
    | Err e => Stop (Raise e)
    | Ok range =>
        match all_platforms fuel a range (ca_platforms a) Unbound [] false with
        | Stop s => Stop s
        | Done (_, false) => Done None
        | Done (cs, true) => of_res (f <- plot_filename a range ;; Ok (Some (cs, f)))
        end
    end.
End Scripts.
Arguments robj : clear implicits.
Arguments curve : clear implicits.
Arguments plot_args : clear implicits.
Arguments variable : clear implicits.
Arguments Done {A}. Arguments Stop {A}.
