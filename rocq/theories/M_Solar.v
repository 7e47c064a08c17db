(** Model of /repo/pyspectral/solar.py (except plot, lines 241-281). *)
From Coq Require Import String List Bool Arith ZArith.
From Verif Require Import Base NumSig M_Tables M_Utils.
Import ListNotations.
Local Open Scope string_scope.

Section Solar.
  Context {N : Num}.
  Local Open Scope num_scope.

  (** scipy.interpolate.InterpolatedUnivariateSpline(x, y): an exception (e.g.
      ValueError unless x is strictly increasing and long enough) or a function.
      Any function of the data; the theorems quantify over it. *)
  Variable spline : list N -> list N -> res (N -> N).

  (** Attributes of a SolarIrradianceSpectrum, solar.py:52-71. *)
  Record spectrum := {
    so_wavelength : option (list N);
    so_wavenumber : option (list N);
    so_irradiance : list N;
    so_wavespace : string;
    so_dlambda : N;
    so_ipol : option (list N * list N) }.    (** ipol_wavelength, ipol_irradiance *)

  (** solar.py:83-94; [None[::-1]] is a TypeError *)
  Definition solar_convert2wavenumber (s : spectrum) : res spectrum :=
    wl <- of_option TypeError (so_wavelength s) ;;
    let wlr := rev wl in
    e1 <- vmul (rev (so_irradiance s)) wlr ;;
    e2 <- vmul e1 wlr ;;
    Ok {| so_wavelength := None;
          so_wavenumber := Some (map (fun w => nlit N 1 1 / (nlit N 1 10000 * w)) wlr);
          so_irradiance := map (fun e => e * nlit N 1 10) e2;
          so_wavespace := so_wavespace s; so_dlambda := so_dlambda s; so_ipol := so_ipol s |}.

  (** solar.py:30-81; [wl] and [irr] are the two columns of the file (lines
      96-99, numpy.genfromtxt).  The constant on line 71 is 1/(0.005*100). *)
  Definition SolarIrradianceSpectrum (wl irr : list N) (dlambda : option N) (wavespace : option string)
    : res spectrum :=
    let ws := match wavespace with Some w => w | None => "wavelength" end in
    let dl := match dlambda with
              | Some d => d
              | None => if String.eqb ws "wavelength" then nlit N 5 1000
                        else nlit N 1 1 / (nlit N 5 1000 * nlit N 100 1)
              end in
    let s := {| so_wavelength := Some wl; so_wavenumber := None; so_irradiance := irr;
                so_wavespace := ws; so_dlambda := dl; so_ipol := None |} in
    if String.eqb ws "wavenumber" then solar_convert2wavenumber s else Ok s.

  (** solar.py:101-108 *)
  Definition solar_constant (s : spectrum) : res N :=
    match so_wavenumber s with
    | Some wn => trapezoid (so_irradiance s) wn
    | None => match so_wavelength s with
              | Some wl => trapezoid (so_irradiance s) wl
              | None => Err TypeError
              end
    end.

  (** [int(round((end - start) / dlambda)) + 1], solar.py:171 and 229:
      NaN gives ValueError, an infinity OverflowError *)
  Definition n_points (start stop dlambda : N) : res Z :=
    let q := (stop - start) / dlambda in
    match nround N q with
    | Some k => Ok (k + 1)%Z
    | None => if nisnan N q then Err ValueError else Err OverflowError
    end.

  (** numpy.linspace(start, stop, num): [num - 1] equal steps, the last point
      being [stop] itself; ValueError for negative [num] *)
  (** numpy.linspace, solar.py:171, 229 *)
  Definition linspace (start stop : N) (num : Z) : res (list N) :=
    if (num <? 0)%Z then Err ValueError
    else if (num =? 0)%Z then Ok []
    else if (num =? 1)%Z then Ok [start + n0 * (stop - start)]
    else
      let div := nZ (num - 1) in
      let delta := stop - start in
      let step := delta / div in
      Ok (map (fun i => let y := nZ (Z.of_nat i) in
                        start + (if step =? n0 then y / div * delta else y * step))
              (seq 0 (Z.to_nat (num - 1)))
          ++ [stop])%list.

  (** numpy.linspace, solar.py:171, 229 *)
  Definition resample_grid (start stop dlambda : N) : res (list N) :=
    n <- n_points start stop dlambda ;; linspace start stop n.

  (** A method call: new state and value or exception *)
  (** attribute assignments of solar.py:193-239 *)
  Definition with_ipol (s : spectrum) (x y : list N) : spectrum :=
    {| so_wavelength := so_wavelength s; so_wavenumber := so_wavenumber s;
       so_irradiance := so_irradiance s; so_wavespace := so_wavespace s;
       so_dlambda := so_dlambda s; so_ipol := Some (x, y) |}.
  Definition with_dlambda (s : spectrum) (d : N) : spectrum :=
    {| so_wavelength := so_wavelength s; so_wavenumber := so_wavenumber s;
       so_irradiance := so_irradiance s; so_wavespace := so_wavespace s;
       so_dlambda := d; so_ipol := so_ipol s |}.

  (** the coordinate used, solar.py:219-225 and 230-235 *)
  Definition coord (s : spectrum) : option (list N) :=
    if String.eqb (so_wavespace s) "wavelength" then so_wavelength s else so_wavenumber s.

  (** solar.py:219-227 *)
  Definition first_last_of (l : list N) : res (N * N) :=
    a <- of_option IndexError (hd_error l) ;; Ok (a, last l a).

  (** solar.py:193-239 *)
  Definition interpolate (s : spectrum) (dlambda : option N) (ival : option (N * N))
    : spectrum * res unit :=
    let s := match dlambda with Some d => with_dlambda s d | None => s end in
    match (' (start, stop) <- (match ival with
                               | Some p => Ok p
                               | None => l <- of_option TypeError (coord s) ;; first_last_of l
                               end) ;;
           xspl <- resample_grid start stop (so_dlambda s) ;;
           x <- of_option ValueError (coord s) ;;
           ius <- spline x (so_irradiance s) ;;
           Ok (xspl, map ius xspl)) with
    | Ok (x, y) => (with_ipol s x y, Ok tt)
    | Err e => (s, Err e)
    end.

  (** The [rsr] argument: a detector dictionary, or a dictionary of detectors. *)
  (** the rsr argument of solar.py:131-191 *)
  Inductive rsrarg := FlatRsr (d : detector N) | NestedRsr (b : band N).

  (** solar.py:147-164: the response curve.  A dictionary of detectors that has
      a detector called 'response' would be taken for a single detector. *)
  Definition rsr_curve (s : spectrum) (rsr : rsrarg) (det : string) (scale : N) : res (list N * list N) :=
    let key := if String.eqb (so_wavespace s) "wavelength" then "wavelength" else "wavenumber" in
    d <- (match rsr with
          | FlatRsr d => if dhas "response" d then Ok d else Err KeyError
          | NestedRsr b =>
              if dhas "response" b
              then (if dhas key b then Err TypeError else Err KeyError)
              else of_option KeyError (dget det b)
          end) ;;
    w <- get_arr key d ;;
    r <- get_arr "response" d ;;
    Ok (map (fun x => x * scale) w, r).

  (** [np.repeat(a, mask)] with a boolean mask *)
  (** solar.py:181-184 *)
  Fixpoint keep {A} (mask : list bool) (l : list A) : list A :=
    match mask, l with
    | b :: m, x :: t => if b then x :: keep m t else keep m t
    | _, _ => []
    end.

  (** solar.py:131-191 *)
  Definition band_calculations (s : spectrum) (rsr : rsrarg) (flux : bool) (scale : N) (det : string)
    : spectrum * res N :=
    match (' (wvl, resp) <- rsr_curve s rsr det scale ;;
           ' (start, stop) <- first_last_of wvl ;;
           xspl <- resample_grid start stop (so_dlambda s) ;;
           ius <- spline wvl resp ;;
           Ok (start, stop, map ius xspl)) with
    | Err e => (s, Err e)
    | Ok (start, stop, resp_ipol) =>
        let (s', r) := interpolate s (Some (so_dlambda s)) (Some (start, stop)) in
        (s',
         _ <- r ;;
         ' (gx, gy) <- of_option TypeError (so_ipol s') ;;
         let maskidx := map (fun x => (start <=? x) && (x <=? stop))%bool gx in
         let wvl := keep maskidx gx in
         let irr := keep maskidx gy in
         p <- vmul irr resp_ipol ;;
         f <- trapezoid p wvl ;;
         if flux then Ok f
         else
           w <- trapezoid resp_ipol wvl ;;
           Ok (f / w))
    end.

  (** solar.py:110-129 *)
  Definition inband_solarflux (s : spectrum) rsr scale det := band_calculations s rsr true scale det.
  Definition inband_solarirradiance (s : spectrum) rsr scale det := band_calculations s rsr false scale det.
End Solar.
Arguments spectrum : clear implicits.
Arguments rsrarg : clear implicits.
