(** Model of /repo/pyspectral/blackbody.py and of the decorator
    [use_map_blocks_on] of /repo/pyspectral/utils.py. *)
From Coq Require Import ZArith String List Bool.
From Verif Require Import Base NumSig.
Import ListNotations.

Section Blackbody.
  Context {N : Num}.
  Local Open Scope num_scope.

  (** blackbody.py:16 *)
  Definition H_PLANCK : N := nlit N 662606957 100000000 * nlit N 1 (10 ^ 34).
  (** blackbody.py:17 *)
  Definition K_BOLTZMANN : N := nlit N 13806488 10000000 * nlit N 1 (10 ^ 23).
  (** blackbody.py:18 *)
  Definition C_SPEED : N := nlit N 299792458 100000000 * nlit N 100000000 1.
  (** blackbody.py:20 *)
  Definition PLANCK_C1 : N := H_PLANCK * C_SPEED / K_BOLTZMANN.
  (** blackbody.py:21 *)
  Definition PLANCK_C2 : N := nZ 2 * H_PLANCK * npow C_SPEED 2.
  (** blackbody.py:23 *)
  Definition BB_EPSILON : N := nlit N 1 1000000.

  (** blackbody.py:26-42, one element of [radiance].  The dtype cast of the
      wavelength (lines 38-40) only affects rounding and is dropped; that a
      value without dtype fails there is modelled in [rad2temp_body]. *)
  Definition rad2temp (wavelength radiance : N) : N :=
    PLANCK_C1 / (wavelength * nlog N (PLANCK_C2 / (radiance * npow wavelength 5) + nZ 1)).

  (** blackbody.py:45-58, one element of [radiance]. *)
  Definition wn_rad2temp (wavenumber radiance : N) : N :=
    PLANCK_C1 * wavenumber / nlog N ((PLANCK_C2 * npow wavenumber 3) / radiance + nZ 1).

  (** blackbody.py:86-91: numerator, per wave *)
  Definition planck_nom (wavelength : bool) (wave : N) : N :=
    if wavelength then PLANCK_C2 / npow wave 5 else PLANCK_C2 * npow wave 3.
  (** blackbody.py:88, 91: first factor of the exponent, per wave *)
  Definition planck_arg1 (wavelength : bool) (wave : N) : N :=
    if wavelength then PLANCK_C1 / wave else PLANCK_C1 * wave.
  (** blackbody.py:93-97: reciprocal temperature, NaN near zero, per temperature *)
  Definition planck_arg2 (temperature : N) : N :=
    if BB_EPSILON <? nabs temperature then nZ 1 / temperature else nnan N.

  (** blackbody.py:61-126 on arrays: [temperature] is flattened to a column
      (reshape(-1, 1), line 97) and broadcast against the row of waves; logging
      and the re-raised MemoryError are not modelled. *)
  Definition planck (waves temperatures : list N) (wavelength : bool) : list (list N) :=
    let nom := map (planck_nom wavelength) waves in
    let arg1 := map (planck_arg1 wavelength) waves in
    let arg2 := map planck_arg2 temperatures in
    map (fun t =>
           map (fun p => fst p / (nexp N (snd p * t) - nZ 1)) (combine nom arg1)) arg2.

  (** blackbody.py:99-104: on numpy arrays the logged [nanmax]/[nanmin] raise
      ValueError when there is no wave or no temperature. *)
  Definition planck_np (waves temperatures : list N) (wavelength : bool) : res (list (list N)) :=
    match waves, temperatures with
    | [], _ | _, [] => Err ValueError
    | _, _ => Ok (planck waves temperatures wavelength)
    end.

  (** blackbody.py:129-145 *)
  Definition blackbody_wn (wavenumbers temperatures : list N) : list (list N) :=
    planck wavenumbers temperatures false.
  (** blackbody.py:148-160 *)
  Definition blackbody (wavelengths temperatures : list N) : list (list N) :=
    planck wavelengths temperatures true.

  (** One entry of the table: the expression of blackbody.py:86-126 for a single
      wave and temperature. *)
  Definition planck1 (wavelength : bool) (wave temperature : N) : N :=
    planck_nom wavelength wave /
    (nexp N (planck_arg1 wavelength wave * planck_arg2 temperature) - nZ 1).

  (** A numpy array with its shape (row-major data). *)
  (** the arrays of blackbody.py:95-126 *)
  Record ndarray := { nd_shape : list nat; nd_data : list N }.

  (** blackbody.py:95-126 with shapes: whatever the shape of the temperatures,
      the result has shape (size, number of waves). *)
  Definition planck_nd (waves : list N) (temperatures : ndarray) (wavelength : bool) : ndarray :=
    {| nd_shape := [length (nd_data temperatures); length waves];
       nd_data := concat (planck waves (nd_data temperatures) wavelength) |}.
End Blackbody.

(** ** utils.py:671-700: the decorator *)

(** What a positional argument can be, as far as the decorator can tell. *)
(** what utils.py:671-700 tells apart *)
Inductive arg (A : Type) : Type :=
| PyNone
| PyFloat (x : A)                    (** Python float: no dtype, no chunks *)
| NpScalar (x : A)                   (** numpy scalar: has dtype, no chunks *)
| NpArray (l : list A)
| DaskArray (chunks : list (list A))
| XrNumpy (attrs : string) (l : list A)            (** DataArray over numpy: chunks is None *)
| XrDask (attrs : string) (chunks : list (list A)) (** DataArray over dask *)
| OtherChunked (l : list A).         (** any other object with a chunks attribute *)
Arguments PyNone {A}. Arguments PyFloat {A}. Arguments NpScalar {A}.
Arguments NpArray {A}. Arguments DaskArray {A}. Arguments XrNumpy {A}.
Arguments XrDask {A}. Arguments OtherChunked {A}.

(** arguments of the calls in utils.py:671-700 *)
Fixpoint replace_nth {A} (i : nat) (x : A) (l : list A) : list A :=
  match l, i with
  | [], _ => []
  | _ :: t, O => x :: t
  | h :: t, S i' => h :: replace_nth i' x t
  end.

(** Values held by an argument, in order. *)
(** arguments of the calls in utils.py:671-700 *)
Definition arg_values {A} (a : arg A) : list A :=
  match a with
  | PyNone => []
  | PyFloat x | NpScalar x => [x]
  | NpArray l | XrNumpy _ l | OtherChunked l => l
  | DaskArray c | XrDask _ c => concat c
  end.

(** [da.map_blocks(f, *args)] where argument [i] is chunked: [f] is called on
    each block (a numpy array) with the other arguments unchanged; the result
    is chunked alike.  (dask itself is trusted to do exactly this.) *)
(** da.map_blocks as called in utils.py:671-700 *)
Definition map_blocks {A} (f : list (arg A) -> res (arg A)) (i : nat)
           (chunks : list (list A)) (args : list (arg A)) : res (list (list A)) :=
  mapM (fun c => r <- f (replace_nth i (NpArray c) args) ;; Ok (arg_values r)) chunks.

(** utils.py:680-699: the wrapper around [f]; [i] is the position of the named
    argument in [f]'s signature; only positional arguments are in [args]. *)
Definition use_map_blocks_on {A} (i : nat) (f : list (arg A) -> res (arg A))
           (args : list (arg A)) : res (arg A) :=
  match nth_error args i with
  | None => Err IndexError                                    (* line 682 *)
  | Some a =>
      match a with
      | DaskArray c =>                                        (* lines 688-689 *)
          r <- map_blocks f i c args ;; Ok (DaskArray r)
      | XrDask attrs c =>                                     (* lines 690-696 *)
          r <- map_blocks f i c (replace_nth i (DaskArray c) args) ;; Ok (XrDask attrs r)
      | OtherChunked _ => Err NotImplementedError             (* lines 697-698 *)
      | _ => f args                                           (* lines 684-685 *)
      end
  end.

Section Decorated.
  Context {N : Num}.

  (** the wavelength of blackbody.py:26-58, a number *)
  Definition arg_scalar (a : arg N) : res N :=
    match a with
    | PyFloat x | NpScalar x => Ok x
    | _ => Err TypeError
    end.

  (** Undecorated blackbody.py:27-42 on an argument list (wavelength, radiance):
      line 38 reads [radiance.dtype], which a Python float or None lacks. *)
  Definition rad2temp_body (args : list (arg N)) : res (arg N) :=
    match args with
    | [w; r] =>
        wl <- arg_scalar w ;;
        match r with
        | PyNone | PyFloat _ => Err AttributeError
        | NpScalar x => Ok (NpScalar (rad2temp wl x))
        | NpArray l => Ok (NpArray (map (rad2temp wl) l))
        | XrNumpy a l => Ok (XrNumpy a (map (rad2temp wl) l))
        | DaskArray c => Ok (DaskArray (map (map (rad2temp wl)) c))
        | XrDask a c => Ok (XrDask a (map (map (rad2temp wl)) c))
        | OtherChunked _ => Err TypeError
        end
    | _ => Err TypeError
    end.

  (** Undecorated blackbody.py:46-58; no dtype is read, so Python floats work
      (the numpy log returns a numpy scalar) except that dividing a Python float
      by a Python zero raises; None fails in the division. *)
  Definition wn_rad2temp_body (args : list (arg N)) : res (arg N) :=
    match args with
    | [w; r] =>
        wn <- arg_scalar w ;;
        match r with
        | PyNone => Err TypeError
        | PyFloat x =>
            match w with
            | PyFloat _ => if neqb N x n0 then Err ZeroDivisionError
                           else Ok (NpScalar (wn_rad2temp wn x))
            | _ => Ok (NpScalar (wn_rad2temp wn x))
            end
        | NpScalar x => Ok (NpScalar (wn_rad2temp wn x))
        | NpArray l => Ok (NpArray (map (wn_rad2temp wn) l))
        | XrNumpy a l => Ok (XrNumpy a (map (wn_rad2temp wn) l))
        | DaskArray c => Ok (DaskArray (map (map (wn_rad2temp wn)) c))
        | XrDask a c => Ok (XrDask a (map (map (wn_rad2temp wn)) c))
        | OtherChunked _ => Err TypeError
        end
    | _ => Err TypeError
    end.

  (** blackbody.py:26-42 and 45-58 as the caller sees them. *)
  Definition blackbody_rad2temp : list (arg N) -> res (arg N) :=
    use_map_blocks_on 1 rad2temp_body.
  Definition blackbody_wn_rad2temp : list (arg N) -> res (arg N) :=
    use_map_blocks_on 1 wn_rad2temp_body.
End Decorated.
