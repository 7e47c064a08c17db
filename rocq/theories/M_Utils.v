(** Model of the pure functions of /repo/pyspectral/utils.py. *)
From Coq Require Import String Ascii List Bool Arith ZArith.
From Verif Require Import Base NumSig M_Tables.
Import ListNotations.

(** ** Response data *)
Section Data.
  Context {N : Num}.

  (** A value of a detector dictionary: an array, a number, or (as
      utils.py:207 allows for 'response') a dictionary of arrays. *)
  Inductive pyval : Type :=
  | VArr (l : list N)
  | VNum (x : N)
  | VDict (d : dict (list N)).

  (** [d[key]] followed by use as an array / as a number *)
  (** item accesses, e.g. utils.py:204-214, 553-572 *)
  Definition get_arr (key : string) (d : dict pyval) : res (list N) :=
    match dget key d with
    | None => Err KeyError
    | Some (VArr l) => Ok l
    | Some _ => Err TypeError
    end.
  Definition get_num (key : string) (d : dict pyval) : res N :=
    match dget key d with
    | None => Err KeyError
    | Some (VNum x) => Ok x
    | Some _ => Err TypeError
    end.
End Data.
Arguments pyval : clear implicits.

(** A detector is a dictionary of such values, a band a dictionary of detectors
    ('det-1', ...), the response data a dictionary of bands. *)
Notation detector N := (dict (pyval N)).
Notation band N := (dict (detector N)).
Notation rsrdata N := (dict (band N)).

Section Utils.
  Context {N : Num}.
  Local Open Scope num_scope.

  (** utils.py:200: [1. / (1e-4 * wavelength)], one element *)
  Definition wl2wn (w : N) : N := nlit N 1 1 / (nlit N 1 10000 * w).

  (** utils.py:197-201.  The dictionary being filled is threaded through. *)
  Definition wavelength2wavenumber (det_rsr : detector N) (key : string) (acc : detector N)
    : res (detector N) :=
    if String.eqb key "wavelength" then
      wl <- get_arr key det_rsr ;;
      Ok (dset "wavenumber" (VArr (rev (map wl2wn wl))) acc)
    else Ok acc.

  (** utils.py:204-214 *)
  Definition collect_responses (det_rsr : detector N) (key : string) (acc : detector N)
    : res (detector N) :=
    if String.eqb key "response" then
      match dget key det_rsr with
      | None => Err KeyError
      | Some (VDict d) =>
          Ok (dset key (VDict (fold_left (fun a nm => match dget nm d with
                                                      | Some r => dset nm (rev r) a
                                                      | None => a
                                                      end) (dkeys d) [])) acc)
      | Some (VArr r) => Ok (dset key (VArr (rev r)) acc)
      | Some (VNum _) => Err TypeError
      end
    else Ok acc.

  (** utils.py:188-194 *)
  Definition detector2wavenumber (det_rsr : detector N) : res (detector N) :=
    fold_left (fun acc key =>
                 a <- acc ;;
                 a <- wavelength2wavenumber det_rsr key a ;;
                 collect_responses det_rsr key a)
              (dkeys det_rsr) (Ok []).

  (** utils.py:175-185 *)
  Definition band2wavenumber (ch_rsr : band N) : res (band N) :=
    fold_left (fun acc det =>
                 a <- acc ;;
                 d <- of_option KeyError (dget det ch_rsr) ;;
                 if dhas "wavenumber" d then Ok (dset det d a)
                 else d' <- detector2wavenumber d ;; Ok (dset det d' a))
              (dkeys ch_rsr) (Ok []).

  (** utils.py:153-172: returns the new dictionary, the unit and the SI scale.
      [rsr[chname]] with [chname] one of its keys is the plain dictionary entry
      also for the RSRDict class. *)
  Definition convert2wavenumber (rsr : rsrdata N) : res (rsrdata N * (string * N)) :=
    retv <- fold_left (fun acc chname =>
                 a <- acc ;;
                 b <- of_option KeyError (dget chname rsr) ;;
                 b' <- band2wavenumber b ;;
                 Ok (dset chname b' a))
              (dkeys rsr) (Ok []) ;;
    Ok (retv, ("cm-1"%string, nlit N 100 1)).

  (** The [weight] argument of get_central_wave: a number or an array. *)
  (** the argument of utils.py:217-236 *)
  Inductive weight := WScalar (x : N) | WArray (l : list N).
  Definition wmul (l : list N) (w : weight) : res (list N) :=
    match w with
    | WScalar x => Ok (map (fun a => a * x) l)
    | WArray ws => vmul l ws
    end.

  (** utils.py:217-236 *)
  Definition get_central_wave (wav resp : list N) (w : weight) : res N :=
    rw <- vmul resp wav ;;
    rww <- wmul rw w ;;
    num <- trapezoid rww wav ;;
    r2 <- wmul resp w ;;
    den <- trapezoid r2 wav ;;
    Ok (num / den).

  (** Result of get_bandname_from_wavelength: None, a name, or a list of names. *)
  (** the result of utils.py:239-257 *)
  Inductive bandres := BNone | BName (b : string) | BNames (l : list string).

  (** utils.py:239-257; [sensor] as used in BANDNAMES.get *)
  Definition get_bandname_from_wavelength (sensor : string) (wavelength : N) (rsr : rsrdata N)
             (epsilon : N) (multiple_bands : bool) : res bandres :=
    chfound <- fold_left (fun acc channel =>
        found <- acc ;;
        b <- of_option KeyError (dget channel rsr) ;;
        d <- of_option KeyError (dget "det-1" b) ;;
        cw <- get_num "central_wavelength" d ;;
        let chdist := nabs (cw - wavelength) in
        if (chdist <? nlit N 2 1) && (chdist <? epsilon)
        then Ok (found ++ [translate_band sensor channel])%list
        else Ok found) (dkeys rsr) (Ok []) ;;
    match chfound with
    | [b] => Ok (BName b)
    | [] => Ok BNone
    | l => if multiple_bands then Ok (BNames l) else Err AttributeError
    end.

  (** ** sort_data, utils.py:260-277 *)

  (** [a[idxs]]: fancy indexing *)
  (** utils.py:265-266 *)
  Definition take_idx {A} (a : list A) (idxs : list nat) : res (list A) :=
    mapM (fun i => of_option IndexError (nth_error a i)) idxs.

  (** [np.diff(x) > 0] *)
  (** utils.py:269 *)
  Fixpoint increases (x : list N) : list bool :=
    match x with
    | a :: ((b :: _) as t) => (n0 <? (b - a)) :: increases t
    | _ => []
    end.

  (** [a[mask]]: boolean indexing (IndexError if lengths differ) *)
  (** utils.py:274-275 *)
  Fixpoint select {A} (a : list A) (mask : list bool) : res (list A) :=
    match a, mask with
    | [], [] => Ok []
    | x :: t, b :: m => r <- select t m ;; Ok (if b then x :: r else r)
    | _, _ => Err IndexError
    end.

  (** [idxs] is what [np.argsort(x_vals)] returned: numpy does not promise a
      stable sort, so the model takes the permutation as an argument. *)
  (** utils.py:260-277 *)
  Definition sort_data (idxs : list nat) (x_vals y_vals : list N) : res (list N * list N) :=
    x <- take_idx x_vals idxs ;;
    y <- take_idx y_vals idxs ;;
    let mask := true :: increases x in
    x' <- select x mask ;;
    y' <- select y mask ;;
    Ok (x', y').

  (** ** Band width measures *)

  (** [np.where(cond)[0]] *)
  (** utils.py:526, 547-548 *)
  Fixpoint where_from (k : nat) (p : N -> bool) (l : list N) : list nat :=
    match l with
    | [] => []
    | x :: t => if p x then k :: where_from (S k) p t else where_from (S k) p t
    end.
  Definition where_ (p : N -> bool) (l : list N) : list nat := where_from 0 p l.

  (** utils.py:526, 547-548 *)
  Definition idx {A} (l : list A) (i : nat) : res A := of_option IndexError (nth_error l i).

  (** utils.py:519-531 *)
  Definition get_fullwidth_halfmax (rsp wvl : list N) : res N :=
    let half_max := nlit N 5 10 in
    let indices := where_ (fun r => half_max <=? r) rsp in
    match indices with
    | [] | [_] => Err ValueError
    | i0 :: rest =>
        hi <- idx wvl (last rest i0) ;;
        lo <- idx wvl i0 ;;
        Ok (hi - lo)
    end.

  (** [np.cumsum] *)
  (** utils.py:545 *)
  Fixpoint cumsum_from (acc : N) (l : list N) : list N :=
    match l with
    | [] => []
    | x :: t => (acc + x) :: cumsum_from (acc + x) t
    end.
  Definition cumsum (l : list N) : list N :=
    match l with [] => [] | x :: t => x :: cumsum_from x t end.

  (** [np.max] (ValueError on an empty array, NaN if any is NaN) *)
  (** utils.py:546 *)
  Definition np_max (l : list N) : res N :=
    match l with [] => Err ValueError | x :: t => Ok (fold_left nmax t x) end.

  (** utils.py:534-550 *)
  Definition get_bounds_integrated_energy (rsp wvl : list N) (ener_perc_lim : N) : res (N * N) :=
    let crs := cumsum rsp in
    m <- np_max crs ;;
    let crs := map (fun c => c / m * nlit N 100 1) crs in
    let mini := where_ (fun c => ener_perc_lim <=? c) crs in
    let maxi := where_ (fun c => c <=? (nlit N 100 1 - ener_perc_lim)) crs in
    wmin <- take_idx wvl mini ;;
    lo <- of_option IndexError (hd_error wmin) ;;
    wmax <- take_idx wvl maxi ;;
    hi <- of_option IndexError (match wmax with [] => None | a :: t => Some (last t a) end) ;;
    Ok (lo, hi).

  (** utils.py:553-572: [min, central, max] *)
  Definition get_wave_range (in_chan : detector N) (threshold : N) : res (N * N * N) :=
    wvls <- get_arr "wavelength" in_chan ;;
    rsr <- get_arr "response" in_chan ;;
    cwl <- get_central_wave wvls rsr (WScalar n1) ;;
    let pts := where_ (fun r => threshold <? r) rsr in
    match pts with
    | [] => Err IndexError
    | i0 :: rest =>
        lo <- idx wvls i0 ;;
        hi <- idx wvls (last rest i0) ;;
        Ok (lo, cwl, hi)
    end.
End Utils.
Arguments weight : clear implicits.

(** ** Text conversion *)

(** Well-formed UTF-8 (RFC 3629), i.e. what [bytes.decode("utf-8")] accepts. *)
(** bytes.decode, utils.py:618 *)
Definition byte_in (lo hi : nat) (c : ascii) : bool :=
  let n := nat_of_ascii c in (lo <=? n)%nat && (n <=? hi)%nat.
Fixpoint utf8_valid (s : string) : bool :=
  match s with
  | EmptyString => true
  | String c t =>
      if byte_in 0 127 c then utf8_valid t else
      if byte_in 194 223 c then
        match t with String c1 t1 => byte_in 128 191 c1 && utf8_valid t1 | _ => false end else
      if byte_in 224 239 c then
        match t with
        | String c1 (String c2 t2) =>
            (if byte_in 224 224 c then byte_in 160 191 c1
             else if byte_in 237 237 c then byte_in 128 159 c1 else byte_in 128 191 c1)
            && byte_in 128 191 c2 && utf8_valid t2
        | _ => false end else
      if byte_in 240 244 c then
        match t with
        | String c1 (String c2 (String c3 t3)) =>
            (if byte_in 240 240 c then byte_in 144 191 c1
             else if byte_in 244 244 c then byte_in 128 143 c1 else byte_in 128 191 c1)
            && byte_in 128 191 c2 && byte_in 128 191 c3 && utf8_valid t3
        | _ => false end
      else false
  end.

(** Values handed to convert2str.  A Python [str] is represented by its UTF-8
    bytes; numpy scalars np.str_/np.bytes_ are subclasses of str/bytes. *)
(** the argument of utils.py:575-619 *)
Inductive textval :=
| TStr (s : string)
| TBytes (b : string)
| TStrArray (l : list string)             (** dtype str *)
| TBytesArray (l : list string)           (** dtype bytes *)
| TObjArray (l : list textval)            (** dtype object *)
| TOtherArray                             (** any other dtype *)
| TOther.                                 (** no dtype: None, int, list, ... *)

(** [value.decode()] *)
(** bytes.decode, utils.py:618 *)
Definition decode (b : string) : res textval :=
  if utf8_valid b then Ok (TStr b) else Err UnicodeDecodeError.

(** utils.py:615-619 *)
Definition bytes2string (v : textval) : res textval :=
  match v with TBytes b => decode b | _ => Ok v end.

(** utils.py:586-612; an object array's single item that is neither str nor
    bytes has no [decode] *)
Definition np2str (v : textval) : res textval :=
  match v with
  | TStr s => Ok (TStr s)
  | TStrArray [s] => Ok (TStr s)
  | TBytesArray [b] => decode b
  | TObjArray [TStr s] => Ok (TStr s)
  | TObjArray [TBytes b] => decode b
  | TObjArray [_] => Err AttributeError
  | _ => Err ValueError
  end.

(** utils.py:575-583 *)
Definition convert2str (v : textval) : res textval :=
  v' <- bytes2string v ;; np2str v'.

(** ** Instrument names *)

(** A name argument: a str or anything else. *)
(** the arguments of utils.py:654-668 *)
Inductive nameval := NmStr (s : string) | NmOther.

(** utils.py:654-668 *)
Definition are_instruments_identical (name1 name2 : nameval) : res bool :=
  match name1, name2 with
  | NmStr a, NmStr b =>
      if String.eqb a b then Ok true
      else match dget b DASH2SLASH with
           | Some c => Ok (String.eqb a c)
           | None => Ok false
           end
  | _, _ => Err ValueError
  end.

(** the same on strings *)
(** the arguments of utils.py:654-668 *)
Definition instr_identical (a b : string) : bool :=
  match are_instruments_identical (NmStr a) (NmStr b) with Ok r => r | Err _ => false end.

(** utils.py:622-627; [instruments[0]] *)
Definition replace_inst_name (i : instr_entry) : res string :=
  match i with
  | IOne s => Ok s
  | IList (s :: _) => Ok s
  | IList [] => Err IndexError
  end.

(** utils.py:630-651.  The loop over a list with break on the first match is
    [existsb]; an empty list (not in the table) would be an unbound local,
    modelled by the IndexError of replace_inst_name. *)
Definition check_and_adjust_instrument_name (platform_name instrument : string) : res string :=
  let instr := match dget platform_name INSTRUMENTS with
               | Some i => i | None => IOne (lower instrument) end in
  let goodinst := match instr with
                  | IList l => existsb (fun i => instr_identical i (lower instrument)) l
                  | IOne i => instr_identical i (lower instrument)
                  end in
  instrument' <- (if goodinst then Ok instrument else replace_inst_name instr) ;;
  Ok (remove_char "-" (remove_char "/" (lower instrument'))).

(** ** Aerosol types, utils.py:418-428 *)

(** The deprecated argument: a single value or a list/tuple/set of values. *)
(** utils.py:418-428 *)
Inductive atype_arg := AOne (s : string) | AMany (l : list string).

(** utils.py:418-428 *)
Definition get_aerosol_types (aerosol_types : option (list string)) (aerosol_type : option atype_arg)
  : list string :=
  match aerosol_type with
  | Some (AMany l) => l
  | Some (AOne s) => [s]
  | None => match aerosol_types with
            | Some l => l
            | None => dkeys HTTPS_RAYLEIGH_LUTS
            end
  end.
