(** Model of /repo/pyspectral/rayleigh.py:34-56 and 143-336, the Rayleigh
    correction itself.  Construction is in M_Download. *)
From Coq Require Import String Ascii List Bool Arith ZArith.
From Verif Require Import Base NumSig M_Tables M_Utils M_Rsr M_RadTb M_Nir.
Import ListNotations.
Local Open Scope string_scope.

(** ** numpy helpers *)
Section Helpers.
  Context {N : Num}.
  Local Open Scope num_scope.

  (** [a.min()], [a.max()]: NaN wins; ValueError on an empty array *)
  (** rayleigh.py:302 *)
  Definition amin (l : list N) : res N := match l with [] => Err ValueError | x :: t => Ok (fold_left nmin t x) end.
  Definition amax (l : list N) : res N := match l with [] => Err ValueError | x :: t => Ok (fold_left nmax t x) end.

  (** numpy's order for sorting and searching: NaN is the largest *)
  (** numpy.searchsorted, rayleigh.py:311 *)
  Definition np_lt (a b : N) : bool := (a <? b) || (nisnan N b && negb (nisnan N a)).
  (** np.searchsorted(l, v): numpy's bisection between [lo] and [hi] *)
  (** numpy.searchsorted, rayleigh.py:311 *)
  Fixpoint bisect (fuel : nat) (l : list N) (v : N) (lo hi : nat) : nat :=
    match fuel with
    | O => lo
    | S fuel =>
        if Nat.ltb lo hi then
          let mid := (lo + Nat.div2 (hi - lo))%nat in
          match nth_error l mid with
          | Some x => if np_lt x v then bisect fuel l v (S mid) hi else bisect fuel l v lo mid
          | None => lo
          end
        else lo
    end.
  Definition searchsorted (l : list N) (v : N) : nat := bisect (S (length l)) l v 0 (length l).

  (** [l[z]] with Python's negative indices *)
  (** rayleigh.py:304-306 *)
  Definition pyidx {A} (l : list A) (z : Z) : res A :=
    if (z <? 0)%Z
    then (if (z + Z.of_nat (length l) <? 0)%Z then Err IndexError else idx l (Z.to_nat (z + Z.of_nat (length l))))
    else idx l (Z.to_nat z).
End Helpers.

Section Rayleigh.
  Context {N : Num}.
  Local Open Scope num_scope.

  (** The five datasets of a look-up table file; [rl_refl] has for each
      wavelength the values for (sun secant, azimuth, satellite secant) in
      row-major order. *)
  (** rayleigh.py:318-336 *)
  Record raylut := {
    rl_wavelengths : list N; rl_azid : list N; rl_satz : list N; rl_sunz : list N; rl_refl : list (list N) }.

  (** rayleigh.py:44-56 *)
  Definition clip_angle (zenith_angle zenith_secant_max : N) : N :=
    let clip := nan_to_num (rad2deg (nacos N (nlit N 1 1 / zenith_secant_max))) in
    let zang := nan_to_num zenith_angle in
    nclip zang n0 clip.

  (** rayleigh.py:310-315 *)
  Definition get_wavelength_index_and_factor (wvl_coord : list N) (wvl : N) : res (nat * N) :=
    let i := searchsorted wvl_coord wvl in
    wvl1 <- pyidx wvl_coord (Z.of_nat i - 1) ;;
    wvl2 <- idx wvl_coord i ;;
    Ok (i, (wvl2 - wvl) / (wvl2 - wvl1)).

  (** rayleigh.py:294-307; [lut] is the content of the file, None if there is no
      file.  (h5py's error for a row that is missing in the file is taken as
      IndexError.) *)
  Definition wavelength_adjusted_lut (lut : option raylut) (wvl : N) : res (list N) :=
    match lut with
    | None => Err FileNotFoundError
    | Some l =>
        lo <- amin (rl_wavelengths l) ;;
        hi <- amax (rl_wavelengths l) ;;
        if negb ((lo <? wvl) && (wvl <? hi)) then Err ValueError
        else
          ' (i, f) <- get_wavelength_index_and_factor (rl_wavelengths l) wvl ;;
          a <- pyidx (rl_refl l) (Z.of_nat i - 1) ;;
          b <- idx (rl_refl l) i ;;
          if Nat.eqb (length a) (length b)
          then Ok (zip_with (fun x y => f * x + (nlit N 1 1 - f) * y) a b) else Err ValueError
    end.

  (** ** geotiepoints' MultilinearInterpolator in three dimensions.
      (C code, not in /repo; written out from its published source.)  One axis:
      the cell and the position in it.  A C cast of a number that does not fit is
      whatever [oob] says. *)
  (** called in rayleigh.py:196-202 *)
  Definition in_int32 (z : Z) : bool := (- 2 ^ 31 <=? z)%Z && (z <? 2 ^ 31)%Z.
  Definition axis_cell (oob : N -> Z) (smin smax : N) (order : nat) (s : N) : nat * N :=
    let sn := (s - smin) / (smax - smin) in
    let t := sn * nZ (Z.of_nat order - 1) in
    let c := match ntrunc N t with Some z => if in_int32 z then z else oob t | None => oob t end in
    let q := Z.max (Z.min c (Z.of_nat order - 2)) 0 in
    (Z.to_nat q, t - nZ q).

  (** The values at the corners of the cell; an index outside the array (too few
      values, or an axis with one node) is an out-of-bounds read in C; here
      IndexError. *)
  (** called in rayleigh.py:196-202 *)
  Definition interp3 (v : nat -> nat -> nat -> res N) (l0 l1 l2 : N) : res N :=
    v000 <- v 0 0 0 ;; v001 <- v 0 0 1 ;; v010 <- v 0 1 0 ;; v011 <- v 0 1 1 ;;
    v100 <- v 1 0 0 ;; v101 <- v 1 0 1 ;; v110 <- v 1 1 0 ;; v111 <- v 1 1 1 ;;
    let w l := nlit N 1 1 - l in
    Ok (w l0 * (w l1 * (w l2 * v000 + l2 * v001) + l1 * (w l2 * v010 + l2 * v011)) +
        l0 * (w l1 * (w l2 * v100 + l2 * v101) + l1 * (w l2 * v110 + l2 * v111))).
  Definition minterp (oob : N -> Z) (smin smax : N * N * N) (orders : nat * nat * nat) (V : list N) (p : N * N * N) : res N :=
    let '(m0, m1, m2) := smin in let '(M0, M1, M2) := smax in
    let '(o0, o1, o2) := orders in let '(s0, s1, s2) := p in
    let (q0, l0) := axis_cell oob m0 M0 o0 s0 in
    let (q1, l1) := axis_cell oob m1 M1 o1 s1 in
    let (q2, l2) := axis_cell oob m2 M2 o2 s2 in
    interp3 (fun i j k => idx V (o1 * o2 * (q0 + i) + o2 * (q1 + j) + (q2 + k))%nat) l0 l1 l2.

  (** [a[0]], [a[-1]] *)
  (** rayleigh.py:193-195 *)
  Definition first (l : list N) : res N := idx l 0.
  Definition lastof (l : list N) : res N := pyidx l (-1).

  (** [1. / np.cos(np.deg2rad(angle))] *)
  (** rayleigh.py:187-191 *)
  Definition secant (z : N) : N := nlit N 1 1 / ncos N (deg2rad z).

  (** rayleigh.py:178-203 on float arrays *)
  Definition interp_by_angles (oob : N -> Z) (lut : raylut) (refl : list N) (sun sat azidiff : list N) : res (list N) :=
    sunmax <- amax (rl_sunz lut) ;;
    satmax <- amax (rl_satz lut) ;;
    let sunzsec := map (fun z => secant (clip_angle z sunmax)) sun in
    let satzsec := map (fun z => secant (clip_angle z satmax)) sat in
    s0 <- first (rl_sunz lut) ;; a0 <- first (rl_azid lut) ;; t0 <- first (rl_satz lut) ;;
    s1 <- lastof (rl_sunz lut) ;; a1 <- lastof (rl_azid lut) ;; t1 <- lastof (rl_satz lut) ;;
    if negb (Nat.eqb (length sun) (length azidiff) && Nat.eqb (length sun) (length sat)) then Err ValueError   (* np.vstack *)
    else
      mapM (fun p => r <- minterp oob (s0, a0, t0) (s1, a1, t1) (length (rl_sunz lut), length (rl_azid lut), length (rl_satz lut)) refl
                                  (fst (fst p), nlit N 180 1 - snd (fst p), snd p) ;;
                     Ok (r * nlit N 100 1))
           (combine (combine sunzsec azidiff) satzsec).

  (** ** Rayleigh.get_reflectance *)

  (** the classes of exception that are OSErrors (requests' are) *)
  (** rayleigh.py:281 *)
  Definition is_oserror (e : exn) : bool :=
    match e with OSError | FileNotFoundError | HTTPError | NetworkError => true | _ => false end.

  (** rayleigh.py:278-291; [load] stands for RelativeSpectralResponse(platform,
      sensor) as in M_RadTb *)
  Definition rsr_wavelength_from_band_name (load : string -> string -> res (rsr_state N)) (platform_name sensor : string) (band : bandarg N) : res N :=
    rsr <- (match load platform_name sensor with Err e => Err (if is_oserror e then KeyError else e) | r => r end) ;;
    b <- (match band with
          | BStr s => rsr_getitem (RsrDict (rs_instrument rsr) (rs_rsr rsr)) s
          | _ => Err KeyError                                   (* no such key *)
          end) ;;
    d <- of_option KeyError (dget "det-1" b) ;;
    wvl <- get_arr "wavelength" d ;;
    resp <- get_arr "response" d ;;
    get_central_wave wvl resp (WArray (map (fun w => nlit N 1 1 / npow w 4) wvl)).

  (** rayleigh.py:143-176, the wavelength in nm *)
  Definition effective_wavelength (load : string -> string -> res (rsr_state N)) (platform_name sensor : string) (band : bandarg N) : res N :=
    w <- (match band with BNumber x => Ok x | _ => rsr_wavelength_from_band_name load platform_name sensor band end) ;;
    Ok (w * nlit N 1000 1).

  (** numpy and dask arrays; dask arrays stand for their computed values *)
  (** the arguments of rayleigh.py:205-261 *)
  Inductive kind := Numpy | Dask.
  Record rarr := { r_kind : kind; r_arr : arr N }.

  (** rayleigh.py:244-247 *)
  Definition relax (red refl : N) : N :=
    if red <? nlit N 20 1 then refl else (nlit N 1 1 - (red - nlit N 20 1) / nlit N 80 1) * refl.

  (** rayleigh.py:205-242.  [dask]: whether dask is installed.  Mapping over the
      blocks of a dask array is modelled as one call on the whole array; the
      interpolation accepts float arrays only. *)
  Definition get_reflectance (oob : N -> Z) (dask : bool) (load : string -> string -> res (rsr_state N)) (platform_name sensor : string)
             (lut : option raylut) (sun sat azidiff : rarr) (band : bandarg N) (redband : option rarr) : res (arr N) :=
    let compute := dask && match r_kind sun with Numpy => true | Dask => false end in
    wvl <- effective_wavelength load platform_name sensor band ;;
    let repr := match redband with None => sun | Some r => r end in
    ' (k, r) <- (match wavelength_adjusted_lut lut wvl with
                 | Err ValueError =>
                     match r_kind repr, dask with
                     | Dask, false => Err AttributeError                     (* None.zeros_like *)
                     | k, _ => Ok (k, arr_map (fun _ => n0) (r_arr repr))
                     end
                 | Err e => Err e
                 | Ok refl =>
                     match lut, a_dtype (r_arr repr) with
                     | Some l, Float64 =>
                         v <- interp_by_angles oob l refl (a_data (r_arr sun)) (a_data (r_arr sat)) (a_data (r_arr azidiff)) ;;
                         Ok (if dask then Dask else Numpy, {| a_dtype := Float64; a_shape := a_shape (r_arr sun); a_data := v |})
                     | Some _, Int64 => Err TypeError
                     | None, _ => Err FileNotFoundError                      (* not reached *)
                     end
                 end) ;;
    ' (k, r) <- (match redband with
                 | None => Ok (k, r)
                 | Some red => v <- bmap2 relax (r_arr red) r ;; Ok (if dask then Dask else Numpy, v)
                 end) ;;
    let r := arr_map (fun x => nclip x n0 (nlit N 100 1)) r in
    if compute then (match k with Dask => Ok r | Numpy => Err AttributeError end)   (* ndarray.compute *)
    else Ok r.

  (** rayleigh.py:249-261 *)
  Definition zenith_factor (zenith thresh_zen maxzen strength : N) : N :=
    nclip (nlit N 1 1 - strength * (if zenith <? thresh_zen then n0 else (zenith - thresh_zen) / (maxzen - thresh_zen))) n0 (nlit N 1 1).
  Definition reduce_rayleigh_highzenith (zenith rayref : arr N) (thresh_zen maxzen strength : N) : res (arr N) :=
    bmap2 (nmul N) rayref (arr_map (fun z => zenith_factor z thresh_zen maxzen strength) zenith).
End Rayleigh.
Arguments raylut : clear implicits.
Arguments rarr : clear implicits.
