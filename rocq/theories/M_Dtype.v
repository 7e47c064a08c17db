(** Element types.  numpy arrays have a dtype, and the code takes care to keep
    single precision (blackbody.py:38-40, radiance_tb_conversion.py:181,
    near_infrared_reflectance.py:251, 261, 264, rayleigh.py:183-185, 224).  The
    other model files work in one number type; this file follows the formulas
    once more with the dtype of every intermediate result, one element at a
    time.  Promotion is that of NumPy 2 (Python numbers adapt to arrays, numpy
    scalars do not).  Unsigned, half and extended types are not modelled. *)
From Coq Require Import ZArith String List Bool.
From Verif Require Import Base NumSig M_Blackbody M_Utils M_RadTb.
Import ListNotations.

(** the dtypes an argument of the functions below can have, e.g. blackbody.py:38 *)
Inductive dtype := Int16 | Int32 | Int64 | Float32 | Float64.
(** a Python int or float, or a numpy value: the operands of blackbody.py:42 *)
Inductive sort := PyInt | PyFloat | Np (d : dtype).

(** the comparison of blackbody.py:38 *)
Definition dtype_eqb (a b : dtype) : bool :=
  match a, b with
  | Int16, Int16 | Int32, Int32 | Int64, Int64 | Float32, Float32 | Float64, Float64 => true
  | _, _ => false
  end.
(** what astype('int16') and dtype.type distinguish: blackbody.py:40, radiance_tb_conversion.py:182 *)
Definition is_float (d : dtype) : bool := match d with Float32 | Float64 => true | _ => false end.

(** numpy.promote_types, behind every operator of blackbody.py:42, 58, 87-126 *)
Definition promote (a b : dtype) : dtype :=
  match a, b with
  | Float64, _ | _, Float64 => Float64
  | Float32, (Int32 | Int64) | (Int32 | Int64), Float32 => Float64
  | Float32, _ | _, Float32 => Float32
  | Int64, _ | _, Int64 => Int64
  | Int32, _ | _, Int32 => Int32
  | Int16, Int16 => Int16
  end.
(** the type of [a + b], [a - b], [a * b], numpy.where(c, a, b), numpy.clip:
    blackbody.py:42, 58, 96-97, near_infrared_reflectance.py:248-282 *)
Definition common (a b : sort) : sort :=
  match a, b with
  | Np x, Np y => Np (promote x y)
  | Np x, PyInt | PyInt, Np x => Np x
  | Np x, PyFloat | PyFloat, Np x => Np (if is_float x then x else Float64)
  | PyInt, PyInt => PyInt
  | _, _ => PyFloat
  end.
(** the type of [a / b]: blackbody.py:42, 58, 87-88, 97, 126 *)
Definition quotient (a b : sort) : sort :=
  match common a b with
  | Np d => Np (if is_float d then d else Float64)
  | _ => PyFloat
  end.
(** the type of numpy.log(a), exp, cos, deg2rad, isnan's argument:
    blackbody.py:42, 58, 125, near_infrared_reflectance.py:249 *)
Definition float_of (a : sort) : sort :=
  match a with
  | Np Int16 => Np Float32
  | Np Float32 => Np Float32
  | _ => Np Float64
  end.

Section Typed.
  Context {N : Num}.
  Local Open Scope num_scope.

  (** numpy's arithmetic: rounding to single precision, the single-precision
      functions, and what a cast to an integer type does with a value that does
      not fit.  Called in blackbody.py:40, 42, 58, 87-126. *)
  Record numpy := {
    f32 : N -> N;
    log32 : N -> N; exp32 : N -> N; cos32 : N -> N;
    pow32 : N -> nat -> N;
    powr32 : N -> N -> N;
    unfit : dtype -> N -> Z
  }.
  Variable np : numpy.

  (** a number and its type: the elements of the arrays of blackbody.py:42 *)
  Record tv := { ty : sort; val : N }.
  (** literals and module constants: blackbody.py:16-23, 42 *)
  Definition py (x : N) : tv := {| ty := PyFloat; val := x |}.
  Definition pyint (z : Z) : tv := {| ty := PyInt; val := nZ z |}.

  (** smallest and largest value: radiance_tb_conversion.py:182 *)
  Definition bits (d : dtype) : Z := match d with Int16 => 15 | Int32 => 31 | _ => 63 end.
  Definition fits_in (d : dtype) (z : Z) : bool := ((- 2 ^ bits d <=? z) && (z <? 2 ^ bits d))%Z.
  (** numpy casts: blackbody.py:40, near_infrared_reflectance.py:251, 261, 264 *)
  Definition store (d : dtype) (x : N) : N :=
    match d with
    | Float64 => x
    | Float32 => f32 np x
    | _ => nZ (match ntrunc N x with Some z => if fits_in d z then z else unfit np d x | None => unfit np d x end)
    end.
  Definition put (s : sort) (x : N) : N := match s with Np d => store d x | _ => x end.
  Definition astype (d : dtype) (a : tv) : tv := {| ty := Np d; val := store d (val a) |}.

  (** operators: both operands are brought to the common type first, e.g.
      blackbody.py:42, 58 *)
  Definition arith (s : sort) (f : N -> N -> N) (a b : tv) : tv :=
    {| ty := s; val := put s (f (put s (val a)) (put s (val b))) |}.
  Definition add (a b : tv) : tv := arith (common (ty a) (ty b)) (nadd N) a b.
  Definition sub (a b : tv) : tv := arith (common (ty a) (ty b)) (nsub N) a b.
  Definition mul (a b : tv) : tv := arith (common (ty a) (ty b)) (nmul N) a b.
  Definition div (a b : tv) : tv := arith (quotient (ty a) (ty b)) (ndiv N) a b.
  (** a power with an integer literal, e.g. [wavelength**5], blackbody.py:42, 58, 87, 90 *)
  Definition power (a : tv) (n : nat) : tv :=
    {| ty := ty a;
       val := match ty a with Np Float32 => pow32 np (val a) n | s => put s (npow (val a) n) end |}.
  (** numpy.log, exp and cos: blackbody.py:42, 58, 125, near_infrared_reflectance.py:249 *)
  Definition func (f f' : N -> N) (a : tv) : tv :=
    {| ty := float_of (ty a); val := match float_of (ty a) with Np Float32 => f' (val a) | _ => f (val a) end |}.
  Definition log_ : tv -> tv := func (nlog N) (log32 np).
  Definition exp_ : tv -> tv := func (nexp N) (exp32 np).
  Definition cos_ : tv -> tv := func (ncos N) (cos32 np).
  (** numpy.where: blackbody.py:96-97, near_infrared_reflectance.py:167, 282 *)
  Definition where_t (c : bool) (a b : tv) : tv :=
    let s := common (ty a) (ty b) in {| ty := s; val := put s (if c then val a else val b) |}.
  (** numpy.clip(a, lo, hi), e.g. near_infrared_reflectance.py:248 *)
  Definition clip_t (a lo hi : tv) : tv :=
    let s := common (common (ty a) (ty lo)) (ty hi) in
    {| ty := s; val := nclip (put s (val a)) (put s (val lo)) (put s (val hi)) |}.

  (** blackbody.py:38-40 *)
  Definition like (d : dtype) (w : tv) : res tv :=
    let cast := match ntrunc N (val w), is_float d with
                | None, false => Err ValueError          (* int of NaN or infinity *)
                | _, _ => Ok (astype d w)
                end in
    match ty w with
    | Np d' => if dtype_eqb d' d then Ok w else cast
    | _ => cast
    end.
  (** blackbody.py:26-42 on an element of [radiance]; Python numbers have no dtype *)
  Definition rad2temp_t (wavelength radiance : tv) : res tv :=
    match ty radiance with
    | Np d =>
        wavelength <- like d wavelength ;;
        Ok (div (py PLANCK_C1)
                (mul wavelength (log_ (add (div (py PLANCK_C2) (mul radiance (power wavelength 5))) (py (nZ 1))))))
    | _ => Err AttributeError
    end.
  (** blackbody.py:45-58 *)
  Definition wn_rad2temp_t (wavenumber radiance : tv) : tv :=
    div (mul (py PLANCK_C1) wavenumber)
        (log_ (add (div (mul (py PLANCK_C2) (power wavenumber 3)) radiance) (py (nZ 1)))).

  (** blackbody.py:86-91 *)
  Definition nom_t (wavelength : bool) (wave : tv) : tv :=
    if wavelength then div (py PLANCK_C2) (power wave 5) else mul (py PLANCK_C2) (power wave 3).
  Definition arg1_t (wavelength : bool) (wave : tv) : tv :=
    if wavelength then div (py PLANCK_C1) wave else mul (py PLANCK_C1) wave.
  (** blackbody.py:93-97 *)
  Definition arg2_t (temperature : tv) : tv :=
    where_t (BB_EPSILON <? nabs (val temperature)) (div (py (nZ 1)) temperature) (py (nnan N)).
  (** blackbody.py:61-126, one entry of the table *)
  Definition planck_t (wavelength : bool) (wave temperature : tv) : tv :=
    div (nom_t wavelength wave) (sub (exp_ (mul (arg1_t wavelength wave) (arg2_t temperature))) (pyint 1)).

  (** scipy.integrate.trapezoid as called in radiance_tb_conversion.py:138, 201, 203 *)
  Fixpoint trapz_t (ys xs : list tv) : tv :=
    match ys, xs with
    | y0 :: ((y1 :: yr) as ys'), x0 :: ((x1 :: _) as xs') =>
        let term := div (mul (sub x1 x0) (add y1 y0)) (py (nZ 2)) in
        match yr with [] => term | _ => add term (trapz_t ys' xs') end
    | _, _ => {| ty := Np Float64; val := n0 |}
    end.
  (** radiance_tb_conversion.py:199-203 on one temperature; [integral] is the
      attribute set in line 138 *)
  Definition band_radiance_t (wavelength : bool) (waves response : list tv) (integral temperature : tv) (normalized : bool) : tv :=
    let planck := map (fun p => mul (planck_t wavelength (fst p) temperature) (snd p)) (combine waves response) in
    let r := trapz_t planck waves in
    if normalized then div r integral else r.

  (** radiance_tb_conversion.py:180-197 on one temperature; [one]: the array has
      one element, which [item] turns into a Python number *)
  Definition lut_radiance_t (oob : N -> Z) (scale : N) (lut : tblut N) (one : bool) (tb : tv) : res tv :=
    match ty tb with
    | Np d =>
        start <- lut_start lut scale ;;
        let last := (Z.of_nat (List.length (lut_radiance lut)) - 1)%Z in
        if (last >? 32767)%Z then Err OverflowError else
        let i := clipZ (wrap16 (cast_int16 oob (val (mul tb (py scale))) - start)) 0 last in
        if (i <? 0)%Z then Err IndexError else
        r <- M_Utils.idx (lut_radiance lut) (Z.to_nat i) ;;
        Ok {| ty := if one then (if is_float d then PyFloat else PyInt) else Np d; val := store d r |}
    | _ => Err AttributeError
    end.
  (** radiance_tb_conversion.py:222-240; the central wavelength is an attribute
      of the file, a numpy float64 *)
  Definition radiance2tb_t (central : N) (rad : tv) : res tv :=
    rad2temp_t (mul {| ty := Np Float64; val := central |} (py (nlit N 1 1000000))) rad.

  (** radiance_tb_conversion.py:272-295; the coefficients are Python numbers *)
  Definition sev_radiance2tb_t (c : seviri) (rad : tv) : res tv :=
    ' (vc, alpha, beta) <- seviri_coeffs (N := N) c ;;
    Ok (sub (div (py (sv_c2 * vc)) (mul (py alpha) (log_ (add (div (py (sv_c1 * npow vc 3)) rad) (pyint 1))))) (py (beta / alpha))).
  (** radiance_tb_conversion.py:314-324 *)
  Definition sev_tb2radiance_t (c : seviri) (tb : tv) : res tv :=
    ' (vc, alpha, beta) <- seviri_coeffs (N := N) c ;;
    Ok (div (py (sv_c1 * npow vc 3)) (sub (exp_ (div (py (sv_c2 * vc)) (add (mul (py alpha) tb) (py beta)))) (pyint 1))).

  (** near_infrared_reflectance.py:247-251.  [flux] is a numpy scalar; numpy.deg2rad
      multiplies in the type of its result. *)
  Definition solar_radiance_t (flux : tv) (threshold : option N) (d : dtype) (sun_zenith : tv) : tv :=
    let sunz := match threshold with
                | Some t => clip_t sun_zenith (pyint 0) (py t)
                | None => {| ty := ty sun_zenith; val := nmax (val sun_zenith) n0 |}
                end in
    let rad := func (fun z => deg2rad z) (fun z => f32 np (deg2rad z)) sunz in
    astype d (div (mul flux (cos_ rad)) (py (npi N))).
  (** near_infrared_reflectance.py:152, 253-261 *)
  Definition correction_t (therm : tv) (co2 : option tv) (d : dtype) : tv :=
    astype d (match co2 with
              | Some bt13 => div (power (sub therm (mul (py (nlit N 25 100)) (sub therm bt13))) 4) (power therm 4)
              | None => {| ty := Np Float64; val := n1 |}
              end).
  (** near_infrared_reflectance.py:263-282 on one pixel *)
  Definition r3x_t (integral : N) (limit : option N) (rad11 rad3x corr solar therm sun_zenith nir : tv) (d : dtype) : tv :=
    let rsr_integral := astype d (py integral) in
    let corrected := mul (mul rad11 rsr_integral) corr in
    let nomin := sub (mul rad3x rsr_integral) corrected in
    let denom := sub solar corrected in
    let data := div nomin denom in
    let sunz := val sun_zenith in
    let out := match limit with Some lim => (sunz <? n0) || (lim <? sunz) | None => false end in
    let mask := (val denom <? nlit N 5 1000) || out || nisnan N (val nir) in
    where_t mask (py (nnan N)) data.
  (** near_infrared_reflectance.py:228-240 on one pixel, the two radiances given
      (lines 230-231); arguments without dtype have become arrays (line 285-293) *)
  Definition reflectance_t (flux : tv) (integral : N) (threshold limit : option N) (rad11 rad3x sun_zenith nir therm : tv) (co2 : option tv) : res tv :=
    match ty nir, ty therm with
    | Np dn, Np dt =>
        let solar := solar_radiance_t flux threshold dn sun_zenith in
        let corr := correction_t therm co2 dn in
        Ok (r3x_t integral limit rad11 rad3x corr solar therm sun_zenith nir dt)
    | _, _ => Err AttributeError
    end.
  (** near_infrared_reflectance.py:161-180 on one pixel *)
  Definition emissive_t (central : N) (rad11 rad3x r3x : tv) (tb : bool) : res tv :=
    let e := mul rad11 (sub (pyint 1) r3x) in
    let e := where_t (nisnan N (val e)) rad3x e in
    if tb then radiance2tb_t central e else Ok e.

  (** atm_correction_ir.py:92-112 *)
  Definition ratio_t (value : tv) (v_null v_ref : N) : tv := div (sub value (py v_null)) (py (v_ref - v_null)).
  Definition exponential_t (base : N) (x : tv) : tv :=
    let s := common PyFloat (ty x) in
    {| ty := s; val := match s with Np Float32 => powr32 np base (put s (val x)) | _ => npowr N base (val x) end |}.
  Definition tau0_t (t : tv) : tv :=
    sub (exponential_t (nlit N 1 1 + nlit N 985 100) (ratio_t t (nlit N 210 1) (nlit N 320 1))) (pyint 1).
  Definition tau_t (t : tv) : tv := mul (py (nlit N 1 1)) (power (ratio_t t (nlit N 170 1) (nlit N 295 1)) 4).
  Definition delta_t (z : tv) : tv :=
    sub (exponential_t (nlit N 1 1 + nlit N 62 10) (ratio_t z (nlit N 0 1) (nlit N 70 1))) (pyint 1).
  (** atm_correction_ir.py:117-122: dask, one pixel *)
  Definition dask_pixel_t (t z : tv) : tv :=
    let nadir := add t (tau0_t t) in
    let off := add t (mul (tau_t t) (delta_t z)) in
    where_t (val z =? n0) nadir (where_t ((n0 <? val z) && (val z <? nlit N 90 1)) off t).
  (** [data[i] += inc], atm_correction_ir.py:125, 128: the sum is stored in the
      type of [data]; a float is not stored in an integer array *)
  Definition iadd_t (t inc : tv) : res tv :=
    match ty t, common (ty t) (ty inc) with
    | Np d, Np s => if is_float s && negb (is_float d) then Err TypeError else Ok (astype d (add t inc))
    | _, _ => Err TypeError
    end.
  (** atm_correction_ir.py:124-129: a masked array, one unmasked pixel.  Both
      additions are executed even if no pixel is selected. *)
  Definition masked_pixel_t (t z : tv) : res tv :=
    a <- iadd_t t (tau0_t t) ;;
    let t := if val z =? n0 then a else t in
    b <- iadd_t t (mul (tau_t t) (delta_t z)) ;;
    Ok (if (n0 <? val z) && (val z <? nlit N 90 1) then b else t).

  (** rayleigh.py:183-185, 224: the table handed to the interpolator *)
  Definition lut_values_t (d : dtype) (table : list N) : list N := map (store d) table.
  (** rayleigh.py:213-242 on one pixel.  [table]: the reflectances at the
      wavelength, None if it is out of range; [interp] is the interpolation in the
      table given (geotiepoints).  The first result is the dtype announced to
      dask, the second the value. *)
  Definition rayleigh_t (interp : list N -> N) (table : option (list N)) (sun_zenith : tv) (redband : option tv) : res (sort * tv) :=
    match ty (match redband with Some r => r | None => sun_zenith end) with
    | Np d =>
        let res := match table with
                   | None => {| ty := Np d; val := n0 |}
                   | Some t => {| ty := Np d; val := store d (store d (interp (lut_values_t d t)) * nlit N 100 1) |}
                   end in
        let res := match redband with
                   | Some red => where_t (val red <? nlit N 20 1) res
                                   (mul (sub (pyint 1) (div (sub red (pyint 20)) (pyint 80))) res)
                   | None => res
                   end in
        Ok (Np d, clip_t res (pyint 0) (pyint 100))
    | _ => Err AttributeError
    end.
  (** rayleigh.py:249-261 on one pixel; the last three arguments are Python floats *)
  Definition reduce_t (zenith rayref : tv) (thresh_zen maxzen strength : N) : tv :=
    let x := where_t (val zenith <? thresh_zen) (pyint 0) (div (sub zenith (py thresh_zen)) (py (maxzen - thresh_zen))) in
    mul rayref (clip_t (sub (py n1) (mul (py strength) x)) (pyint 0) (pyint 1)).
End Typed.
Arguments numpy : clear implicits.
Arguments tv : clear implicits.
