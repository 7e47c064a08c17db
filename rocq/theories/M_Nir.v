(** Model of /repo/pyspectral/near_infrared_reflectance.py. *)
From Coq Require Import String Ascii List Bool Arith ZArith.
From Verif Require Import Base NumSig M_Tables M_Utils M_Blackbody M_Rsr M_RadTb M_Solar
     M_World M_Config M_Download.
Import ListNotations.
Local Open Scope string_scope.

(** ** numpy arrays *)

(** float64 or int64; float32 (and its rounding) is not modelled. *)
(** the arrays of near_infrared_reflectance.py:182-282 *)
Inductive dtype := Float64 | Int64.

Section Arrays.
  Context {N : Num}.

  (** shape [] is a numpy or Python scalar; the data are in row-major order *)
  (** the arrays of near_infrared_reflectance.py:182-282 *)
  Record arr := { a_dtype : dtype; a_shape : list nat; a_data : list N }.

  (** numpy operations of near_infrared_reflectance.py:137-282 *)
  Definition arr_map (f : N -> N) (a : arr) : arr :=
    {| a_dtype := Float64; a_shape := a_shape a; a_data := map f (a_data a) |}.

  (** numpy operations of near_infrared_reflectance.py:137-282 *)
  Fixpoint shape_eqb (a b : list nat) : bool :=
    match a, b with
    | [], [] => true
    | x :: a', y :: b' => Nat.eqb x y && shape_eqb a' b'
    | _, _ => false
    end.

  (** numpy broadcasting.  [bshape] works on reversed shapes. *)
  (** numpy operations of near_infrared_reflectance.py:137-282 *)
  Fixpoint bshape (a b : list nat) : option (list nat) :=
    match a, b with
    | [], _ => Some b
    | _, [] => Some a
    | x :: a', y :: b' =>
        match bshape a' b' with
        | None => None
        | Some s => if Nat.eqb x y then Some (x :: s)
                    else if Nat.eqb x 1 then Some (y :: s)
                    else if Nat.eqb y 1 then Some (x :: s) else None
        end
    end.
  Definition size (s : list nat) : nat := fold_right Nat.mul 1 s.
  Fixpoint blocks {A} (n k : nat) (l : list A) : list (list A) :=
    match n with O => [] | S n' => firstn k l :: blocks n' k (skipn k l) end.
  (** data of shape [from] repeated to shape [to] (equally many axes) *)
  (** numpy operations of near_infrared_reflectance.py:137-282 *)
  Fixpoint expand {A} (from to : list nat) (l : list A) : list A :=
    match from, to with
    | x :: from', y :: to' =>
        let bs := map (expand from' to') (blocks x (size from') l) in
        if Nat.eqb x y then concat bs else concat (map (fun _ => concat bs) (seq 0 y))
    | _, _ => l
    end.
  Definition pad (s : list nat) (n : nat) : list nat := (repeat 1 (n - length s) ++ s)%list.

  (** numpy operations of near_infrared_reflectance.py:137-282 *)
  Definition zip_with {A B C} (f : A -> B -> C) (a : list A) (b : list B) : list C :=
    map (fun p => f (fst p) (snd p)) (combine a b).

  (** an element-wise binary operation; the first cases are the usual ones and
      agree with the general rule in the last *)
  (** numpy operations of near_infrared_reflectance.py:137-282 *)
  Definition bmap2 (f : N -> N -> N) (a b : arr) : res arr :=
    let mk s d := Ok {| a_dtype := Float64; a_shape := s; a_data := d |} in
    if shape_eqb (a_shape a) (a_shape b) then mk (a_shape a) (zip_with f (a_data a) (a_data b))
    else match a_shape a, a_data a, a_shape b, a_data b with
         | [], [x], s, d => mk s (map (f x) d)
         | s, d, [], [y] => mk s (map (fun x => f x y) d)
         | _, _, _, _ =>
             match bshape (rev (a_shape a)) (rev (a_shape b)) with
             | None => Err ValueError
             | Some rs =>
                 let s := rev rs in let n := length s in
                 mk s (zip_with f (expand (pad (a_shape a) n) s (a_data a))
                                  (expand (pad (a_shape b) n) s (a_data b)))
             end
         end.

  (** near_infrared_reflectance.py:285-293: what [get_as_array] is given *)
  Inductive nirarg := NScalar (d : dtype) (x : N) | NArray (a : arr).
  Definition get_as_array (v : nirarg) : arr :=
    match v with
    | NScalar d x => {| a_dtype := d; a_shape := [1]; a_data := [x] |}
    | NArray a => a
    end.
End Arrays.
Arguments arr : clear implicits.
Arguments nirarg : clear implicits.

(** ** posixpath *)
(** [rfind("/")]: what precedes and includes the last slash, and the rest *)
(** os.path.dirname, os.path.basename: near_infrared_reflectance.py:113, 116 *)
Fixpoint split_slash (p : string) : string * string :=
  match p with
  | EmptyString => ("", "")
  | String c t =>
      let (h, b) := split_slash t in
      if Ascii.eqb c "/" then (String c h, b)
      else if String.eqb h "" then ("", String c b) else (String c h, b)
  end.
Definition is_slash (c : ascii) : bool := Ascii.eqb c "/".
Fixpoint all_slash (s : string) : bool :=
  match s with EmptyString => true | String c t => is_slash c && all_slash t end.
Fixpoint rstrip_slash (s : string) : string :=
  match s with
  | EmptyString => EmptyString
  | String c t => if is_slash c && all_slash t then EmptyString else String c (rstrip_slash t)
  end.
Definition dirname (p : string) : string :=
  let h := fst (split_slash p) in if all_slash h then h else rstrip_slash h.
Definition basename (p : string) : string := snd (split_slash p).
(** os.path.exists; the empty path does not exist *)
(** near_infrared_reflectance.py:113, 129 *)
Definition path_exists (w : world) (p : string) : bool :=
  negb (String.eqb p "") && (is_file w p || is_dir w p).
(** os.path.join where the second part may be absolute *)
(** near_infrared_reflectance.py:99, 116 *)
Definition os_join (p q : string) : string :=
  match q with
  | String c _ => if is_slash c then q
                  else if String.eqb p "" then q
                  else if endswith p "/" then p ++ q else join p q
  | EmptyString => if String.eqb p "" then "" else if endswith p "/" then p else p ++ "/"
  end.
(** str in str: near_infrared_reflectance.py:104 *)
Fixpoint contains (sub s : string) : bool :=
  match s with
  | EmptyString => String.eqb sub ""
  | String _ t => String.prefix sub s || contains sub t
  end.

Section Nir.
  Context {N : Num}.
  Local Open Scope num_scope.

  (** near_infrared_reflectance.py:26, 29 *)
  Definition NIR_EPSILON : N := nlit N 5 1000.
  Definition TERMINATOR_LIMIT : N := nlit N 85 1.

  (** What the code asks of its surroundings: M_World's [extern]; the temporary
      directory; RelativeSpectralResponse(platform, instrument) as a function (its
      own effects are modelled in M_Download); the numpy file format; the spline
      and the two columns of the solar spectrum file; undefined integer casts. *)
  (** libraries and functions called in near_infrared_reflectance.py:45-159 *)
  Record nir_env := {
    nx_ext : extern;
    nx_tempdir : string;
    nx_load : string -> string -> res (rsr_state N);
    nx_enc : tblut N -> string;
    nx_dec : string -> res (tblut N);
    nx_spline : list N -> list N -> res (N -> N);
    nx_sun : list N * list N;
    nx_oob16 : N -> Z;
    nx_oob64 : N -> Z }.

  (** The attributes that no method changes after construction, lines 49-58. *)
  Record calculator := {
    cl_conv : converter N;
    cl_bandname : string;
    cl_bandwavelength : N;
    cl_solar_flux : N;
    cl_sunz_threshold : option N;
    cl_masking_limit : option N;
    cl_lutfile : string;
    cl_lut : tblut N }.

  (** The attributes that methods change, lines 59-64. *)
  Record nirstate := {
    ns_e3x : option (arr N);
    ns_r3x : option (arr N);
    ns_rad3x : option (arr N);
    ns_rad3x_t11 : option (arr N);
    ns_correction : arr N;
    ns_solar : option (arr N) }.

  (** the attributes initialised in near_infrared_reflectance.py:45-72 *)
  Definition scalar (x : N) : arr N := {| a_dtype := Float64; a_shape := []; a_data := [x] |}.
  Definition fresh_state : nirstate :=
    {| ns_e3x := None; ns_r3x := None; ns_rad3x := None; ns_rad3x_t11 := None;
       ns_correction := scalar (nlit N 1 1); ns_solar := None |}.

  (** ** Construction *)

  (** lines 74-86.  The second resolution of the band gives what the first one
      in RadTbConverter gave.  Comparisons with NaN are false. *)
  Definition nir_band (c : converter N) (instrument : string) (band : bandarg N) : res (string * N) :=
    ' (bn, bw) <- (match band with
                   | BStr s =>
                       let bn := translate_band instrument s in
                       b <- rsr_getitem (cv_rsr c) bn ;;
                       d <- of_option KeyError (dget "det-1" b) ;;
                       cw <- get_num "central_wavelength" d ;;
                       Ok (Some bn, Some cw)
                   | BNumber x =>
                       b <- get_bandname_from_wavelength instrument x (rsr_data (cv_rsr c)) (nlit N 1 10) false ;;
                       Ok (match b with BName n => Some n | _ => None end, Some x)
                   | BOther => Ok (None, None)
                   end) ;;
    match bw, bn with
    | None, _ => Err TypeError                                (* None > 3.95 *)
    | Some x, _ =>
        if ((nlit N 395 100 <? x) || (x <? nlit N 35 10))%bool then Err NotImplementedError
        else match bn with Some n => Ok (n, x) | None => Err KeyError end
    end.

  (** lines 154-159 *)
  Definition get_solarflux (E : nir_env) (c : converter N) (bandname : string) : res N :=
    s <- SolarIrradianceSpectrum (fst (nx_sun E)) (snd (nx_sun E)) (Some (nlit N 5 10000)) (Some (cv_wavespace c)) ;;
    b <- rsr_getitem (cv_rsr c) bandname ;;
    snd (inband_solarflux (nx_spline E) s (NestedRsr b) (nlit N 1 1) "det-1").

  (** lines 118-125: the first item named like the band *)
  Fixpoint lutfile_from_dict (bandname : string) (d : list (string * cfg)) : option cfg :=
    match d with
    | [] => None
    | (item, v) :: t => if String.eqb item bandname || String.eqb item (lower bandname) then Some v
                        else lutfile_from_dict bandname t
    end.

  (** lines 101-116.  A value that is neither a string nor None is a
      configuration mistake: AttributeError from endswith if it is true,
      TypeError (for the various later failures) if not. *)
  Definition lutfile_from_config (w : world) (options : dict cfg) (platform instrument bandname : string) (tb2rad_dir : res string)
    : res (option string) :=
    match dget (platform ++ "-" ++ instrument) options with
    | None => Ok None
    | Some (CMap m) =>
        match dget "tb2rad_lut_filename" m with
        | None => Ok None
        | Some v =>
            let chosen := match v with CMap d => lutfile_from_dict bandname d | Leaf _ => Some v end in
            match chosen with
            | None | Some (Leaf LNull) => Ok None
            | Some (Leaf (LStr s)) =>
                if String.eqb s "" then Ok (Some "")
                else
                  let f := if endswith s ".npz" then s else s ++ ".npz" in
                  if path_exists w (dirname f) then Ok (Some f)
                  else d <- tb2rad_dir ;; Ok (Some (os_join d (basename f)))
            | Some v => if truthy v then Err AttributeError else Err TypeError
            end
        end
    | Some (Leaf (LStr s)) => if contains "tb2rad_lut_filename" s then Err TypeError else Ok None
    | Some (Leaf (LSeq l)) => if existsb_str "tb2rad_lut_filename" l then Err TypeError else Ok None
    | Some (Leaf _) => Err TypeError
    end.

  (** lines 88-99 *)
  Definition default_lutname (platform instrument bandname : string) : string :=
    "tb2rad_lut_" ++ lower platform ++ "_" ++ lower instrument ++ "_" ++ lower bandname ++ ".npz".
  Definition set_lutfile (E : nir_env) (platform instrument bandname : string) : io string :=
    options <~ get_config (nx_ext E) None ;;
    look (fun w =>
      (* an option that is not a string fails when it is joined *)
      let dir := match dget "tb2rad_dir" options with
                 | None => Ok (nx_tempdir E)
                 | Some (Leaf (LStr d)) => Ok d
                 | Some _ => Err TypeError
                 end in
      f <- lutfile_from_config w options platform instrument bandname dir ;;
      match f with
      | Some f => Ok f
      | None => d <- dir ;; Ok (os_join d (default_lutname platform instrument bandname))
      end).

  (** radiance_tb_conversion.py:214, [np.savez]: the events on the file system;
      numpy adds a missing extension *)
  Definition savez_path (f : string) : string := if endswith f ".npz" then f else f ++ ".npz".
  Definition savez_events (E : nir_env) (f : string) (t : tblut N) (w : world) : list ev * res unit :=
    let p := savez_path f in
    if is_dir w p then ([], Err OSError)
    else if negb (String.eqb (dirname p) "") && negb (is_dir w (dirname p)) then ([], Err FileNotFoundError)
    else ([ECreate p; EAppend p (nx_enc E t)], Ok tt).
  Definition savez (E : nir_env) (f : string) (t : tblut N) : io unit := fun w =>
    let (l, o) := savez_events E f t w in (run_evs l w, o).

  (** radiance_tb_conversion.py:216-220 *)
  Definition read_tb2rad_lut (E : nir_env) (f : string) : io (tblut N) :=
    look (fun w => s <- read_file w f ;; nx_dec E s).

  (** lines 127-135 *)
  Definition set_lut (E : nir_env) (c : converter N) (f : string) : io (tblut N) := fun w =>
    if path_exists w f then read_tb2rad_lut E f w
    else (t <~ M_Download.lift (make_tb2rad_lut c true) ;;
          _ <~ savez E f t ;;
          read_tb2rad_lut E f) w.

  (** lines 45-72 *)
  Definition Calculator (E : nir_env) (platform instrument : string) (band : bandarg N) (detector wavespace : string)
             (solar_flux sunz_threshold masking_limit : option N) : io calculator :=
    c <~ M_Download.lift (RadTbConverter (nx_load E) platform instrument band detector wavespace (nlit N 1 10)) ;;
    nb <~ M_Download.lift (nir_band c instrument band) ;;
    flux <~ M_Download.lift (match solar_flux with Some f => Ok f | None => get_solarflux E c (fst nb) end) ;;
    f <~ set_lutfile E platform instrument (fst nb) ;;
    t <~ set_lut E c f ;;
    ret {| cl_conv := c; cl_bandname := fst nb; cl_bandwavelength := snd nb; cl_solar_flux := flux;
           cl_sunz_threshold := sunz_threshold; cl_masking_limit := masking_limit;
           cl_lutfile := f; cl_lut := t |}.

  (** near_infrared_reflectance.py:45-47: the same with the default arguments *)
  Definition Calculator_defaults (E : nir_env) (platform_name instrument : string) (band : bandarg N) : io calculator :=
    Calculator E platform_name instrument band "det-1" WAVE_LENGTH None (Some TERMINATOR_LIMIT) (Some TERMINATOR_LIMIT).

  (** ** Methods *)

  (** [x.astype(dtype)] of floats; a value that does not fit an integer is
      whatever [oob] says *)
  (** astype: near_infrared_reflectance.py:251 *)
  Definition in_int64 (z : Z) : bool := (- 2 ^ 63 <=? z)%Z && (z <? 2 ^ 63)%Z.
  Definition cast (E : nir_env) (d : dtype) (x : N) : N :=
    match d with
    | Float64 => x
    | Int64 => match ntrunc N x with
               | Some z => if in_int64 z then nZ z else nZ (nx_oob64 E x)
               | None => nZ (nx_oob64 E x)
               end
    end.
  Definition astype (E : nir_env) (d : dtype) (a : arr N) : arr N :=
    {| a_dtype := d; a_shape := a_shape a; a_data := map (cast E d) (a_data a) |}.

  (** radiance_tb_conversion.py:191-194: [.item()] turns one element into a scalar *)
  Definition item (a : arr N) : arr N :=
    match a_data a with
    | [x] => {| a_dtype := a_dtype a; a_shape := []; a_data := [x] |}
    | _ => a
    end.

  (** radiance_tb_conversion.py:167-207 on arrays: with a table the shape is kept
      and the radiances have the dtype of the temperatures; without one the
      temperatures are flattened. *)
  Definition tb2rad (E : nir_env) (c : converter N) (a : arr N) (lut : option (tblut N)) : res (arr N) :=
    match lut with
    | Some t =>
        let t' := {| lut_tb := lut_tb t; lut_radiance := map (cast E (a_dtype a)) (lut_radiance t) |} in
        r <- tb2radiance (nx_oob16 E) c (a_data a) (Some t') true ;;
        Ok (item {| a_dtype := a_dtype a; a_shape := a_shape a; a_data := r |})
    | None =>
        r <- tb2radiance (nx_oob16 E) c (a_data a) None true ;;
        Ok {| a_dtype := Float64; a_shape := [length r]; a_data := r |}
    end.

  (** lines 137-152 (the new value of the attribute) *)
  Definition derive_rad39_corr (bt11 bt13 : arr N) (method : string) : res (arr N) :=
    if negb (String.eqb method "rosenfeld") then Err AttributeError
    else
      d <- bmap2 (nsub N) bt11 bt13 ;;
      x <- bmap2 (nsub N) bt11 (arr_map (fun v => nlit N 25 100 * v) d) ;;
      bmap2 (ndiv N) (arr_map (fun v => npow v 4) x) (arr_map (fun v => npow v 4) bt11).

  (** [sun_zenith.clip(0, threshold)]; None means no upper bound *)
  (** near_infrared_reflectance.py:248 *)
  Definition clip_sunz (threshold : option N) (z : N) : N :=
    match threshold with Some t => nclip z n0 t | None => nmax z n0 end.

  (** lines 247-251 *)
  Definition solar_radiance (E : nir_env) (c : calculator) (sunz : arr N) (d : dtype) : arr N :=
    astype E d (arr_map (fun z => cl_solar_flux c * ncos N (deg2rad (clip_sunz (cl_sunz_threshold c) z)) / npi N) sunz).

  (** near_infrared_reflectance.py:275-280 *)
  Definition flag (b : bool) : N := if b then n1 else n0.
  Definition nor (a b : N) : N := if ((a =? n0) && (b =? n0))%bool then n0 else n1.

  (** lines 263-282.  Masks are arrays of 0 and 1.  The [out=mask] of lines 279
      and 280 never changes the shape: [mask] already has the common shape of all
      the inputs (except if .item() has dropped a one-element axis). *)
  Definition calculate_r3x (E : nir_env) (c : calculator) (rad11 rad3x corr solar tb_therm sunz tb_nir : arr N)
    : res (arr N) :=
    let rsr_integral := cast E (a_dtype tb_therm) (cv_rsr_integral (cl_conv c)) in
    let thermal := arr_map (fun x => x * rsr_integral) rad11 in
    corrected <- bmap2 (nmul N) thermal corr ;;
    let l_nir := arr_map (fun x => x * rsr_integral) rad3x in
    nomin <- bmap2 (nsub N) l_nir corrected ;;
    denom <- bmap2 (nsub N) solar corrected ;;
    data <- bmap2 (ndiv N) nomin denom ;;
    let mask := arr_map (fun x => flag (x <? NIR_EPSILON)) denom in
    mask <- (match cl_masking_limit c with
             | Some lim => bmap2 nor (arr_map (fun z => flag ((z <? n0) || (lim <? z))%bool) sunz) mask
             | None => Ok mask
             end) ;;
    mask <- bmap2 nor mask (arr_map (fun x => flag (nisnan N x)) tb_nir) ;;
    bmap2 (fun m x => if m =? n0 then x else nnan N) mask data.

  (** attribute assignments of near_infrared_reflectance.py:137-282 *)
  Definition with_rad11 (s : nirstate) a := {| ns_e3x := ns_e3x s; ns_r3x := ns_r3x s; ns_rad3x := ns_rad3x s;
    ns_rad3x_t11 := Some a; ns_correction := ns_correction s; ns_solar := ns_solar s |}.
  Definition with_rad3x (s : nirstate) a := {| ns_e3x := ns_e3x s; ns_r3x := ns_r3x s; ns_rad3x := Some a;
    ns_rad3x_t11 := ns_rad3x_t11 s; ns_correction := ns_correction s; ns_solar := ns_solar s |}.
  Definition with_solar (s : nirstate) a := {| ns_e3x := ns_e3x s; ns_r3x := ns_r3x s; ns_rad3x := ns_rad3x s;
    ns_rad3x_t11 := ns_rad3x_t11 s; ns_correction := ns_correction s; ns_solar := Some a |}.
  Definition with_corr (s : nirstate) a := {| ns_e3x := ns_e3x s; ns_r3x := ns_r3x s; ns_rad3x := ns_rad3x s;
    ns_rad3x_t11 := ns_rad3x_t11 s; ns_correction := a; ns_solar := ns_solar s |}.
  Definition with_r3x (s : nirstate) a := {| ns_e3x := ns_e3x s; ns_r3x := Some a; ns_rad3x := ns_rad3x s;
    ns_rad3x_t11 := ns_rad3x_t11 s; ns_correction := ns_correction s; ns_solar := ns_solar s |}.
  Definition with_e3x (s : nirstate) a := {| ns_e3x := Some a; ns_r3x := ns_r3x s; ns_rad3x := ns_rad3x s;
    ns_rad3x_t11 := ns_rad3x_t11 s; ns_correction := ns_correction s; ns_solar := ns_solar s |}.

  (** Methods change the state and return a value or raise. *)
  (** methods of the Calculator, near_infrared_reflectance.py:137-282 *)
  Definition meth (A : Type) : Type := nirstate -> nirstate * res A.
  Definition mbind {A B} (m : meth A) (k : A -> meth B) : meth B :=
    fun s => let (s', o) := m s in match o with Ok a => k a s' | Err e => (s', Err e) end.
  Definition mlift {A} (r : res A) : meth A := fun s => (s, r).
  Definition mset {A} (f : nirstate -> A -> nirstate) (a : A) : meth unit := fun s => (f s a, Ok tt).

  (** the call of line 257 or of a user: the attribute is changed only on success *)
  Definition m_derive_rad39_corr (bt11 bt13 : arr N) (method : string) : meth unit :=
    mbind (mlift (derive_rad39_corr bt11 bt13 method)) (mset with_corr).

  (** lines 182-245.  [lut]: None if the keyword is absent, Some None if it is
      None.  Wrapping the result (dask, masked arrays) is not modelled, and
      logging is without effect. *)
  Definition reflectance_from_tbs (E : nir_env) (c : calculator) (sun_zenith tb_near_ir tb_thermal : nirarg N)
             (tb_ir_co2 : option (nirarg N)) (lut : option (option (tblut N))) : meth (arr N) :=
    match rsr_data (cv_rsr (cl_conv c)) with
    | [] => mlift (Err NotImplementedError)
    | _ =>
        let nir := get_as_array tb_near_ir in
        let therm := get_as_array tb_thermal in
        if negb (shape_eqb (a_shape therm) (a_shape nir)) then mlift (Err ValueError)
        else
          let sunz := get_as_array sun_zenith in
          let tbl := match lut with None => Some (cl_lut c) | Some l => l end in
          mbind (mlift (tb2rad E (cl_conv c) therm tbl)) (fun rad11 =>
          mbind (mset with_rad11 rad11) (fun _ =>
          mbind (mlift (tb2rad E (cl_conv c) nir tbl)) (fun rad3x =>
          mbind (mset with_rad3x rad3x) (fun _ =>
          let solar := solar_radiance E c sunz (a_dtype nir) in
          mbind (mset with_solar solar) (fun _ =>
          mbind (match tb_ir_co2 with
                 | Some co2 => m_derive_rad39_corr therm (get_as_array co2) "rosenfeld"
                 | None => mset with_corr (scalar (nlit N 1 1))
                 end) (fun _ =>
          mbind (fun s => (with_corr s (astype E (a_dtype nir) (ns_correction s)), Ok tt)) (fun _ =>
          mbind (fun s => (s, calculate_r3x E c rad11 rad3x (ns_correction s) solar therm sunz nir)) (fun r =>
          mbind (mset with_r3x r) (fun _ => mlift (Ok r))))))))))
    end.

  (** lines 161-180.  [1 - None] and [None * x] raise TypeError, which is caught
      (so the attribute keeps its old value); an array that is NaN is replaced by
      the measured radiance. *)
  Definition emissive_part_3x (c : calculator) (tb : bool) : meth (option (list N)) := fun s =>
    let s' :=
      match ns_rad3x_t11 s, ns_r3x s with
      | Some rad11, Some r3x =>
          match bmap2 (nmul N) rad11 (arr_map (fun r => nlit N 1 1 - r) r3x) with
          | Err e => (s, Err e)
          | Ok e3x =>
              let s1 := with_e3x s e3x in
              match ns_rad3x s with
              | None => (s1, Err TypeError)                    (* not reached *)
              | Some rad3x =>
                  match bmap2 (fun m x => if nisnan N m then x else m) e3x rad3x with
                  | Err e => (s1, Err e)
                  | Ok a => (with_e3x s1 a, Ok tt)
                  end
              end
          end
      | _, _ => (s, Ok tt)
      end in
    let (s1, o) := s' in
    (s1,
     _ <- o ;;
     if tb then
       r <- converter_radiance2tb (cl_conv c) (match ns_e3x s1 with Some a => NpArray (a_data a) | None => PyNone end) ;;
       Ok (Some (arg_values r))
     else Ok (option_map (@a_data N) (ns_e3x s1))).

  (** Any sequence of method calls on one object. *)
  (** calls of near_infrared_reflectance.py:137-245 in any order *)
  Inductive nir_call :=
  | CallReflectance (sun_zenith tb_near_ir tb_thermal : nirarg N) (co2 : option (nirarg N)) (lut : option (option (tblut N)))
  | CallEmissive (tb : bool)
  | CallCorrection (bt11 bt13 : arr N) (method : string).
  Definition run_call (E : nir_env) (c : calculator) (k : nir_call) (s : nirstate) : nirstate :=
    match k with
    | CallReflectance z n t co2 l => fst (reflectance_from_tbs E c z n t co2 l s)
    | CallEmissive tb => fst (emissive_part_3x c tb s)
    | CallCorrection a b m => fst (m_derive_rad39_corr a b m s)
    end.
  Definition run_calls (E : nir_env) (c : calculator) (ks : list nir_call) (s : nirstate) : nirstate :=
    fold_left (fun s k => run_call E c k s) ks s.
End Nir.
Arguments nir_env : clear implicits.
Arguments calculator : clear implicits.
Arguments nirstate : clear implicits.
