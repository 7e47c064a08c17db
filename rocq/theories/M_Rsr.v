(** Model of RSRDict and of the in-memory part of RelativeSpectralResponse
    (/repo/pyspectral/rsr_reader.py). *)
From Coq Require Import String Ascii List Bool Arith ZArith.
From Verif Require Import Base NumSig M_Tables M_Utils.
Import ListNotations.
Local Open Scope string_scope.

Section Rsr.
  Context {N : Num}.

  (** rsr_reader.py:46-52: the instrument attribute is a name, a list of names
      (INSTRUMENTS default of a multi-sensor platform, line 301) or None. *)
  Definition instr := option instr_entry.

  (** rsr_reader.py:54-65.  [self.instrument in BANDNAMES] hashes the instrument,
      which fails for a list. *)
  Definition RSRDict_getitem {V} (instrument : instr) (d : dict V) (key : string) : res V :=
    match dget key d with
    | Some v => Ok v
    | None =>
        let generic :=
          match dget key BN_generic with
          | Some k' => of_option KeyError (dget k' d)
          | None => Err KeyError
          end in
        match instrument with
        | Some (IList _) => Err TypeError
        | None => generic
        | Some (IOne i) =>
            match dget i BANDNAMES with
            | Some t => match dget key t with
                        | Some k' => of_option KeyError (dget k' d)
                        | None => generic
                        end
            | None => generic
            end
        end
    end.

  (** rsr_reader.py:67-72: only KeyError is caught *)
  Definition RSRDict_get {V} (instrument : instr) (d : dict V) (key : string) (default : V) : res V :=
    match RSRDict_getitem instrument d key with
    | Ok v => Ok v
    | Err KeyError => Ok default
    | Err e => Err e
    end.

  (** [key in d]: inherited from dict *)
  (** key in dict: RSRDict (rsr_reader.py:46-72) does not override it *)
  Definition RSRDict_contains {V} (d : dict V) (key : string) : bool := dhas key d.

  (** What the rest of the package holds as "rsr": an RSRDict or a plain dict
      (result of convert2wavenumber). *)
  (** the rsr attribute: rsr_reader.py:139-251 or a plain dictionary *)
  Inductive rsrobj :=
  | RsrDict (i : instr) (d : rsrdata N)
  | PlainDict (d : rsrdata N).
  Definition rsr_data (r : rsrobj) : rsrdata N :=
    match r with RsrDict _ d | PlainDict d => d end.
  Definition rsr_getitem (r : rsrobj) (key : string) : res (band N) :=
    match r with
    | RsrDict i d => RSRDict_getitem i d key
    | PlainDict d => of_option KeyError (dget key d)
    end.

  (** Attributes of a RelativeSpectralResponse after construction,
      rsr_reader.py:160-180. *)
  Record rsr_state := {
    rs_instrument : instr;
    rs_unit : string;
    rs_si_scale : N;
    rs_wavespace : string;
    rs_rsr : rsrdata N }.

  (** attribute assignments of rsr_reader.py:226-246 *)
  Definition with_rsr (s : rsr_state) (d : rsrdata N) : rsr_state :=
    {| rs_instrument := rs_instrument s; rs_unit := rs_unit s; rs_si_scale := rs_si_scale s;
       rs_wavespace := rs_wavespace s; rs_rsr := d |}.
  Definition with_unit (s : rsr_state) (u : string) (x : N) : rsr_state :=
    {| rs_instrument := rs_instrument s; rs_unit := u; rs_si_scale := x;
       rs_wavespace := rs_wavespace s; rs_rsr := rs_rsr s |}.
  Definition with_wavespace (s : rsr_state) (w : string) : rsr_state :=
    {| rs_instrument := rs_instrument s; rs_unit := rs_unit s; rs_si_scale := rs_si_scale s;
       rs_wavespace := w; rs_rsr := rs_rsr s |}.

  (** rsr_reader.py:163-165, 174-175, 179-180 with the data read from file *)
  Definition rsr_init (i : instr) (data : rsrdata N) : rsr_state :=
    {| rs_instrument := i; rs_unit := "1e-6 m"; rs_si_scale := nlit N 1 1000000;
       rs_wavespace := WAVE_LENGTH; rs_rsr := data |}.

  (** rsr_reader.py:215-224 *)
  Definition integral (s : rsr_state) (band_name : string) : res (dict N) :=
    b <- RSRDict_getitem (rs_instrument s) (rs_rsr s) band_name ;;
    fold_left (fun acc det =>
                 a <- acc ;;
                 d <- of_option KeyError (dget det b) ;;
                 wvl <- get_arr "wavelength" d ;;
                 resp <- get_arr "response" d ;;
                 i <- trapezoid resp wvl ;;
                 Ok (dset det i a)) (dkeys b) (Ok []).

  (** A statement of a method: new state and possibly an exception. *)
  (** statements of rsr_reader.py:226-246 *)
  Definition stmt := rsr_state -> rsr_state * res unit.
  Definition skip : stmt := fun s => (s, Ok tt).
  Definition seq_ (a b : stmt) : stmt :=
    fun s => let (s', r) := a s in match r with Ok _ => b s' | Err e => (s', Err e) end.
  Definition for_each {A} (l : list A) (f : A -> stmt) : stmt :=
    fold_right (fun a k => seq_ (f a) k) skip l.
  Definition lift {A} (r : rsr_state -> res A) (k : A -> stmt) : stmt :=
    fun s => match r s with Ok a => k a s | Err e => (s, Err e) end.

  (** [self.rsr[band][det][key] = v]: the detector dictionaries are mutated in
      place; [del self.rsr[band][det][key]] likewise. *)
  (** item accesses of rsr_reader.py:226-246 *)
  Definition det_of (b d : string) (s : rsr_state) : res (detector N) :=
    bd <- RSRDict_getitem (rs_instrument s) (rs_rsr s) b ;;
    of_option KeyError (dget d bd).
  Definition upd_det (b d : string) (f : detector N -> detector N) (data : rsrdata N) : rsrdata N :=
    match dget b data with
    | Some bd => match dget d bd with
                 | Some dd => dset b (dset d (f dd) bd) data
                 | None => data
                 end
    | None => data
    end.
  Definition set_item (b d key : string) (v : pyval N) : stmt :=
    lift (det_of b d) (fun _ s => (with_rsr s (upd_det b d (dset key v) (rs_rsr s)), Ok tt)).
  Definition del_item (b d key : string) : stmt :=
    lift (det_of b d) (fun dd s =>
      if dhas key dd then (with_rsr s (upd_det b d (ddel key) (rs_rsr s)), Ok tt)
      else (s, Err KeyError)).

  (** all (band, detector) pairs of a converted dictionary, in iteration order *)
  (** item accesses of rsr_reader.py:226-246 *)
  Definition pairs_of (r : rsrdata N) : list (string * string) :=
    flat_map (fun kv => map (fun d => (fst kv, d)) (dkeys (snd kv))) r.

  (** [rsr[band][det][key]] on the plain dictionary *)
  (** item accesses of rsr_reader.py:226-246 *)
  Definition plain_item (r : rsrdata N) (b d key : string) : res (pyval N) :=
    bd <- of_option KeyError (dget b r) ;;
    dd <- of_option KeyError (dget d bd) ;;
    of_option KeyError (dget key dd).

  (** rsr_reader.py:230-237: body of the first double loop *)
  Definition convert_loop1 (rsr : rsrdata N) (unit : string) (si_scale : N)
             (p : string * string) : stmt :=
    let (b, d) := p in
    seq_ (lift (fun _ => plain_item rsr b d WAVE_NUMBER) (fun v => set_item b d WAVE_NUMBER v))
   (seq_ (lift (fun _ => plain_item rsr b d "response") (fun v => set_item b d "response" v))
         (fun s => (with_unit s unit si_scale, Ok tt))).

  (** rsr_reader.py:239-243: body of the second double loop *)
  Definition convert_loop2 (p : string * string) : stmt :=
    let (b, d) := p in
    seq_ (lift (fun s => dd <- det_of b d s ;;
                         wn <- get_arr WAVE_NUMBER dd ;;
                         resp <- get_arr "response" dd ;;
                         get_central_wave wn resp (WScalar n1))
               (fun c => set_item b d "central_wavenumber" (VNum c)))
         (del_item b d WAVE_LENGTH).

  (** rsr_reader.py:226-246 *)
  Definition convert : stmt := fun s =>
    if String.eqb (rs_wavespace s) WAVE_LENGTH then
      match convert2wavenumber (rs_rsr s) with
      | Err e => (s, Err e)
      | Ok (rsr, (unit, si_scale)) =>
          seq_ (for_each (pairs_of rsr) (convert_loop1 rsr unit si_scale))
         (seq_ (fun s => (with_wavespace s WAVE_NUMBER, Ok tt))
               (for_each (pairs_of rsr) convert_loop2)) s
      end
    else (s, Err NotImplementedError).
End Rsr.
Arguments rsrobj : clear implicits.
Arguments rsr_state : clear implicits.
