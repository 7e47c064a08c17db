(** Property theorems C01-C08 (blackbody.py, use_map_blocks_on). *)
From Coq Require Import Reals Lra ZArith String List Lia.
From Verif Require Import Base NumSig XR M_Blackbody S_Planck P_Blackbody P_Blackbody2.
Import ListNotations.
Open Scope R_scope.

Ltac forall_lra := repeat constructor; unfold T_cut; lra.

(** C01 *)
Theorem C01_wavelength_roundtrip_temperature :
  forall (l : R) (ts : list R), 0 < l -> Forall (fun t => T_cut < t) ts ->
  @blackbody_rad2temp XRN
     [PyFloat (Fin l); NpArray (concat (@blackbody XRN [Fin l] (map Fin ts)))]
  = Ok (NpArray (map Fin ts)).
Proof. exact wl_roundtrip. Qed.
Print Assumptions C01_wavelength_roundtrip_temperature.

Example C01_case :
  @blackbody_rad2temp XRN
     [PyFloat (Fin (11 / 10 ^ 6));
      NpArray (concat (@blackbody XRN [Fin (11 / 10 ^ 6)] [Fin 300; Fin 200.5; Fin 301]))]
  = Ok (NpArray [Fin 300; Fin 200.5; Fin 301]).
Proof. apply (C01_wavelength_roundtrip_temperature (11 / 10 ^ 6) [300; 200.5; 301]); [lra|forall_lra]. Qed.

(** C02 *)
Theorem C02_wavelength_roundtrip_radiance :
  forall (l : R) (bs : list R), 0 < l -> Forall (fun b => 0 < b) bs ->
  Forall (fun b => T_cut < T_lambda l b) bs ->
  exists ts, @blackbody_rad2temp XRN [PyFloat (Fin l); NpArray (map Fin bs)] = Ok (NpArray ts) /\
             concat (@blackbody XRN [Fin l] ts) = map Fin bs.
Proof. exact wl_roundtrip_rad. Qed.
Print Assumptions C02_wavelength_roundtrip_radiance.

(** The hypotheses hold e.g. for the radiances of 300 K and 250 K at 11 um. *)
Example C02_case :
  let l := 11 / 10 ^ 6 in
  let bs := [B_lambda l 300; B_lambda l 250] in
  Forall (fun b => 0 < b) bs /\ Forall (fun b => T_cut < T_lambda l b) bs.
Proof.
  intros l bs. assert (0 < l) by (unfold l; lra). unfold bs.
  split; repeat constructor; try (apply B_lambda_pos; auto; lra);
    rewrite T_of_B_lambda by (auto; lra); unfold T_cut; lra.
Qed.

(** C03 *)
Theorem C03_wavenumber_roundtrip_temperature :
  forall (n : R) (ts : list R), 0 < n -> Forall (fun t => T_cut < t) ts ->
  @blackbody_wn_rad2temp XRN
     [PyFloat (Fin n); NpArray (concat (@blackbody_wn XRN [Fin n] (map Fin ts)))]
  = Ok (NpArray (map Fin ts)).
Proof. exact wn_roundtrip. Qed.
Print Assumptions C03_wavenumber_roundtrip_temperature.

Theorem C03_wavenumber_roundtrip_radiance :
  forall (n : R) (bs : list R), 0 < n -> Forall (fun b => 0 < b) bs ->
  Forall (fun b => T_cut < T_nu n b) bs ->
  exists ts, @blackbody_wn_rad2temp XRN [PyFloat (Fin n); NpArray (map Fin bs)] = Ok (NpArray ts) /\
             concat (@blackbody_wn XRN [Fin n] ts) = map Fin bs.
Proof. exact wn_roundtrip_rad. Qed.
Print Assumptions C03_wavenumber_roundtrip_radiance.

Example C03_case :
  @blackbody_wn_rad2temp XRN
     [PyFloat (Fin 90909.1); NpArray (concat (@blackbody_wn XRN [Fin 90909.1] [Fin 300; Fin 301]))]
  = Ok (NpArray [Fin 300; Fin 301]).
Proof. apply (C03_wavenumber_roundtrip_temperature 90909.1 [300; 301]); [lra|forall_lra]. Qed.
Example C03_case_radiance :
  let bs := [B_nu 90909 300; B_nu 90909 250] in
  Forall (fun b => 0 < b) bs /\ Forall (fun b => T_cut < T_nu 90909 b) bs.
Proof.
  intros bs. unfold bs.
  split; repeat constructor; try (apply B_nu_pos; lra);
    rewrite T_of_B_nu by lra; unfold T_cut; lra.
Qed.

(** C04: the tables are Planck's law; positive, strictly increasing, below
    Rayleigh-Jeans; inversion strictly increasing. *)
Theorem C04_wavelength_radiance :
  forall l t, 0 < l -> T_cut < t ->
  @blackbody XRN [Fin l] [Fin t] = [[Fin (B_lambda l t)]] /\
  0 < B_lambda l t < 2 * c_light * k_boltz * t / l ^ 4 /\
  (forall t', t < t' -> B_lambda l t < B_lambda l t').
Proof.
  intros l t Hl Ht. pose proof T_cut_pos. assert (0 < t) by lra.
  exact (conj (f_equal (fun x => [[x]]) (planck1_wl l t Hl Ht))
        (conj (conj (B_lambda_pos l t Hl H0) (B_lambda_RJ l t Hl H0))
              (fun t' Htt => B_lambda_incr l t t' Hl H0 Htt))).
Qed.
Print Assumptions C04_wavelength_radiance.

Theorem C04_wavenumber_radiance :
  forall n t, 0 < n -> T_cut < t ->
  @blackbody_wn XRN [Fin n] [Fin t] = [[Fin (B_nu n t)]] /\
  0 < B_nu n t < 2 * c_light * k_boltz * t * n ^ 2 /\
  (forall t', t < t' -> B_nu n t < B_nu n t').
Proof.
  intros l t Hl Ht. pose proof T_cut_pos. assert (0 < t) by lra.
  exact (conj (f_equal (fun x => [[x]]) (planck1_wn l t Hl Ht))
        (conj (conj (B_nu_pos l t Hl H0) (B_nu_RJ l t Hl H0))
              (fun t' Htt => B_nu_incr l t t' Hl H0 Htt))).
Qed.
Print Assumptions C04_wavenumber_radiance.

Theorem C04_brightness_temperature_increasing :
  forall w b b', 0 < w -> 0 < b -> b < b' ->
  (exists t t', @blackbody_rad2temp XRN [PyFloat (Fin w); NpArray [Fin b; Fin b']]
                = Ok (NpArray [Fin t; Fin t']) /\ 0 < t < t') /\
  (exists t t', @blackbody_wn_rad2temp XRN [PyFloat (Fin w); NpArray [Fin b; Fin b']]
                = Ok (NpArray [Fin t; Fin t']) /\ 0 < t < t').
Proof.
  intros w b b' Hw Hb Hbb. assert (0 < b') by lra. split.
  - exists (T_lambda w b), (T_lambda w b').
    split; [|split; [apply T_lambda_pos|apply T_lambda_incr]; auto].
    unfold blackbody_rad2temp, use_map_blocks_on. cbn [nth_error rad2temp_body arg_scalar bind map].
    now rewrite !rad2temp_eq.
  - exists (T_nu w b), (T_nu w b').
    split; [|split; [apply T_nu_pos|apply T_nu_incr]; auto].
    unfold blackbody_wn_rad2temp, use_map_blocks_on.
    cbn [nth_error wn_rad2temp_body arg_scalar bind map].
    now rewrite !wn_rad2temp_eq.
Qed.
Print Assumptions C04_brightness_temperature_increasing.

Example C04_case :
  exists r r', @blackbody XRN [Fin (11 / 10 ^ 6)] [Fin 300] = [[Fin r]] /\
               @blackbody XRN [Fin (11 / 10 ^ 6)] [Fin 301] = [[Fin r']] /\ 0 < r < r'.
Proof.
  assert (Hl : 0 < 11 / 10 ^ 6) by lra. assert (Ht : T_cut < 300) by (unfold T_cut; lra).
  assert (Ht' : T_cut < 301) by (unfold T_cut; lra).
  destruct (C04_wavelength_radiance _ _ Hl Ht) as (E & [P _] & I).
  destruct (C04_wavelength_radiance _ _ Hl Ht') as (E' & _ & _).
  exists (B_lambda (11 / 10 ^ 6) 300), (B_lambda (11 / 10 ^ 6) 301).
  repeat split; auto. apply I. lra.
Qed.

(** C05 *)
Theorem C05_spaces_agree_radiance :
  forall n t, 0 < n -> T_cut < t ->
  exists bl bn, @blackbody XRN [Fin (1 / n)] [Fin t] = [[Fin bl]] /\
                @blackbody_wn XRN [Fin n] [Fin t] = [[Fin bn]] /\ bn = bl / n ^ 2.
Proof.
  intros n t Hn Ht. pose proof T_cut_pos. assert (Ht0 : 0 < t) by lra.
  assert (Hi : 0 < 1 / n) by (apply Rdiv_lt_0_compat; lra).
  exists (B_lambda (1 / n) t), (B_nu n t).
  split; [|split].
  - exact (f_equal (fun x => [[x]]) (planck1_wl (1 / n) t Hi Ht)).
  - exact (f_equal (fun x => [[x]]) (planck1_wn n t Hn Ht)).
  - rewrite B_equiv by auto. field. lra.
Qed.
Print Assumptions C05_spaces_agree_radiance.

Theorem C05_spaces_agree_temperature :
  forall n b, 0 < n -> 0 < b ->
  exists t, @blackbody_rad2temp XRN [PyFloat (Fin (1 / n)); NpArray [Fin (n ^ 2 * b)]]
            = Ok (NpArray [Fin t]) /\
            @blackbody_wn_rad2temp XRN [PyFloat (Fin n); NpArray [Fin b]] = Ok (NpArray [Fin t]).
Proof.
  intros n b Hn Hb. assert (Hi : 0 < 1 / n) by (apply Rdiv_lt_0_compat; lra).
  assert (0 < n ^ 2 * b) by (apply Rmult_lt_0_compat; auto; apply pow_lt; auto).
  exists (T_nu n b).
  unfold blackbody_rad2temp, blackbody_wn_rad2temp, use_map_blocks_on.
  cbn [nth_error rad2temp_body wn_rad2temp_body arg_scalar bind map].
  rewrite rad2temp_eq, wn_rad2temp_eq by auto. rewrite T_equiv by auto. auto.
Qed.
Print Assumptions C05_spaces_agree_temperature.

Example C05_case :
  exists bl bn, @blackbody XRN [Fin (1 / 90909)] [Fin 300] = [[Fin bl]] /\
                @blackbody_wn XRN [Fin 90909] [Fin 300] = [[Fin bn]] /\ bn = bl / 90909 ^ 2.
Proof. apply C05_spaces_agree_radiance; unfold T_cut; lra. Qed.
Example C05_case_temperature :
  exists t, @blackbody_rad2temp XRN [PyFloat (Fin (1 / 90909)); NpArray [Fin (90909 ^ 2 * 0.001)]]
            = Ok (NpArray [Fin t]) /\
            @blackbody_wn_rad2temp XRN [PyFloat (Fin 90909); NpArray [Fin 0.001]] = Ok (NpArray [Fin t]).
Proof. apply C05_spaces_agree_temperature; lra. Qed.

(** C06: temperatures.  Also: a temperature below the cut-off on the negative
    side gives a negative radiance, an infinite one an infinite radiance. *)
Theorem C06_undefined_temperature :
  forall (w : XR) (t : R),
  @blackbody XRN [w] [NaN] = [[NaN]] /\ @blackbody_wn XRN [w] [NaN] = [[NaN]] /\
  (Rabs t <= T_cut -> @blackbody XRN [w] [Fin t] = [[NaN]] /\ @blackbody_wn XRN [w] [Fin t] = [[NaN]]).
Proof.
  intros w t. split; [|split].
  - exact (f_equal (fun x => [[x]]) (planck1_nan true w)).
  - exact (f_equal (fun x => [[x]]) (planck1_nan false w)).
  - intros H. exact (conj (f_equal (fun x => [[x]]) (planck1_nan_cut true w t H))
                          (f_equal (fun x => [[x]]) (planck1_nan_cut false w t H))).
Qed.
Print Assumptions C06_undefined_temperature.

Theorem C06_negative_temperature :
  forall l t, 0 < l -> t < - T_cut -> exists r, @blackbody XRN [Fin l] [Fin t] = [[Fin r]] /\ r < 0.
Proof.
  intros l t Hl Ht. destruct (planck1_neg_wl l t Hl Ht) as (r & E & Hr).
  exists r. exact (conj (f_equal (fun x => [[x]]) E) Hr).
Qed.
Print Assumptions C06_negative_temperature.

(** A Python zero as radiance divides by zero with a Python wavenumber; numpy
    numbers do not. *)
Theorem C06_python_zero_radiance :
  forall w : R, 0 < w ->
  @blackbody_wn_rad2temp XRN [PyFloat (Fin w); PyFloat (Fin 0)] = Err ZeroDivisionError /\
  @blackbody_wn_rad2temp XRN [NpScalar (Fin w); PyFloat (Fin 0)] = Ok (NpScalar (Fin 0)) /\
  @blackbody_wn_rad2temp XRN [PyFloat (Fin w); NpScalar (Fin 0)] = Ok (NpScalar (Fin 0)) /\
  (forall r, r <> 0 -> @blackbody_wn_rad2temp XRN [PyFloat (Fin w); PyFloat (Fin r)] =
                       @blackbody_wn_rad2temp XRN [PyFloat (Fin w); NpScalar (Fin r)]).
Proof. exact wn_python_zero. Qed.
Print Assumptions C06_python_zero_radiance.

(** radiances: [limit] is C2 / lambda^5 *)
Theorem C06_nonpositive_radiance :
  forall l b, 0 < l -> b <= 0 ->
  let limit := 2 * h_planck * c_light ^ 2 / l ^ 5 in
  exists x, @blackbody_rad2temp XRN [PyFloat (Fin l); NpArray [Fin b]] = Ok (NpArray [x]) /\
  ((x = NaN /\ - limit < b < 0) \/
   (x = Fin 0 /\ (b = 0 \/ b = - limit)) \/
   (exists t, x = Fin t /\ t < 0 /\ b < - limit)).
Proof.
  intros l b Hl Hb limit. exists (@rad2temp XRN (Fin l) (Fin b)). split; [reflexivity|].
  fold c2 in limit.
  destruct (Req_dec b 0) as [->|Hb0]; [right; left; split; auto; apply rad2temp_zero; auto|].
  destruct (Rlt_le_dec (- limit) b) as [H1|H1].
  - left. split; [apply rad2temp_neg_nan; auto|]; unfold limit in *; lra.
  - right. destruct H1 as [H1| ->].
    + right. destruct (rad2temp_very_neg l b Hl H1) as (t & E & Ht). exists t; auto.
    + left. split; auto. apply rad2temp_limit_neg; auto.
Qed.
Print Assumptions C06_nonpositive_radiance.

Example C06_case :
  @blackbody XRN [Fin (11 / 10 ^ 6)] [Fin (-1 / 10 ^ 7)] = [[NaN]].
Proof. apply C06_undefined_temperature. unfold T_cut. rewrite Rabs_left; lra. Qed.
(** the NaN branch is reached by a realistic value: -1 W/m^2/sr/m at 11 um *)
Example C06_case_radiance :
  @blackbody_rad2temp XRN [PyFloat (Fin (11 / 10 ^ 6)); NpArray [Fin (-1)]] = Ok (NpArray [NaN]).
Proof.
  destruct (C06_nonpositive_radiance (11 / 10 ^ 6) (-1)) as (x & E & [[-> _]|[[_ [H|H]]|(t & _ & _ & H)]]);
    try lra; auto; exfalso; unfold h_planck, c_light in H; lra.
Qed.

(** C07: entry (i,j) is the single-value result for temperature i and wave j. *)
Theorem C07_table_entries :
  forall (N : Num) (ws ts : list N) (wl : bool),
  length (planck ws ts wl) = length ts /\
  Forall (fun row => length row = length ws) (planck ws ts wl) /\
  (forall i j w t, nth_error ws j = Some w -> nth_error ts i = Some t ->
     exists row v, nth_error (planck ws ts wl) i = Some row /\ nth_error row j = Some v /\
                   planck [w] [t] wl = [[v]]).
Proof.
  intros N ws ts wl. destruct (planck_size ws ts wl) as [H1 H2].
  refine (conj H1 (conj H2 _)). intros i j w t Hw Ht.
  destruct (planck_entry ws ts wl i j w t Hw Ht) as (row & A & B).
  exists row, (planck1 wl w t). auto.
Qed.
Print Assumptions C07_table_entries.

(** Any temperature array is flattened: an R x C image gives (R*C) x M. *)
Theorem C07_shape_lost :
  forall (N : Num) (ws : list N) (img : ndarray) (r c : nat) (wl : bool),
  nd_shape img = [r; c] -> length (nd_data img) = (r * c)%nat ->
  nd_shape (planck_nd ws img wl) = [(r * c)%nat; length ws] /\
  length (nd_data (planck_nd ws img wl)) = (r * c * length ws)%nat.
Proof.
  intros N ws img r c wl Hs Hd. unfold planck_nd; simpl. rewrite Hd. split; [reflexivity|].
  rewrite <- Hd. destruct (planck_size ws (nd_data img) wl) as [H1 H2].
  rewrite <- H1. clear - H2. induction H2 as [|x l Hx _ IH]; simpl; auto.
  rewrite app_length, Hx, IH. lia.
Qed.
Print Assumptions C07_shape_lost.

Example C07_case :
  let img := {| nd_shape := [2; 2]%nat; nd_data := [Fin 300; Fin 280; Fin 260; Fin 240] : list XRN |} in
  nd_shape (planck_nd (N := XRN) [Fin (11 / 10 ^ 6)] img true) = [4; 1]%nat.
Proof. apply (C07_shape_lost XRN [Fin (11 / 10 ^ 6)] _ 2 2 true); reflexivity. Qed.

(** With numpy arrays an empty argument raises (the largest and smallest values
    are asked for, for the log); otherwise the table is returned. *)
Theorem C07_empty_arrays :
  forall (N : Num) (ws ts : list N) (wl : bool),
  (ws = [] \/ ts = [] -> planck_np ws ts wl = Err ValueError) /\
  (ws <> [] -> ts <> [] ->
     exists table, planck_np ws ts wl = Ok table /\ length table = length ts /\
       forall i j w t, nth_error ws j = Some w -> nth_error ts i = Some t ->
         exists row v, nth_error table i = Some row /\ nth_error row j = Some v /\
                       planck_np [w] [t] wl = Ok [[v]]).
Proof.
  intros N ws ts wl. split.
  - intros [-> | ->]; [reflexivity|]. now destruct ws.
  - intros Hw Ht. exists (planck ws ts wl). split; [now destruct ws, ts|].
    split; [apply planck_size|]. intros i j w t Aw At.
    destruct (planck_entry ws ts wl i j w t Aw At) as (row & A & B).
    exists row, (planck1 wl w t). auto.
Qed.
Print Assumptions C07_empty_arrays.

Example C07_empty_case : planck_np (N := XRN) [Fin (11 / 10 ^ 6)] [] true = Err ValueError.
Proof. apply C07_empty_arrays. now right. Qed.

(** C08 *)
Theorem C08_chunking_irrelevant :
  forall (A : Type) (f : list (arg A) -> res (arg A)) (g : A -> A) (i : nat) (args : list (arg A)),
  (i < length args)%nat ->
  (forall l, f (replace_nth i (NpArray l) args) = Ok (NpArray (map g l))) ->
  forall (chunks : list (list A)) (attrs : string),
  use_map_blocks_on i f (replace_nth i (DaskArray chunks) args)
    = Ok (DaskArray (map (map g) chunks)) /\
  use_map_blocks_on i f (replace_nth i (XrDask attrs chunks) args)
    = Ok (XrDask attrs (map (map g) chunks)) /\
  use_map_blocks_on i f (replace_nth i (NpArray (concat chunks)) args)
    = Ok (NpArray (concat (map (map g) chunks))).
Proof.
  intros A f g i args Hi Hf chunks attrs.
  unfold use_map_blocks_on. rewrite !nth_error_replace by auto.
  split; [|split].
  - rewrite map_blocks_elementwise with (g := g); [reflexivity|].
    intros l. now rewrite replace_nth_twice.
  - rewrite map_blocks_elementwise with (g := g); [reflexivity|].
    intros l. rewrite !replace_nth_twice. auto.
  - rewrite Hf. now rewrite concat_map.
Qed.
Print Assumptions C08_chunking_irrelevant.

(** The two decorated functions: same values for every chunking and container. *)
Theorem C08_rad2temp_chunking :
  forall (N : Num) (w : N) (chunks : list (list N)) (attrs : string),
  (exists r, blackbody_rad2temp [PyFloat w; NpArray (concat chunks)] = Ok (NpArray (concat r)) /\
             blackbody_rad2temp [PyFloat w; DaskArray chunks] = Ok (DaskArray r) /\
             blackbody_rad2temp [PyFloat w; XrDask attrs chunks] = Ok (XrDask attrs r) /\
             map (@length N) r = map (@length N) chunks) /\
  (exists r, blackbody_wn_rad2temp [PyFloat w; NpArray (concat chunks)] = Ok (NpArray (concat r)) /\
             blackbody_wn_rad2temp [PyFloat w; DaskArray chunks] = Ok (DaskArray r) /\
             blackbody_wn_rad2temp [PyFloat w; XrDask attrs chunks] = Ok (XrDask attrs r) /\
             map (@length N) r = map (@length N) chunks).
Proof.
  intros N w chunks attrs.
  assert (L : forall h : N -> N, map (@length N) (map (map h) chunks) = map (@length N) chunks).
  { intros h. rewrite map_map. apply map_ext. intros; apply map_length. }
  split.
  - destruct (C08_chunking_irrelevant N rad2temp_body (rad2temp w) 1 [PyFloat w; PyNone]
                (le_n 2) (fun l => eq_refl) chunks attrs) as (A & B & C).
    exists (map (map (rad2temp w)) chunks). auto.
  - destruct (C08_chunking_irrelevant N wn_rad2temp_body (wn_rad2temp w) 1 [PyFloat w; PyNone]
                (le_n 2) (fun l => eq_refl) chunks attrs) as (A & B & C).
    exists (map (map (wn_rad2temp w)) chunks). auto.
Qed.
Print Assumptions C08_rad2temp_chunking.

(** Radiance by keyword (so not among the positional arguments): IndexError. *)
Theorem C08_keyword_fails :
  forall (N : Num) (w : arg N),
  blackbody_rad2temp [w] = Err IndexError /\ blackbody_wn_rad2temp [w] = Err IndexError /\
  blackbody_rad2temp ([] : list (arg N)) = Err IndexError.
Proof. intros N w. exact (conj eq_refl (conj eq_refl eq_refl)). Qed.
Print Assumptions C08_keyword_fails.

(** Chunked radiances that are neither dask nor xarray are refused. *)
Theorem C08_unknown_chunked :
  forall (N : Num) (w : arg N) (l : list N) (rest : list (arg N)),
  blackbody_rad2temp (w :: OtherChunked l :: rest) = Err NotImplementedError /\
  blackbody_wn_rad2temp (w :: OtherChunked l :: rest) = Err NotImplementedError.
Proof. intros N w l rest. exact (conj eq_refl eq_refl). Qed.
Print Assumptions C08_unknown_chunked.

(** "Scalar or arrays are accepted" (docstring) is refuted for Python floats. *)
Theorem C08_python_float_radiance_refuted :
  forall (N : Num) (w x : N), blackbody_rad2temp [PyFloat w; PyFloat x] = Err AttributeError.
Proof. intros N w x. exact eq_refl. Qed.
Print Assumptions C08_python_float_radiance_refuted.

Example C08_case :
  exists r1 r2 r3,
    @blackbody_rad2temp XRN [PyFloat (Fin 1); DaskArray [[Fin 2; Fin 3]; []; [Fin 4]]]
    = Ok (DaskArray [[r1; r2]; []; [r3]]) /\
    @blackbody_rad2temp XRN [PyFloat (Fin 1); NpArray [Fin 2; Fin 3; Fin 4]]
    = Ok (NpArray [r1; r2; r3]).
Proof. repeat eexists. Qed.
