(** Where the readers of NetCDF files and work books write, and the bands of SLSTR (C101, C102). *)
From Coq Require Import String List Bool ZArith.
From Verif Require Import Base NumSig M_Tables M_Utils M_World M_Hdf5 M_Raw M_Books S_Raw S_Books P_Raw P_RawBands P_Books.
Import ListNotations.
Local Open Scope string_scope.

Lemma options_out options p i out m path : get_options_from_config options p i = Ok (out, m, path) -> out = match dget "rsr_dir" options with Some c => c | None => Leaf (LStr "./") end.
Proof.
  unfold get_options_from_config. cbn zeta. intros G. destruct (dget (p ++ "-" ++ i) options) as [[l|m']|]; cbn in G; try discriminate.
  destruct (dget "path" m') as [[[s| | | |]|]|]; cbn in G; try discriminate. now injection G as <- <- <-.
Qed.
Section W.
  Context {N : Num} (options : dict cfg).
  Lemma goes_path ex strict i p (ld : string -> res (raw N)) o : path_rsr options ex strict i p ld = Ok o -> goes_to options i o.
  Proof.
    unfold path_rsr. intros H. bstep H. destruct a as [[out m] path]. apply options_out in E as ->. unfold goes_to.
    destruct (ex path); [bstep H|destruct strict; [discriminate|]]; injection H as <-; cbn [ir_instrument ir_output_dir]; (split; [reflexivity|]); split; [intros d ->|intros ->|intros d ->|intros ->]; reflexivity.
  Qed.
  Lemma goes_text ex strict bns i b p (ld : string -> res (raw N)) o : text_rsr options ex strict bns i b p ld = Ok o -> goes_to options i o.
  Proof.
    unfold text_rsr. intros H. bstep H. destruct a as [[out m] path]. apply options_out in E as ->. bstep H. bstep H. unfold goes_to.
    destruct (ex _); [bstep H|destruct strict; [discriminate|]]; injection H as <-; cbn [ir_instrument ir_output_dir]; (split; [reflexivity|]); split; [intros d ->|intros ->|intros d ->|intros ->]; reflexivity.
  Qed.
  Lemma books_go_to ex py_int py_float f32 (dataset : string -> res (nc_file N)) excel csv book b p o :
    (FciRSR options dataset b p = Ok o -> goes_to options "fci" o) /\ (OlciRSR options ex dataset b p = Ok o -> goes_to options "olci" o) /\
    (SlstrRSR options ex dataset b p = Ok o -> goes_to options "slstr" o) /\ (MetImageRSR options ex py_int dataset b p = Ok o -> goes_to options "metimage" o) /\
    (EpicRSR options ex excel b p = Ok o -> goes_to options "epic" o) /\ (GOCI2RSR options ex csv b p = Ok o -> goes_to options "goci2" o) /\
    (MsiRSR options ex excel b p = Ok o -> goes_to options "msi" o) /\ (OliRSR options ex excel b p = Ok o -> goes_to options "oli_tirs" o) /\
    (AatsrRSR options py_float f32 book b p = Ok o -> goes_to options "aatsr" o).
  Proof.
    split; [|split; [apply goes_path|split; [apply goes_text|split; [apply goes_path|split; [apply goes_path|split; [apply goes_path|split; [|split]]]]]]].
    - unfold FciRSR. intros H. bstep H. destruct a as [[out m] path]. apply options_out in E as ->. repeat bstep H. injection H as <-. unfold goes_to. cbn [ir_instrument ir_output_dir]. split; [reflexivity|]. split; [intros d ->|intros ->]; reflexivity.
    - unfold MsiRSR. intros H. bstep H. revert H. apply goes_path.
    - unfold OliRSR. intros H. bstep H. destruct a as [[out m] path]. apply options_out in E as ->. bstep H. bstep H. destruct (ex _); [|discriminate]. bstep H. injection H as <-. unfold goes_to. cbn [ir_instrument ir_output_dir]. split; [reflexivity|]. split; [intros d ->|intros ->]; reflexivity.
    - unfold AatsrRSR. intros H. repeat bstep H. injection H as <-. unfold goes_to. cbn [ir_instrument ir_output_dir]. split; [reflexivity|]. unfold rsr_dir. split; [intros d ->|intros ->]; reflexivity.
  Qed.
End W.
Lemma slstr_channels : channels 1 9 = SLSTR_BANDS.
Proof. reflexivity. Qed.
Lemma slstr_known {N : Num} options ex (dataset : string -> res (nc_file N)) b p o : SlstrRSR options ex dataset b p = Ok o ->
  In b SLSTR_BANDS /\ forall b', In b' SLSTR_BANDS -> exists f, configured options p "slstr" b' f.
Proof. unfold SlstrRSR. rewrite slstr_channels. intros H. destruct (text_inv _ _ _ _ _ _ _ _ _ H) as (out & f & P). apply (proj2 (parts_configured _ _ _ _ _ _ _ P)). Qed.
Lemma slstr_complete {N : Num} options ex (dataset : string -> res (nc_file N)) b p file : In b SLSTR_BANDS ->
  (forall b', In b' SLSTR_BANDS -> exists f, configured options p "slstr" b' f) -> configured options p "slstr" b file ->
  (ex file = false -> SlstrRSR options ex dataset b p = Err OSError) /\
  (forall nc w y, ex file = true -> dataset file = Ok nc -> dget "wavelength" (nc_variables nc) = Some (NV1 w) -> dget "response" (nc_variables nc) = Some (NV1 y) ->
     exists o, SlstrRSR options ex dataset b p = Ok o /\ ir_rsr o = Some {| rw_wavelength := map (fun x => nmul N x (nlit N 1%Z 1%positive)) w; rw_response := y |}).
Proof.
  intros Hb Hall Hc. unfold SlstrRSR. rewrite slstr_channels. destruct (all_parts _ _ _ _ _ _ Hall Hb Hc) as (out & P). rewrite (text_eq _ _ _ _ _ _ _ _ _ _ P). split.
  - intros ->. reflexivity.
  - intros nc w y -> D W Y. unfold load_slstr. rewrite D. cbn [bind]. rewrite W, Y. cbn [of_option bind nc_vector]. eexists. split; [reflexivity|]. reflexivity.
Qed.
