(** Findings about the readers of work books. *)
From Coq Require Import String Ascii List Bool ZArith Lia Reals Lra.
From Verif Require Import Base NumSig XR M_Tables M_Utils M_World M_Hdf5 M_Raw M_Books S_Raw S_Books P_Raw P_Books P_Books2.
Import ListNotations.
Local Open Scope string_scope.

(** a sheet of two columns whose blanks are not in the same rows *)
Definition gap_options : dict cfg := [("GEO-KOMPSAT-2B-goci2", CMap [("path", Leaf (LStr "/raw/goci2.csv"))])].
Definition gap_w : list XRN := [Fin 379; Fin 380; NaN].
Definition gap_y : list XRN := [NaN; Fin 1; Fin (1/2)].
Definition gap_csv (_ : string) : res (dict (list XRN)) := Ok [("Wavelength", gap_w); ("B1 (380 nm)", gap_y)].
Lemma gap_load : exists o r, @GOCI2RSR XRN gap_options (fun _ => true) gap_csv "L380" "GEO-KOMPSAT-2B" = Ok o /\ ir_rsr o = Some r /\
  points r = [(Fin (379 / 1000), Fin 1); (Fin (380 / 1000), Fin (1 / 2))].
Proof.
  assert (M : @normalised XRN [Fin 1; Fin (1 / 2)] = Ok [Fin 1; Fin (1 / 2)]).
  { destruct (maximum_total [(0, 1); (0, 1/2)]%R) as (q & Hq & M & B); [discriminate|]. unfold normalised. rewrite (M : @maximum XRN [Fin 1; Fin (1/2)] = _). cbn [bind map].
    assert (Q : snd q = 1%R). { cbn [In] in Hq. pose proof (B _ (or_introl eq_refl)) as K. destruct Hq as [<-|[<-|[]]]; cbn [snd] in *; lra. } rewrite Q.
    f_equal. f_equal; [|f_equal]; (eapply eq_trans; [apply xdiv_fin; lra|]); f_equal; lra. }
  unfold GOCI2RSR, path_rsr. cbn [bind get_options_from_config]. change (get_options_from_config gap_options "GEO-KOMPSAT-2B" "goci2") with (Ok (A:=cfg * dict cfg * string) (Leaf (LStr "./"), [("path", Leaf (LStr "/raw/goci2.csv"))], "/raw/goci2.csv")).
  cbn [bind]. unfold load_goci2. cbn [gap_csv bind].
  change (of_option KeyError (dget "L380" GOCI2_BAND_NAMES)) with (Ok "B1 (380 nm)"). cbn [bind]. unfold left_and_named.
  change (get_loc "B1 (380 nm)" [("Wavelength", gap_w); ("B1 (380 nm)", gap_y)]) with (Ok 1%nat). cbn [bind left_column idx nth_error of_option snd].
  unfold idx. cbn [bind nth_error of_option snd]. rewrite !dropna_present. cbn [gap_w gap_y present].
  match goal with |- context [normalised ?l] => change (normalised l) with (@normalised XRN [Fin 1; Fin (1 / 2)]) end. rewrite M. cbn [bind].
  eexists _, _. split; [reflexivity|]. split; [reflexivity|]. unfold points. cbn [rw_wavelength rw_response map combine]. rewrite !thousand. reflexivity.
Qed.
Lemma gaps_mispair : exists options read_csv o r x y w v, @GOCI2RSR XRN options (fun _ => true) read_csv "L380" "GEO-KOMPSAT-2B" = Ok o /\ ir_rsr o = Some r /\
  read_csv "/raw/goci2.csv" = Ok [("Wavelength", w); ("B1 (380 nm)", v)] /\ In (Fin (x / 1000), Fin y) (points r) /\ ~ In (Fin x, Fin y) (combine w v) /\
  exists m, peak (present v) m /\ ~ (exists u, In (Fin x, u) (combine w v) /\ ndiv XRN u m = Fin y).
Proof.
  destruct gap_load as (o & r & E1 & E2 & P). exists gap_options, gap_csv, o, r, 379%R, 1%R, gap_w, gap_y. split; [exact E1|]. split; [exact E2|]. split; [reflexivity|].
  split; [rewrite P; now left|]. split.
  { cbn [gap_w gap_y combine In]. intros [K|[K|[K|[]]]]; try discriminate K. injection K as K. lra. }
  exists (Fin 1). split.
  - split; [left; reflexivity|]. cbn [present gap_y]. intros l' El. destruct l' as [|a [|b [|? ?]]]; try discriminate El. injection El as <- <-. exists 1%R. split; [reflexivity|].
    intros z [<-|[<-|[]]]; lra.
  - intros (u & [K|[K|[K|[]]]] & Q); cbn [gap_w gap_y] in K; try discriminate K.
    + injection K as <-. discriminate Q.
    + injection K as K _. lra.
Qed.

(** the sheets of the other bands decide *)
Lemma oli_independent options ex read_excel read_excel' p b own : In (b, own) LANDSAT -> In b ["B6"; "B7"; "B8"; "B9"] ->
  (forall path sheet n, sheet <> own -> read_excel path sheet n = read_excel' path sheet n) ->
  @OliRSR XRN options ex read_excel b p = OliRSR options ex read_excel' b p.
Proof.
  intros I B A. unfold OliRSR. destruct (get_options_from_config options p "oli_tirs") as [[[out m] path]|]; cbn [bind]; [|reflexivity].
  assert (L : forall f, @load_oli XRN read_excel b p f = load_oli read_excel' b p f).
  { intros f. unfold load_oli. cbn [LANDSAT In] in I.
    repeat (destruct I as [I|I]; [injection I as <- <-; try (exfalso; cbn [In] in B; intuition discriminate); cbn [dget OLI_BAND_NAMES String.eqb Ascii.eqb Bool.eqb]; unfold oli_columns; rewrite A by discriminate; reflexivity|]).
    destruct I. }
  destruct (if dhas b OLI_BAND_NAMES then _ else _) as [key|]; cbn [bind]; [|reflexivity]. destruct (file_entry key m) as [f|]; cbn [bind]; [|reflexivity].
  now rewrite L.
Qed.
(** wavelengths of the infrared bands in micrometres lose a factor of 1000 *)
Lemma tirs_units options ex read_excel b p o : In b ["B10"; "B11"] -> @OliRSR XRN options ex read_excel b p = Ok o ->
  exists path sheet rn df w y r, read_excel path sheet 0%nat = Ok df /\ dget "wavelength [um]" df = Some w /\ dget rn df = Some y /\ ir_rsr o = Some r /\
    forall rows, w = firsts rows -> y = seconds rows -> Forall (fun q => 8 <= fst q <= 14)%R rows -> forall v, In v (rw_wavelength r) -> exists x, v = Fin x /\ (x < 15 / 1000)%R.
Proof.
  intros B H. apply oli_ok in H as (path & f & key & sheet & wn & rn & df & w & y & r & L & _ & _ & _ & R & W & Y & Er & K).
  assert (wn = "wavelength [um]") as ->. { destruct L as [p b s I| | | |]; try reflexivity. exfalso. cbn [In] in I, B. destruct B as [<-|[<-|[]]]; intuition discriminate. }
  exists (path ++ "/" ++ f), sheet, rn, df, w, y, r. split; [exact R|]. split; [exact W|]. split; [exact Y|]. split; [exact Er|].
  intros rows Ew Ey F v Hv. destruct (K rows Ew Ey) as (kept & P & Kw & _). rewrite Kw in Hv. unfold reals in Hv. rewrite map_map in Hv. apply in_map_iff in Hv as (q & <- & Hq).
  exists (fst q / 1000)%R. split; [reflexivity|]. assert (In q rows). { clear - P Hq. induction P; cbn in *; intuition (subst; auto). } rewrite Forall_forall in F. specialize (F q H). lra.
Qed.
