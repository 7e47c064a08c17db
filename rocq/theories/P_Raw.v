(** Lemmas about the readers of text files (M_Raw). *)
From Coq Require Import String Ascii List Bool ZArith Lia Reals Lra Sorted.
From Verif Require Import Base NumSig XR M_Tables M_Utils M_World M_Hdf5 M_Raw S_Raw S_Hdf5 P_Hdf52.
Import ListNotations.
Local Open Scope string_scope.

Section T.
  Context {N : Num}.
  Implicit Types (options : dict cfg) (ex : string -> bool) (cols : string -> nat -> res (list (list N))).

  Definition parts options (bns : list string) (ins b p : string) (out : cfg) (f : string) : Prop :=
    exists m path fn, get_options_from_config options p ins = Ok (out, m, path) /\ get_bandfilenames m path bns [] = Ok fn /\ dget b fn = Some f.

  Lemma text_eq options ex strict bns ins b p out f (ld : string -> res (raw N)) : parts options bns ins b p out f ->
    text_rsr options ex strict bns ins b p ld =
    if ex f then r <- ld f ;; Ok {| ir_instrument := ins; ir_output_dir := out; ir_rsr := Some r |}
    else if strict then Err OSError else Ok {| ir_instrument := ins; ir_output_dir := out; ir_rsr := None |}.
  Proof. intros (m & path & fn & H1 & H2 & H3). unfold text_rsr. rewrite H1. cbn [bind]. rewrite H2. cbn [bind]. rewrite H3. reflexivity. Qed.
  Lemma text_inv options ex strict bns ins b p (ld : string -> res (raw N)) o : text_rsr options ex strict bns ins b p ld = Ok o ->
    exists out f, parts options bns ins b p out f.
  Proof.
    unfold text_rsr. destruct (get_options_from_config options p ins) as [[[out m] path]|] eqn:H1; [|discriminate]. cbn [bind].
    destruct (get_bandfilenames m path bns []) as [fn|] eqn:H2; [|discriminate]. cbn [bind].
    destruct (dget b fn) as [f|] eqn:H3; [|discriminate]. intros _. exists out, f, m, path, fn. auto.
  Qed.

  Lemma options_inv options p ins out m path : get_options_from_config options p ins = Ok (out, m, path) ->
    dget (p ++ "-" ++ ins) options = Some (CMap m) /\ dget "path" m = Some (Leaf (LStr path)).
  Proof.
    unfold get_options_from_config. destruct (dget (p ++ "-" ++ ins) options) as [[l|m']|]; cbn; try discriminate.
    destruct (dget "path" m') as [[[s| | | |]|]|] eqn:H; cbn; try discriminate. intros [= <- <- <-]. auto.
  Qed.
  Lemma names_inv m path bns : forall acc fn, get_bandfilenames m path bns acc = Ok fn ->
    (forall b, In b bns -> exists f, dget b m = Some (Leaf (LStr f)) /\ dget b fn = Some (join path f)) /\
    (forall b, ~ In b bns -> dget b fn = dget b acc).
  Proof.
    induction bns as [|x bns IH]; cbn [get_bandfilenames]; intros acc fn H; [injection H as <-; split; [intros b []|auto]|].
    destruct (dget x m) as [[[f| | | |]|]|] eqn:Hx; cbn in H; try discriminate.
    destruct (IH _ _ H) as [A B]. split.
    - intros b [<-|Hb]; [|now apply A].
      destruct (in_dec string_dec x bns) as [Hi|Hi]; [now apply A|].
      exists f. split; [easy|]. rewrite (B x Hi). apply dget_dset_same.
    - intros b Hb. rewrite B by (intro; apply Hb; now right). apply dget_dset_other. intros <-. apply Hb. now left.
  Qed.
  Lemma parts_configured options bns ins b p out f : parts options bns ins b p out f ->
    configured options p ins b f /\ In b bns /\ forall b', In b' bns -> exists f', configured options p ins b' f'.
  Proof.
    intros (m & path & fn & H1 & H2 & H3). apply options_inv in H1 as [K1 K2]. apply names_inv in H2 as [A B].
    assert (Hb : In b bns). { destruct (in_dec string_dec b bns); [easy|]. rewrite B in H3 by easy. discriminate. }
    repeat split; [|easy|].
    - destruct (A b Hb) as (g & G1 & G2). rewrite H3 in G2. injection G2 as ->. exists m, path, g. auto.
    - intros b' Hb'. destruct (A b' Hb') as (g & G1 & G2). exists (join path g), m, path, g. auto.
  Qed.

  Definition strictb (k : text_reader) : bool := match k with Abi | SlstrTxt => true | _ => false end.
  Lemma strict_insists k : strictb k = true <-> insists k.
  Proof. unfold insists. destruct k; cbn; split; try tauto; try discriminate; intros [?|?]; discriminate. Qed.

  Ltac own := match goal with
    | |- exists ld, _ => eexists (fun c => _); split; [intros; reflexivity|]
    end.
  Lemma shape k p : (exists e, forall options ex cols b, make k options ex cols b p = Err e) \/
    (exists bns ins, forall b, exists ld : (string -> nat -> res (list (list N))) -> string -> res (raw N),
      (forall options ex cols, make k options ex cols b p = text_rsr options ex (strictb k) bns ins b p (ld cols)) /\
      (forall cols cols' f, (forall n, cols f n = cols' f n) -> ld cols f = ld cols' f)).
  Proof.
    assert (L : forall s a c (x : N) cols cols' f, (forall n, cols f n = cols' f n) -> load_columns cols s a c x f = load_columns cols' s a c x f).
    { intros s a c x cols cols' f Hf. unfold load_columns. now rewrite Hf. }
    assert (L2 : forall s cols cols' f, (forall n, cols f n = cols' f n) -> two_columns cols s f = two_columns cols' s f).
    { intros s cols cols' f Hf. unfold two_columns. now rewrite Hf. }
    destruct k; cbn [make strictb].
    - right. exists (channels 1 16), "abi". intros b. eexists (fun c => load_columns c 2 0 2 _). split; [reflexivity|]. intros; now apply L.
    - unfold AvhrrRSR. destruct (dget p INSTRUMENTS) as [[i|l]|]; cbn [bind of_option as_name]; [|left; now eexists|left; now eexists].
      destruct (dget i AVHRR_BAND_NAMES) as [bns|]; cbn [bind of_option]; [|left; now eexists].
      right. exists bns, i. intros b. eexists (fun c => load_columns c 1 0 1 _). split; [reflexivity|]. intros; now apply L.
    - unfold CoctsRSR. destruct (instrument_of p "cocts") as [i|l]; cbn [bind as_name]; [|left; now eexists].
      right. exists (channels 1 8), i. intros b. eexists (fun c f => i <- _ ;; load_columns c 0 0 (S i) _ f). split; [reflexivity|].
      intros cols cols' f Hf. destruct (of_option ValueError (index_of b (channels 1 8))); cbn; [|easy]. now apply L.
    - right. unfold Mersi1RSR. eexists _, _. intros b. eexists (fun c => load_mersi1 c p b). split; [reflexivity|].
      intros cols cols' f Hf. unfold load_mersi1. now rewrite Hf.
    - unfold Mersi2RSR. destruct (instrument_of p "mersi-2") as [i|l]; cbn [bind as_name]; [|left; now eexists].
      right. exists (channels 1 25), i. intros b. eexists (fun c => load_columns c 0 0 1 _). split; [reflexivity|]. intros; now apply L.
    - right. eexists _, _. intros b. eexists (fun c => load_columns c 0 0 1 _). split; [reflexivity|]. intros; now apply L.
    - unfold MersiRMRSR. destruct (instrument_of p "mersi-rm") as [i|l]; cbn [bind as_name]; [|left; now eexists].
      right. exists (channels 1 8), i. intros b. eexists (fun c => load_columns c 1 0 1 _). split; [reflexivity|]. intros; now apply L.
    - unfold VirrRSR. destruct (dget p VIRR_BAND_NAMES) as [bns|]; cbn [bind of_option]; [|left; now eexists].
      destruct (instrument_of p "virr") as [i|l]; cbn [bind as_name]; [|left; now eexists].
      right. exists bns, i. intros b. eexists (fun c => load_columns c 0 0 1 _). split; [reflexivity|]. intros; now apply L.
    - right. eexists _, _. intros b. eexists (fun c f => r <- two_columns c 4 f ;; _). split; [reflexivity|].
      intros cols cols' f Hf. cbn beta. now rewrite (L2 _ _ _ _ Hf).
    - right. eexists _, _. intros b. eexists (fun c f => r <- two_columns c 4 f ;; _). split; [reflexivity|].
      intros cols cols' f Hf. cbn beta. now rewrite (L2 _ _ _ _ Hf).
    - right. eexists _, _. intros b. eexists (fun c f => r <- two_columns c 4 f ;; _). split; [reflexivity|].
      intros cols cols' f Hf. cbn beta. now rewrite (L2 _ _ _ _ Hf).
    - right. unfold AgriRSR. eexists _, _. intros b. eexists (fun c => scaled_load c AGRI_SCALES p b). split; [reflexivity|].
      intros cols cols' f Hf. unfold scaled_load, load_agri. destruct (dget p AGRI_SCALES) as [d|]; cbn; [|easy].
      destruct (dget b d); [|easy]. now rewrite (L _ _ _ _ _ _ _ Hf).
    - right. unfold GhiRSR. eexists _, _. intros b. eexists (fun c => scaled_load c GHI_SCALES p b). split; [reflexivity|].
      intros cols cols' f Hf. unfold scaled_load, load_agri. destruct (dget p GHI_SCALES) as [d|]; cbn [of_option bind]; [|easy].
      destruct (dget b d); [|easy]. now rewrite (L _ _ _ _ _ _ _ Hf).
  Qed.

  Lemma own_file k options ex cols b p o : make k options ex cols b p = Ok o ->
    exists file, configured options p (ir_instrument o) b file /\ (ir_rsr o = None <-> ex file = false) /\
      (forall ex' cols', ex' file = ex file -> (forall n, cols' file n = cols file n) -> make k options ex' cols' b p = Ok o) /\
      (forall ex' cols', ex' file = false -> make k options ex' cols' b p =
         if strictb k then Err OSError else Ok {| ir_instrument := ir_instrument o; ir_output_dir := ir_output_dir o; ir_rsr := None |}).
  Proof.
    intros H. destruct (shape k p) as [(e & He)|(bns & ins & S)]; [rewrite He in H; discriminate|].
    destruct (S b) as (ld & E & F). rewrite E in H. destruct (text_inv _ _ _ _ _ _ _ _ _ H) as (out & f & P).
    rewrite (text_eq _ _ _ _ _ _ _ _ _ _ P) in H.
    assert (Ho : ir_instrument o = ins /\ ir_output_dir o = out /\ (ir_rsr o = None <-> ex f = false)).
    { destruct (ex f); [destruct (ld cols f); cbn in H; [|discriminate]; injection H as <-; cbn; repeat split; discriminate|].
      destruct (strictb k); [discriminate|]. injection H as <-. cbn. tauto. }
    destruct Ho as (-> & -> & Ho). exists f. split; [exact (proj1 (parts_configured _ _ _ _ _ _ _ P))|]. split; [easy|]. split.
    - intros ex' cols' H1 H2. rewrite E, (text_eq _ _ _ _ _ _ _ _ _ _ P), H1. destruct (ex f); [|easy].
      rewrite (F cols' cols f H2). exact H.
    - intros ex' cols' H1. rewrite E, (text_eq _ _ _ _ _ _ _ _ _ _ P), H1. reflexivity.
  Qed.

  Lemma output_directory k options ex cols b p o : make k options ex cols b p = Ok o ->
    (forall d, dget "rsr_dir" options = Some d -> ir_output_dir o = d) /\
    (dget "rsr_dir" options = None -> ir_output_dir o = Leaf (LStr "./")).
  Proof.
    intros H. destruct (shape k p) as [(e & He)|(bns & ins & S)]; [rewrite He in H; discriminate|].
    destruct (S b) as (ld & E & _). rewrite E in H. destruct (text_inv _ _ _ _ _ _ _ _ _ H) as (out & f & P).
    rewrite (text_eq _ _ _ _ _ _ _ _ _ _ P) in H. destruct P as (m & path & fn & G & _ & _).
    assert (A : ir_output_dir o = out).
    { destruct (ex f); [destruct (ld cols f); cbn in H; [|discriminate]; now injection H as <-|]. destruct (strictb k); [discriminate|]. now injection H as <-. }
    assert (B : out = match dget "rsr_dir" options with Some c => c | None => Leaf (LStr "./") end).
    { unfold get_options_from_config in G. cbn zeta in G. destruct (dget (p ++ "-" ++ ins) options) as [[l|m']|]; cbn in G; try discriminate.
      destruct (dget "path" m') as [[[s| | | |]|]|]; cbn in G; try discriminate. now injection G as <- <- <-. }
    rewrite A, B. split; [intros d ->; reflexivity|intros ->; reflexivity].
  Qed.

  Lemma all_bands k options ex cols b p o : make k options ex cols b p = Ok o ->
    forall options' ex' cols' b' o', make k options' ex' cols' b' p = Ok o' -> exists f, configured options p (ir_instrument o) b' f.
  Proof.
    intros H options' ex' cols' b' o' H'. destruct (own_file _ _ _ _ _ _ _ H) as (f & C & _).
    destruct (shape k p) as [(e & He)|(bns & ins & S)]; [rewrite He in H; discriminate|].
    destruct (S b) as (ld & E & _). rewrite E in H. destruct (text_inv _ _ _ _ _ _ _ _ _ H) as (out & f1 & P).
    rewrite (text_eq _ _ _ _ _ _ _ _ _ _ P) in H.
    assert (Ho : ir_instrument o = ins).
    { destruct (ex f1); [destruct (ld cols f1); cbn in H; [|discriminate]; now injection H as <-|]. destruct (strictb k); [discriminate|]. now injection H as <-. }
    destruct (S b') as (ld' & E' & _). rewrite E' in H'. destruct (text_inv _ _ _ _ _ _ _ _ _ H') as (out' & f1' & P').
    rewrite Ho. apply (parts_configured _ _ _ _ _ _ _ P). apply (parts_configured _ _ _ _ _ _ _ P').
  Qed.
End T.
