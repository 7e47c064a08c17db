(** The scripts and other names of a band. *)
From Coq Require Import String Ascii List Bool ZArith Reals Lra Lia.
From Verif Require Import Base NumSig XR M_Tables M_Utils M_Rsr M_World M_Scripts S_Names P_Names.
Import ListNotations.
Local Open Scope string_scope.

Section S.
  Context {N : Num}.
  Implicit Types (o : robj N) (make : string -> string -> res (robj N)).

  Lemma band_other o b k bd : dget b (so_rsr o) = None -> std_name (Some (IOne (so_instrument o))) b k -> dget k (so_rsr o) = Some bd ->
    so_band o b = Ok bd /\ so_band o k = Ok bd.
  Proof.
    intros A S B. unfold so_band. assert (NL : forall l, Some (IOne (so_instrument o)) <> Some (IList l)) by discriminate.
    split; apply (proj1 (getitem_spec _ _ _ _ NL)); [right|left; exact B]. split; [exact A|]. exists k. auto.
  Qed.
  Lemma band_unknown o b : dget b (so_rsr o) = None -> (forall k, std_name (Some (IOne (so_instrument o))) b k -> dget k (so_rsr o) = None) ->
    so_band o b = Err KeyError.
  Proof.
    intros A U. unfold so_band. assert (NL : forall l, Some (IOne (so_instrument o)) <> Some (IList l)) by discriminate.
    destruct (getitem_spec _ (Some (IOne (so_instrument o))) (so_rsr o) b NL) as [H1 H2].
    destruct (RSRDict_getitem _ _ _) as [v|e] eqn:E; [|f_equal; now apply H2].
    destruct (proj1 (H1 v) eq_refl) as [C|(C & k & S & D)]; [congruence|]. rewrite (U k S) in D. discriminate.
  Qed.

  Lemma other_names make p s o b k bd : make p s = Ok o -> b <> "" -> k <> "" ->
    dget b (so_rsr o) = None -> std_name (Some (IOne (so_instrument o))) b k -> dget k (so_rsr o) = Some bd ->
    (forall t det, find_wavelengths make p s t (Some b) det =
       let (ls, r) := find_wavelengths make p s t (Some k) det in (map (fun l => (b, snd l)) ls, r)) /\
    (forall m w, plot_rsr make p s m (Some b) w =
       match plot_rsr make p s m (Some k) w with Ok (cs, _) => Ok (cs, p ++ "_" ++ s ++ "_rsr_band" ++ b ++ ".png") | Err e => Err e end) /\
    (forall fuel a r, ca_bandname a = Some b -> curves_of fuel a r o =
       match plot_band (ca_minimum a) (negb (ca_no_name a)) o k with
       | Ok c => Done [{| pl_label := if ca_no_name a then b else so_platform o ++ " - " ++ b; pl_points := pl_points c |}]
       | Err e => Stop (Raise e)
       end).
  Proof.
    intros M Nb Nk A S B. destruct (band_other _ _ _ _ A S B) as [E1 E2]. repeat split.
    - intros t det. unfold find_wavelengths. rewrite M. destruct b as [|b0 b]; [congruence|]. destruct k as [|k0 k]; [congruence|].
      cbn [print_ranges]. rewrite E1, E2. cbn [bind]. destruct (bind _ _); reflexivity.
    - intros m w. unfold plot_rsr. rewrite M. cbn [bind]. destruct b as [|b0 b]; [congruence|]. destruct k as [|k0 k]; [congruence|].
      cbn [bind]. rewrite E1, E2. cbn [bind]. destruct (mapM _ bd); reflexivity.
    - intros fuel a r Ha. unfold curves_of, text_given. rewrite Ha. destruct b as [|b0 b]; [congruence|].
      unfold plot_band. rewrite E1, E2. cbn [bind]. destruct (first_sorted (dkeys bd)) as [d|]; [|reflexivity]. cbn [bind].
      destruct (of_option KeyError (dget d bd)) as [dd|]; [|reflexivity]. cbn [bind]. destruct (unmasked _ dd); [|reflexivity].
      cbn [bind of_res pl_points]. destruct (ca_no_name a); reflexivity.
  Qed.
  Lemma unknown_names make p s o b : make p s = Ok o -> b <> "" ->
    dget b (so_rsr o) = None -> (forall k, std_name (Some (IOne (so_instrument o))) b k -> dget k (so_rsr o) = None) ->
    (forall t det, find_wavelengths make p s t (Some b) det = ([], Err KeyError)) /\
    (forall m w, plot_rsr make p s m (Some b) w = Err KeyError) /\
    (forall fuel a r, ca_bandname a = Some b -> curves_of fuel a r o = Stop (Raise KeyError)).
  Proof.
    intros M Nb A U. pose proof (band_unknown _ _ A U) as E. destruct b as [|b0 b]; [congruence|]. repeat split.
    - intros t det. unfold find_wavelengths. rewrite M. cbn [print_ranges]. now rewrite E.
    - intros m w. unfold plot_rsr. rewrite M. cbn [bind]. now rewrite E.
    - intros fuel a r Ha. unfold curves_of, text_given. rewrite Ha. unfold plot_band. now rewrite E.
  Qed.
End S.
