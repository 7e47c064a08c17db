(** Lemmas about the curves that the readers of text files return. *)
From Coq Require Import String Ascii List Bool ZArith Lia Reals Lra Sorted.
From Verif Require Import Base NumSig XR M_Tables M_Utils M_World M_Hdf5 M_Raw S_Raw S_Hdf5 P_Hdf52 P_Raw.
Import ListNotations.
Local Open Scope string_scope.

Section C.
  Context {N : Num}.
  Implicit Types (options : dict cfg) (ex : string -> bool) (cols : string -> nat -> res (list (list N))).

  Lemma text_load options ex strict bns ins b p (ld : string -> res (raw N)) o r : text_rsr options ex strict bns ins b p ld = Ok o -> ir_rsr o = Some r ->
    exists f, configured options p (ir_instrument o) b f /\ ld f = Ok r /\ In b bns.
  Proof.
    intros H Hr. destruct (text_inv _ _ _ _ _ _ _ _ _ H) as (out & f & P). rewrite (text_eq _ _ _ _ _ _ _ _ _ _ P) in H.
    destruct (ex f).
    - destruct (ld f) as [r'|] eqn:Hl; [|discriminate]. injection H as <-. cbn in *. injection Hr as ->.
      exists f. destruct (parts_configured _ _ _ _ _ _ _ P) as (A & B & _). auto.
    - destruct strict; [discriminate|]. injection H as <-. discriminate.
  Qed.
  Lemma load_inv cols s a c x f r : load_columns cols s a c x f = Ok r ->
    exists data w y, cols f s = Ok data /\ nth_error data a = Some w /\ nth_error data c = Some y /\
      rw_wavelength r = map (fun v => nmul N v x) w /\ rw_response r = y.
  Proof.
    unfold load_columns, idx. destruct (cols f s) as [data|]; cbn; [|discriminate].
    destruct (nth_error data a) as [w|] eqn:Hw; cbn; [|discriminate]. destruct (nth_error data c) as [y|] eqn:Hy; cbn; [|discriminate].
    intros [= <-]. exists data, w, y. auto.
  Qed.
  Lemma index_nth b l n : index_of b l = Some n -> nth_error l n = Some b.
  Proof.
    revert n. induction l as [|x l IH]; cbn; [discriminate|]. intros n. destruct (String.eqb_spec b x) as [->|]; [now intros [= <-]|].
    destruct (index_of b l) as [m|]; cbn; [|discriminate]. intros [= <-]. now apply IH.
  Qed.

  Lemma curve_of k options ex cols b p o r skip col u : make k options ex cols b p = Ok o -> ir_rsr o = Some r -> layout k p b skip col u ->
    exists file data w, configured options p (ir_instrument o) b file /\ cols file skip = Ok data /\ nth_error data 0 = Some w /\
      nth_error data col = Some (rw_response r) /\ rw_wavelength r = map (fun v => nmul N v (if Z.eqb u 1 then n1 else nlit N 1 1000)) w.
  Proof.
    intros H Hr L. inversion L; subst; cbn [make] in H.
    all: try (eapply text_load in H as (f & C & Hl & _); [|exact Hr]; apply load_inv in Hl as (data & w & y & D & W & Y & E1 & E2);
              exists f, data, w; rewrite E2; repeat split; auto).
    1-3: unfold AvhrrRSR in H; match goal with E : dget _ INSTRUMENTS = _ |- _ => rewrite E in H end; cbn [bind of_option as_name] in H;
      match type of H with bind (of_option KeyError ?d) _ = _ => let v := eval compute in d in change d with v in H end; cbn [bind of_option] in H;
      eapply text_load in H as (f & C & Hl & _); [|exact Hr]; apply load_inv in Hl as (data & w & y & D & W & Y & E1 & E2);
      exists f, data, w; rewrite E2; repeat split; auto.
    - unfold CoctsRSR in H. destruct (as_name (instrument_of _ "cocts")) as [i|]; cbn [bind] in H; [|discriminate].
      eapply text_load in H as (f & C & Hl & _); [|exact Hr].
      destruct (index_of b (channels 1 8)) as [m|] eqn:Hi; cbn [bind of_option] in Hl; [|discriminate].
      apply load_inv in Hl as (data & w & y & D & W & Y & E1 & E2). exists f, data, w. rewrite E2. repeat split; auto.
      match goal with E : nth_error _ ?n = Some _ |- nth_error _ (S ?n) = _ => assert (m = n) as <-; [|easy] end. apply index_nth in Hi.
      apply (proj1 (NoDup_nth_error ["ch1"; "ch2"; "ch3"; "ch4"; "ch5"; "ch6"; "ch7"; "ch8"])).
      + repeat constructor; cbn; intuition discriminate.
      + apply nth_error_Some. change ["ch1"; "ch2"; "ch3"; "ch4"; "ch5"; "ch6"; "ch7"; "ch8"] with (channels 1 8). congruence.
      + change (channels 1 8) with ["ch1"; "ch2"; "ch3"; "ch4"; "ch5"; "ch6"; "ch7"; "ch8"] in Hi. congruence.
    - unfold Mersi2RSR in H. destruct (as_name _) as [i|]; cbn [bind] in H; [|discriminate].
      eapply text_load in H as (f & C & Hl & _); [|exact Hr]; apply load_inv in Hl as (data & w & y & D & W & Y & E1 & E2);
      exists f, data, w; rewrite E2; repeat split; auto.
    - unfold MersiRMRSR in H. destruct (as_name _) as [i|]; cbn [bind] in H; [|discriminate].
      eapply text_load in H as (f & C & Hl & _); [|exact Hr]; apply load_inv in Hl as (data & w & y & D & W & Y & E1 & E2);
      exists f, data, w; rewrite E2; repeat split; auto.
  Qed.
End C.
