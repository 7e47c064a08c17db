(** Which bands the readers of text files know, and when they succeed. *)
From Coq Require Import String Ascii List Bool ZArith Lia Reals Lra Sorted.
From Verif Require Import Base NumSig XR M_Tables M_Utils M_World M_Hdf5 M_Raw S_Raw S_Hdf5 P_Hdf52 P_Raw P_Raw2 P_Tight.
Import ListNotations.
Local Open Scope string_scope.

Section B.
  Context {N : Num}.
  Implicit Types (options : dict cfg) (ex : string -> bool) (cols : string -> nat -> res (list (list N))).

  Lemma text_in options ex strict bns ins b p (ld : string -> res (raw N)) o : text_rsr options ex strict bns ins b p ld = Ok o -> In b bns.
  Proof.
    intros H. destruct (text_inv _ _ _ _ _ _ _ _ _ H) as (out & f & P). exact (proj1 (proj2 (parts_configured _ _ _ _ _ _ _ P))).
  Qed.
  Lemma avhrr_listed p i : dget p INSTRUMENTS = Some (IOne i) ->
    match dget i AVHRR_BAND_NAMES with Some l => listed Avhrr p = l | None => listed Avhrr p = [] end.
  Proof.
    intros D. unfold listed. rewrite D. unfold AVHRR_BAND_NAMES. cbn [dget].
    destruct (String.eqb_spec i "avhrr/3") as [->|A]; [reflexivity|].
    destruct (String.eqb_spec i "avhrr/2") as [->|B]; [reflexivity|].
    destruct (String.eqb_spec i "avhrr/1") as [->|C]; [reflexivity|].
    do 7 (destruct i as [|[[] [] [] [] [] [] [] []] i]; try reflexivity). all: destruct i; try reflexivity; congruence.
  Qed.
  Lemma known_bands k options ex cols b p o : make k options ex cols b p = Ok o -> In b (listed k p).
  Proof.
    destruct k; cbn [make]; intros H; try (apply text_in in H; exact H).
    - unfold AvhrrRSR in H. destruct (dget p INSTRUMENTS) as [[i|l]|] eqn:D; cbn [bind of_option as_name] in H; try discriminate.
      pose proof (avhrr_listed _ _ D) as L.
      destruct (dget i AVHRR_BAND_NAMES) as [l|]; cbn [bind of_option] in H; [|discriminate]. rewrite L. now apply text_in in H.
    - unfold CoctsRSR in H. destruct (as_name _); cbn [bind] in H; [|discriminate]. now apply text_in in H.
    - unfold Mersi2RSR in H. destruct (as_name _); cbn [bind] in H; [|discriminate]. now apply text_in in H.
    - unfold MersiRMRSR in H. destruct (as_name _); cbn [bind] in H; [|discriminate]. now apply text_in in H.
    - exfalso. unfold VirrRSR in H. unfold VIRR_BAND_NAMES in H. cbn [dget] in H.
      destruct (String.eqb_spec p "FY-3B") as [->|]; [discriminate|]. destruct (String.eqb_spec p "FY-3C") as [->|]; [discriminate|]. discriminate.
  Qed.

  Lemma shape_named k p i : named k p i -> forall b, In b (listed k p) ->
    exists ld : (string -> nat -> res (list (list N))) -> string -> res (raw N),
      (forall options ex cols, make k options ex cols b p = text_rsr options ex (strictb k) (listed k p) i b p (ld cols)) /\
      (forall cols skip col u f data w y, layout k p b skip col u -> cols f skip = Ok data -> nth_error data 0 = Some w -> nth_error data col = Some y ->
         ld cols f = Ok {| rw_wavelength := map (fun v => nmul N v (if Z.eqb u 1 then nlit N 1 1 else nlit N 1 1000)) w; rw_response := y |}).
  Proof.
    intros Hn b Hb.
    assert (LC : forall s c x cols f data w y, cols f s = Ok data -> nth_error data 0 = Some w -> nth_error data c = Some y ->
      @load_columns N cols s 0 c x f = Ok {| rw_wavelength := map (fun v => nmul N v x) w; rw_response := y |}).
    { intros s c x cols f data w y A B C. unfold load_columns, idx. rewrite A. cbn [bind]. rewrite B. cbn. now rewrite C. }
    assert (NL : forall k p b s c u, layout k p b s c u -> k = Abi \/ k = Avhrr \/ k = Cocts \/ k = Mersi2 \/ k = Mersi3 \/ k = MersiRM).
    { intros ? ? ? ? ? ? []; tauto. }
    destruct k; cbn [make strictb].
    - inversion Hn; subst; try (unfold fixed in *; tauto); try (intuition discriminate).
      eexists (fun c => load_columns c 2 0 2 _). split; [reflexivity|]. intros cols skip col u f data w y L A B C. inversion L; subst. eapply LC; eauto.
    - inversion Hn as [|j NF D|NF NA|l [|[|]] D]; subst; try (unfold fixed in *; intuition discriminate).
      pose proof (avhrr_listed _ _ D) as L. unfold AvhrrRSR. rewrite D. cbn [bind of_option as_name].
      destruct (dget i AVHRR_BAND_NAMES) as [bns|]; cbn [bind of_option]; [|rewrite L in Hb; destruct Hb].
      rewrite L. eexists (fun c => load_columns c 1 0 1 _). split; [reflexivity|]. intros cols skip col u f data w y La A B C.
      inversion La; subst; rewrite D in *; match goal with E : Some _ = Some _ |- _ => injection E as -> end; cbn; eapply LC; eauto.
    - assert (E : as_name (instrument_of p "cocts") = Ok i).
      { unfold instrument_of. inversion Hn as [|j NF D|NF NA D|l [|[|]] D]; subst; try (unfold fixed in *; intuition discriminate); now rewrite D. }
      unfold CoctsRSR. rewrite E. cbn [bind]. eexists (fun c f => i <- _ ;; load_columns c 0 0 (S i) _ f). split; [reflexivity|].
      intros cols skip col u f data w y L A B C. inversion L as [| | | |p' n b' Hnth| | |]; subst.
      assert (Hi : index_of b (channels 1 8) = Some n).
      { change (channels 1 8) with ["ch1"; "ch2"; "ch3"; "ch4"; "ch5"; "ch6"; "ch7"; "ch8"].
        do 8 (destruct n as [|n]; [injection Hnth as <-; reflexivity|]). destruct n; discriminate. }
      rewrite Hi. cbn [of_option bind]. eapply LC; eauto.
    - assert (E : or_name (instrument_of p "mersi-1") "mersi-1" = i).
      { unfold instrument_of. inversion Hn as [|j NF D|NF NA D|l Hk D]; subst; try (unfold fixed in *; intuition discriminate); now rewrite D. }
      unfold Mersi1RSR. rewrite E. exists (fun c => load_mersi1 c p b). split; [|intros cols skip col u f data w y L; apply NL in L; intuition discriminate].
      intros. unfold listed. destruct (String.eqb p "FY-3B"); reflexivity.
    - assert (E : as_name (instrument_of p "mersi-2") = Ok i).
      { unfold instrument_of. inversion Hn as [|j NF D|NF NA D|l [|[|]] D]; subst; try (unfold fixed in *; intuition discriminate); now rewrite D. }
      unfold Mersi2RSR. rewrite E. cbn [bind]. eexists (fun c => load_columns c 0 0 1 _). split; [reflexivity|].
      intros cols skip col u f data w y L A B C. inversion L; subst. eapply LC; eauto.
    - inversion Hn; subst; try (unfold fixed in *; tauto); try (intuition discriminate).
      eexists (fun c => load_columns c 0 0 1 _). split; [reflexivity|]. intros cols skip col u f data w y L A B C. inversion L; subst. eapply LC; eauto.
    - assert (E : as_name (instrument_of p "mersi-rm") = Ok i).
      { unfold instrument_of. inversion Hn as [|j NF D|NF NA D|l [|[|]] D]; subst; try (unfold fixed in *; intuition discriminate); now rewrite D. }
      unfold MersiRMRSR. rewrite E. cbn [bind]. eexists (fun c => load_columns c 1 0 1 _). split; [reflexivity|].
      intros cols skip col u f data w y L A B C. inversion L; subst. eapply LC; eauto.
    - destruct Hb.
    - inversion Hn; subst; try (unfold fixed in *; tauto); try (intuition discriminate).
      eexists (fun c f => r <- two_columns c 4 f ;; _). split; [reflexivity|]. intros cols skip col u f data w y L. apply NL in L. intuition discriminate.
    - inversion Hn; subst; try (unfold fixed in *; tauto); try (intuition discriminate).
      eexists (fun c f => r <- two_columns c 4 f ;; _). split; [reflexivity|]. intros cols skip col u f data w y L. apply NL in L. intuition discriminate.
    - inversion Hn; subst; try (unfold fixed in *; tauto); try (intuition discriminate).
      eexists (fun c f => r <- two_columns c 4 f ;; _). split; [reflexivity|]. intros cols skip col u f data w y L. apply NL in L. intuition discriminate.
    - assert (E : or_name (instrument_of p "agri") "agri" = i).
      { unfold instrument_of. inversion Hn as [|j NF D|NF NA D|l Hk D]; subst; try (unfold fixed in *; intuition discriminate); now rewrite D. }
      unfold AgriRSR. rewrite E. exists (fun c => scaled_load c AGRI_SCALES p b). split; [|intros cols skip col u f data w y L; apply NL in L; intuition discriminate].
      intros. unfold listed. destruct (String.eqb p "FY-4A"); reflexivity.
    - assert (E : or_name (instrument_of p "ghi") "ghi" = i).
      { unfold instrument_of. inversion Hn as [|j NF D|NF NA D|l Hk D]; subst; try (unfold fixed in *; intuition discriminate); now rewrite D. }
      unfold GhiRSR. rewrite E. exists (fun c => scaled_load c GHI_SCALES p b). split; [reflexivity|intros cols skip col u f data w y L; apply NL in L; intuition discriminate].
  Qed.

  Lemma all_parts options bns ins p b file : (forall b', In b' bns -> exists f, configured options p ins b' f) -> In b bns -> configured options p ins b file ->
    exists out, parts options bns ins b p out file.
  Proof.
    intros Hall Hb (m & path & f & D1 & D2 & D3 & ->).
    assert (G : forall acc, exists fn, get_bandfilenames m path bns acc = Ok fn).
    { assert (H : forall b', In b' bns -> exists f, dget b' m = Some (Leaf (LStr f))).
      { intros b' Hb'. destruct (Hall b' Hb') as (fl & m' & path' & f' & E1 & E2 & E3 & _). rewrite D1 in E1. injection E1 as <-. eauto. }
      clear Hall Hb. induction bns as [|x bns IH]; intros acc; cbn [get_bandfilenames]; [eauto|].
      destruct (H x (or_introl eq_refl)) as (g & ->). cbn [of_option bind]. apply IH. intros b' Hb'. apply H. now right. }
    destruct (G []) as (fn & Hfn). destruct (names_inv _ _ _ _ _ Hfn) as [A _]. destruct (A b Hb) as (g & G1 & G2).
    rewrite D3 in G1. injection G1 as <-.
    eexists _, m, path, fn. split; [|split; [exact Hfn|exact G2]].
    unfold get_options_from_config. rewrite D1. cbn [of_option bind]. rewrite D2. reflexivity.
  Qed.

  Lemma text_success k p i options ex cols b file : named k p i -> In b (listed k p) ->
    (forall b', In b' (listed k p) -> exists f, configured options p i b' f) -> configured options p i b file ->
    (ex file = false -> ~ insists k -> exists o, make k options ex cols b p = Ok o /\ ir_instrument o = i /\ ir_rsr o = None) /\
    (ex file = false -> insists k -> make k options ex cols b p = Err OSError) /\
    (forall skip col u data w y, ex file = true -> layout k p b skip col u -> cols file skip = Ok data -> nth_error data 0 = Some w -> nth_error data col = Some y ->
       exists o, make k options ex cols b p = Ok o /\ ir_instrument o = i /\
         ir_rsr o = Some {| rw_wavelength := map (fun v => nmul N v (if Z.eqb u 1 then nlit N 1 1 else nlit N 1 1000)) w; rw_response := y |}).
  Proof.
    intros Hn Hb Hall Hc. destruct (shape_named k p i Hn b Hb) as (ld & E & L). destruct (all_parts _ _ _ _ _ _ Hall Hb Hc) as (out & P).
    repeat split.
    - intros Hx Hk. rewrite E, (text_eq _ _ _ _ _ _ _ _ _ _ P), Hx. destruct (strictb k) eqn:S; [apply strict_insists in S; tauto|]. eexists. split; [reflexivity|]. split; reflexivity.
    - intros Hx Hk. rewrite E, (text_eq _ _ _ _ _ _ _ _ _ _ P), Hx. apply strict_insists in Hk. now rewrite Hk.
    - intros skip col u data w y Hx La A B C. rewrite E, (text_eq _ _ _ _ _ _ _ _ _ _ P), Hx, (L _ _ _ _ _ _ _ _ La A B C). cbn [bind]. eexists. split; [reflexivity|]. split; reflexivity.
  Qed.
End B.
