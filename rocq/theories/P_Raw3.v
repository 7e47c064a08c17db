(** Lemmas about reversed and trimmed curves, scripts that fail and file names. *)
From Coq Require Import String Ascii List Bool ZArith Lia Reals Lra Sorted.
From Verif Require Import Base NumSig XR M_Tables M_Utils M_World M_Hdf5 M_Raw M_Download S_Raw S_Hdf5 P_Hdf52 P_Raw P_Raw2.
Import ListNotations.
Local Open Scope string_scope.

(** ** wavenumbers *)
Section W.
  Local Open Scope R_scope.
  Definition to_wave (p : R * R) : R * R := (10000 / fst p, snd p).
  Lemma sorted_app {A} (P : A -> A -> Prop) l x : StronglySorted P l -> Forall (fun a => P a x) l -> StronglySorted P (l ++ [x]).
  Proof.
    induction l as [|a l IH]; cbn; intros H F; [constructor; constructor|].
    inversion H; subst. inversion F; subst. constructor; [now apply IH|]. apply Forall_app. split; [easy|]. now constructor.
  Qed.
  Lemma waves_sorted l : Forall (fun p => 0 < fst p) l -> StronglySorted (fun a b => fst a < fst b) l ->
    StronglySorted (fun a b : R * R => fst a < fst b) (rev (map to_wave l)).
  Proof.
    induction l as [|[n r] l IH]; cbn [map rev]; intros F S; [constructor|].
    inversion F; subst. inversion S; subst. apply sorted_app; [now apply IH|].
    apply Forall_rev. rewrite Forall_map. apply Forall_forall. intros [n' r'] Hi.
    rewrite Forall_forall in H2, H4. specialize (H2 _ Hi). specialize (H4 _ Hi). cbn in *.
    apply Rmult_lt_compat_l; [lra|]. apply Rinv_lt_contravar; [nra|easy].
  Qed.
  Lemma reversed_curve f l : Forall (fun p => 0 < fst p) l -> (forall x, 0 < x -> f (Fin x) = Fin (10000 / x)) ->
    curve (@reversed XRN f {| rw_wavelength := map (fun p => Fin (fst p)) l : list (num XRN); rw_response := map (fun p => Fin (snd p)) l : list (num XRN) |})
      (rev (map to_wave l)).
  Proof.
    intros F Hf. split; cbn [reversed rw_wavelength rw_response].
    - rewrite <- map_rev, map_map, map_rev, map_rev, map_map. f_equal. apply map_ext_in. intros [n r] Hi. cbn.
      rewrite Forall_forall in F. apply Hf. now apply (F _ Hi).
    - rewrite <- map_rev. rewrite map_rev, map_rev, map_map. reflexivity.
  Qed.
  Lemma two_inv cols s f r : @two_columns XRN cols s f = Ok r -> exists rest, cols f s = Ok (rw_wavelength r :: rw_response r :: rest).
  Proof.
    unfold two_columns, idx. destruct (cols f s) as [[|a [|b rest]]|]; cbn; try discriminate. intros [= <-]. now exists rest.
  Qed.
  Lemma wavenumbers k options ex cols b p o r : (k = Ami \/ k = MsuGs \/ k = SlstrTxt) ->
    make k options ex cols b p = Ok o -> ir_rsr o = Some r ->
    exists file, configured options p (ir_instrument o) b file /\ exists w y rest, cols file 4%nat = Ok (w :: y :: rest) /\
      forall l, w = map (fun p => Fin (fst p)) l -> y = map (fun p => Fin (snd p)) l ->
        Forall (fun p => 0 < fst p) l -> StronglySorted (fun a b => fst a < fst b) l ->
        exists l', curve r l' /\ StronglySorted (fun a b => fst a < fst b) l' /\ l' = rev (map (fun p => (10000 / fst p, snd p)) l).
  Proof.
    intros Hk H Hr.
    assert (D : forall g, (forall x, 0 < x -> g (Fin x) = Fin (10000 / x)) -> forall f,
      (r' <- two_columns cols 4 f ;; Ok (reversed g r')) = Ok r -> exists w y rest, cols f 4%nat = Ok (w :: y :: rest) /\
      forall l, w = map (fun p => Fin (fst p)) l -> y = map (fun p => Fin (snd p)) l ->
        Forall (fun p => 0 < fst p) l -> StronglySorted (fun a b => fst a < fst b) l ->
        exists l', curve r l' /\ StronglySorted (fun a b => fst a < fst b) l' /\ l' = rev (map (fun p => (10000 / fst p, snd p)) l)).
    { intros g Hg f Hl. destruct (two_columns cols 4 f) as [q|] eqn:T; [|discriminate]. cbn [bind] in Hl. injection Hl as <-.
      destruct (two_inv _ _ _ _ T) as (rest & E). exists (rw_wavelength q), (rw_response q), rest. split; [easy|].
      intros l Hw Hy F S. exists (rev (map to_wave l)). split; [|split; [now apply waves_sorted|reflexivity]].
      pose proof (reversed_curve g l F Hg) as K. unfold curve, reversed in *. cbn [rw_wavelength rw_response] in *.
      destruct q as [qw qy]; cbn in *. now rewrite Hw, Hy. }
    destruct Hk as [->|[->| ->]]; cbn [make] in H; eapply text_load in H as (f & C & Hl & _); [|exact Hr| |exact Hr| |exact Hr];
      exists f; (split; [exact C|]); eapply D; try exact Hl; intros x Hx.
    1-2: cbn [ndiv nmul nlit XRN]; rewrite !xlit_eq, xdiv_fin by lra; cbn [xmul]; f_equal; field; lra.
    cbn [ndiv nlit XRN]. rewrite !xlit_eq, xdiv_fin by lra. f_equal. field. lra.
  Qed.
End W.
