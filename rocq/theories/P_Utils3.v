(** Corollaries in the form T_Utils states them. *)
From Coq Require Import Reals Lra ZArith String List Lia Bool Arith Sorting.Sorted.
From Verif Require Import Base NumSig XR P_Trapz M_Tables M_Utils S_Utils S_Names P_Width P_Central P_Names P_Utils2.
Import ListNotations.
Local Open Scope string_scope.
Open Scope R_scope.

Lemma central_within : forall ws rs, has_mean ws rs ->
  exists c, get_central_wave (map Fin ws) (map Fin rs) (WScalar n1) = Ok (Fin c) /\ hd 0 ws <= c <= last ws 0.
Proof. intros ws rs (H1 & H2 & H3 & H4). now apply central_bounds. Qed.

Lemma central_case : has_mean [1; 2; 4] [1/10; 1; 2/10] /\
  get_central_wave (map Fin [1; 2; 4]) (map Fin [1/10; 1; 2/10]) (WScalar n1) = Ok (Fin (385/175)).
Proof.
  split.
  - repeat split; try (repeat constructor; lra). cbn. lra.
  - rewrite central_fin by reflexivity. rewrite xdiv_fin by (cbn; lra). now rewrite det3_central.
Qed.

Lemma symmetric_case :
  get_central_wave (map Fin [1; 2; 4; 5]) (map Fin [1/10; 1; 1; 1/10]) (WScalar n1) = Ok (Fin 3).
Proof.
  apply central_symmetric; try reflexivity.
  - cbn. lra.
  - cbn. repeat f_equal; lra.
Qed.

Lemma rayleigh_case : exists c, get_central_wave (map Fin [1; 2; 4]) (map Fin [0; 1; 2/10])
              (WArray (map (fun w : XRN => (nlit XRN 1 1 / npow w 4)%num) (map Fin [1; 2; 4]))) = Ok (Fin c) /\
            1 <= c <= 4.
Proof.
  apply (central_rayleigh [1; 2; 4] [0; 1; 2/10]); try reflexivity; try (cbn; lia).
  - repeat constructor; lra.
  - repeat constructor; lra.
  - repeat constructor; lra.
  - apply Exists_cons_tl. apply Exists_cons_hd. lra.
Qed.

Lemma fwhm_case : get_fullwidth_halfmax (map Fin [4/10; 6/10; 1; 6/10; 2/10]) (map Fin [1; 2; 3; 4; 5]) = Ok (Fin (4 - 2)).
Proof.
  eapply (proj1 (fwhm_spec [4/10; 6/10; 1; 6/10; 2/10] [1; 2; 3; 4; 5] eq_refl) 1%nat 3%nat); try reflexivity; [|lia]. fl.
Qed.

Lemma convert2str_other_error : exists v e, convert2str v = Err e /\ e <> ValueError.
Proof. exists (TObjArray [TOther]), AttributeError. split; [reflexivity|discriminate]. Qed.

Lemma adjust_single : forall p x i j, dget p INSTRUMENTS = Some (IOne x) ->
  check_and_adjust_instrument_name p i = check_and_adjust_instrument_name p j /\
  exists r, check_and_adjust_instrument_name p i = Ok r /\ check_and_adjust_instrument_name p r = Ok r.
Proof.
  intros p x i j H. rewrite !adjust_eq, H. split; auto. exists (normal_form x). split; auto. now rewrite adjust_eq, H.
Qed.

Lemma adjust_not_idem : exists p i r r', check_and_adjust_instrument_name p i = Ok r /\
  check_and_adjust_instrument_name p r = Ok r' /\ r <> r'.
Proof. exists "FY-3A", "mersi-1", "mersi1", "virr". repeat split; try (vm_compute; reflexivity). discriminate. Qed.

Lemma identical_total : forall a b,
  are_instruments_identical (NmStr a) (NmStr b) = Ok true \/ are_instruments_identical (NmStr a) (NmStr b) = Ok false.
Proof.
  intros a b. unfold are_instruments_identical. destruct (String.eqb a b); auto.
  destruct (dget b DASH2SLASH); auto. destruct (String.eqb a s); auto.
Qed.

Lemma identical_list : forall a b,
  are_instruments_identical (NmStr a) (NmStr b) = Ok true <->
  a = b \/ In (b, a) [("avhrr-1", "avhrr/1"); ("avhrr-2", "avhrr/2"); ("avhrr-3", "avhrr/3")].
Proof.
  intros a b.
  assert (H : are_instruments_identical (NmStr a) (NmStr b) = Ok true <-> instr_identical a b = true).
  { unfold instr_identical. destruct (identical_total a b) as [-> | ->]; split; congruence. }
  rewrite H, identical_iff. split; (intros [E|E]; [now left|right]).
  - apply dget_Some_in in E. exact E.
  - cbn in E. destruct E as [E|[E|[E|[]]]]; injection E as <- <-; reflexivity.
Qed.

Lemma identical_other : forall x y, x = NmOther \/ y = NmOther -> are_instruments_identical x y = Err ValueError.
Proof. intros [a|] [b|] [H|H]; try discriminate; reflexivity. Qed.

Lemma identical_asym : exists a b, are_instruments_identical (NmStr a) (NmStr b) = Ok true /\
  are_instruments_identical (NmStr b) (NmStr a) = Ok false.
Proof. exists "avhrr/1", "avhrr-1". split; reflexivity. Qed.
