(** SEVIRI: the radiance is Planck's law at the channel (C86). *)
From Coq Require Import Reals Lra ZArith String List Lia Bool.
From Verif Require Import Base NumSig XR M_Tables M_Utils M_Rsr M_Blackbody M_RadTb
     S_Planck S_Seviri P_Blackbody P_RadTb P_Seviri.
Import ListNotations.
Open Scope R_scope.

Definition coeff_ok (p s : string) (l : R) : Prop :=
  exists v a b, @seviri_coeffs XRN {| sv_platform := p; sv_bandname := translate_band "seviri" s |} = Ok (Fin v, Fin a, Fin b) /\
    0 < v /\ Rabs (10 ^ 6 / v - l) <= 11 / 100 /\ 995 / 1000 <= a <= 1 /\ 0 <= b <= 35 / 10.

Lemma near l v : 0 < v -> (l - 11 / 100) * v <= 10 ^ 6 -> 10 ^ 6 <= (l + 11 / 100) * v -> Rabs (10 ^ 6 / v - l) <= 11 / 100.
Proof.
  intros Hv A B. assert (10 ^ 6 / v * v = 10 ^ 6) as E by (field; lra). set (x := 10 ^ 6 / v) in *.
  assert (l - 11 / 100 <= x) by (apply Rmult_le_reg_r with v; lra).
  assert (x <= l + 11 / 100) by (apply Rmult_le_reg_r with v; lra).
  apply Rabs_le. lra.
Qed.

Lemma coeffs_nominal p s l : In p seviri_satellites -> seviri_nominal s l -> coeff_ok p s l.
Proof.
  intros Hp Hs. unfold seviri_nominal in Hs. simpl in Hp, Hs.
  repeat (destruct Hp as [Hp|Hp]); try contradiction; subst p;
  repeat (destruct Hs as [Hs|Hs]); try contradiction; injection Hs as <- <-;
  (unfold coeff_ok, seviri_coeffs; cbn [sv_platform sv_bandname];
   match goal with |- context [translate_band ?x ?y] => let r := eval vm_compute in (translate_band x y) in change (translate_band x y) with r end;
   cbn [SEVIRI dget String.eqb Ascii.eqb Bool.eqb of_option bind]; unfold row, idx; cbn [nth_error of_option bind];
   unfold nZ; rewrite !nlit_fin; cbn [nmul XRN xmul]; do 3 eexists; split; [reflexivity|];
   split; [lra|]; split; [apply near; lra|lra]).
Qed.

Lemma supported_nominal p s : seviri_supported p s -> exists l, seviri_nominal s l.
Proof.
  intros [_ H]. simpl in H. unfold seviri_nominal.
  repeat (destruct H as [H|H]); try contradiction; subst s; eexists; simpl; tauto.
Qed.

Lemma seviri_planck : forall p s wsp tbr c l, @SeviriRadTbConverter XRN p (BStr s) wsp tbr = Ok c ->
  seviri_supported p s -> seviri_nominal s l ->
  exists nu a b, 0 < nu /\ Rabs (10 ^ 6 / nu - l) <= 11 / 100 /\ 995 / 1000 <= a <= 1 /\ 0 <= b <= 35 / 10 /\
    (forall ts, Forall (fun t => 0 < t) ts ->
       @seviri_tb2radiance XRN c (map Fin ts) false true = Ok (map Fin (map (fun t => B_nu nu (a * t + b)) ts))) /\
    (forall Ls, Forall (fun x => 0 < x) Ls ->
       @seviri_radiance2tb XRN c (map Fin Ls) = Ok (map Fin (map (fun x => (T_nu nu x - b) / a) Ls))).
Proof.
  intros p s wsp tbr c l Hc [Hp Hs] Hn. apply seviri_ctor in Hc. subst c.
  destruct (coeffs_nominal p s l Hp Hn) as (v & a & b & E & Hv & Hl & Ha & Hb).
  exists v, a, b. repeat (split; [tauto|]). split.
  - intros ts F. unfold seviri_tb2radiance. cbn [negb]. rewrite E. cbn [bind]. f_equal. rewrite !map_map. apply map_ext_in.
    intros t Ht. rewrite Forall_forall in F. specialize (F t Ht). apply seviri_rad1; [exact Hv|].
    assert (0 < a * t) by (apply Rmult_lt_0_compat; lra). lra.
  - intros Ls F. unfold seviri_radiance2tb. rewrite E. cbn [bind]. f_equal. rewrite !map_map. apply map_ext_in.
    intros x Hx. rewrite Forall_forall in F. apply seviri_tb1; [exact Hv|lra|now apply F].
Qed.
