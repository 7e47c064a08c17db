(** Lemmas about text, AVHRR/1 and AHI work books. *)
From Coq Require Import String Ascii List Bool ZArith Lia Reals Lra.
From Verif Require Import Base NumSig XR M_Tables M_Utils M_World M_Hdf5 M_Raw M_Books S_Raw S_Books S_Books2 P_Raw P_Raw7 P_Books P_Books2.
Import ListNotations.
Local Open Scope string_scope.

(** ** Text *)
Lemma app_nil_s s : s ++ "" = s. Proof. induction s; cbn; congruence. Qed.
Lemma app_len a b : String.length (a ++ b) = (String.length a + String.length b)%nat. Proof. induction a; cbn; auto. Qed.
Lemma rstrip_made chars r : made_of chars r -> rstrip_chars chars r = "".
Proof. induction 1 as [|c s H _ IH]; cbn [rstrip_chars]; [reflexivity|]. now rewrite IH, H. Qed.
Lemma lstrip_made chars l x : made_of chars l -> lstrip_chars chars (l ++ x) = lstrip_chars chars x.
Proof. induction 1 as [|c s H _ IH]; cbn [append lstrip_chars]; [reflexivity|]. now rewrite H. Qed.
Lemma last_cons c s d : last_char s d -> last_char (String c s) d.
Proof. intros (t & ->). exists (String c t). reflexivity. Qed.
Lemma rstrip_keep chars t r : made_of chars r -> (forall c, last_char t c -> has_char c chars = false) -> rstrip_chars chars (t ++ r) = t.
Proof.
  intros Hr. induction t as [|c t IH]; intros L; cbn [append rstrip_chars]; [now apply rstrip_made|].
  rewrite IH by (intros d Hd; apply L; now apply last_cons). destruct t as [|d t]; [|reflexivity].
  rewrite (L c); [reflexivity|]. exists "". reflexivity.
Qed.
Lemma rstrip_split chars s : exists r, s = rstrip_chars chars s ++ r /\ made_of chars r /\ forall c, last_char (rstrip_chars chars s) c -> has_char c chars = false.
Proof.
  induction s as [|c s (r & E & M & L)]; cbn [rstrip_chars].
  - exists "". repeat split; [constructor|]. intros c ([|? ?] & H); discriminate.
  - destruct (rstrip_chars chars s) as [|d t] eqn:R.
    + destruct (has_char c chars) eqn:H.
      * exists (String c r). cbn in E. subst s. repeat split; [constructor; auto|]. intros d ([|? ?] & K); discriminate.
      * exists r. cbn in E |- *. subst s. repeat split; auto. intros d (t & K). destruct t as [|x t]; cbn in K; [injection K as <-; exact H|]. destruct t; discriminate.
    + exists r. split; [cbn; f_equal; exact E|]. split; [exact M|]. intros x (u & K). destruct u as [|y u]; cbn in K; [discriminate|]. injection K as _ K. apply L. exists u. exact K.
Qed.
Lemma lstrip_split chars s : exists l, s = l ++ lstrip_chars chars s /\ made_of chars l /\ forall c u, lstrip_chars chars s = String c u -> has_char c chars = false.
Proof.
  induction s as [|c s (l & E & M & L)]; cbn [lstrip_chars].
  - exists "". repeat split; [constructor|]. discriminate.
  - destruct (has_char c chars) eqn:H.
    + exists (String c l). split; [cbn; f_equal; exact E|]. split; [constructor; auto|exact L].
    + exists "". repeat split; [constructor|]. intros d u [= <- _]. exact H.
Qed.
Lemma rstrip_head chars s c u : rstrip_chars chars s = String c u -> exists v, s = String c v.
Proof. destruct (rstrip_split chars s) as (r & E & _). intros H. rewrite H in E. eexists. exact E. Qed.
Lemma trimmed_iff chars s t : trimmed_of chars s t <-> strip_chars chars s = t.
Proof.
  unfold strip_chars. split.
  - intros ((l & r & -> & Hl & Hr) & A & B). rewrite (lstrip_made chars l _ Hl). destruct t as [|c t].
    + cbn [append]. destruct (lstrip_split chars r) as (l' & E & M & K). destruct (lstrip_chars chars r) as [|d u] eqn:Q; [reflexivity|].
      exfalso. assert (K' := K d u eq_refl). clear - Hr E K'. subst r. induction l' as [|x l' IH]; cbn [append] in Hr; inversion Hr; subst; [congruence|auto].
    + cbn [append lstrip_chars]. rewrite (A c t eq_refl). change (String c (t ++ r)) with (String c t ++ r). now apply rstrip_keep.
  - intros <-. destruct (lstrip_split chars s) as (l & E & M & K). destruct (rstrip_split chars (lstrip_chars chars s)) as (r & E' & M' & K'). split; [|split].
    + exists l, r. rewrite <- E'. auto.
    + intros c u H. destruct (rstrip_head _ _ _ _ H) as (v & V). exact (K c v V).
    + exact K'.
Qed.
Lemma substring_after sep r : forall n, (String.length r <= n)%nat -> substring (String.length sep) n (sep ++ r) = r.
Proof.
  intros n Hn. induction sep as [|x sep IH]; cbn [append String.length substring]; [|exact IH].
  revert n Hn. induction r as [|y r IHr]; intros [|n] Hn; cbn in *; try reflexivity; try lia. f_equal. apply IHr. lia.
Qed.
Lemma cut_some sep s a b : cut_at sep s = Some (a, b) -> first_split sep s a b.
Proof.
  revert a b. induction s as [|c s IH]; intros a b; cbn [cut_at].
  - destruct (prefix sep "") eqn:P; [|discriminate]. intros H. apply prefix_spec in P as (r & E). destruct sep; [|discriminate]. cbn in E. subst r.
    injection H as <- <-. split; [reflexivity|]. intros; cbn; lia.
  - destruct (prefix sep (String c s)) eqn:P.
    + intros H. assert (Hb : b = substring (String.length sep) (String.length (String c s)) (String c s)) by congruence. assert (a = "") as -> by congruence. clear H.
      apply prefix_spec in P as (r & E). split; [|intros; cbn; lia]. rewrite Hb, E. rewrite substring_after; [reflexivity|]. rewrite <- E.
      assert (L := f_equal String.length E). rewrite app_len in L. cbn in L |- *. lia.
    + destruct (cut_at sep s) as [(a', b')|] eqn:C; [|discriminate]. intros [= <- <-]. destruct (IH _ _ eq_refl) as [E M]. split; [cbn; f_equal; exact E|].
      intros [|x a2] b2 E2; cbn in E2; cbn.
      * exfalso. enough (prefix sep (String c s) = true) by congruence. apply prefix_spec. exists b2. exact E2.
      * injection E2 as _ E2. specialize (M _ _ E2). lia.
Qed.
Lemma cut_none sep s : cut_at sep s = None -> forall a b, s <> a ++ sep ++ b.
Proof.
  induction s as [|c s IH]; cbn [cut_at]; destruct (prefix sep _) eqn:P; try discriminate; intros H a b E.
  - enough (prefix sep "" = true) by congruence. apply prefix_spec. destruct a; [|discriminate]. exists b. exact E.
  - destruct (cut_at sep s) as [(? & ?)|]; [discriminate|]. destruct a as [|x a]; cbn in E.
    + enough (prefix sep (String c s) = true) by congruence. apply prefix_spec. exists b. exact E.
    + injection E as _ E. exact (IH eq_refl a b E).
Qed.
Lemma second_part_ok sep s t : second_part sep s = Ok t -> between sep s t.
Proof.
  unfold second_part. destruct (cut_at sep s) as [(a, b)|] eqn:C; [|discriminate]. intros [= <-]. exists a, b. split; [now apply cut_some|].
  destruct (cut_at sep b) as [(x, y)|] eqn:D; [left; exists y; now apply cut_some|right; split; [reflexivity|now apply cut_none]].
Qed.

(** ** AVHRR/1 *)
Lemma avhrr1_names : CHANNEL_NAMES = AVHRR1_SHEETS.
Proof. reflexivity. Qed.
Lemma avhrr1_sheets_nodup : NoDup (map fst AVHRR1_SHEETS).
Proof. cbn [map fst AVHRR1_SHEETS]. repeat (constructor; [cbn; intuition discriminate|]). constructor. Qed.
Lemma known_sheet n ch : dget n CHANNEL_NAMES = Some ch <-> In (n, ch) AVHRR1_SHEETS.
Proof. rewrite avhrr1_names. split; [apply dget_Some_in|]. intros H. apply dget_in_nodup; [exact avhrr1_sheets_nodup|exact H]. Qed.
Lemma unknown_sheet n : dget n CHANNEL_NAMES = None <-> ~ In n (map fst AVHRR1_SHEETS).
Proof.
  split.
  - intros H K. apply in_map_iff in K as ((n', ch) & E & K). cbn in E. subst n'. apply known_sheet in K. congruence.
  - intros H. destruct (dget n CHANNEL_NAMES) as [ch|] eqn:E; [|reflexivity]. exfalso. apply H. apply known_sheet in E. apply in_map_iff. exists (n, ch). auto.
Qed.
Lemma adjust_from_ok l : forall p : R, exists l', @adjust_from XRN (Fin p) (reals l) = reals l' /\ List.length l' = List.length l /\
  forall i x q, nth_error l i = Some x -> nth_error (p :: l') i = Some q ->
    ((x < q /\ Rabs (x - 640) < 1 / 100)%R /\ nth_error l' i = Some 840%R) \/ (~ (x < q /\ Rabs (x - 640) < 1 / 100)%R /\ nth_error l' i = Some x).
Proof.
  induction l as [|x l IH]; intros p; cbn [reals map adjust_from].
  - exists []. repeat split. intros [|i]; discriminate.
  - set (x' := if Rlt_dec x p then if Rlt_dec (Rabs (x - 640)) (1 / 100) then 840%R else x else x).
    assert (E : (if (nltb XRN (Fin x) (Fin p) && nltb XRN (@nabs XRN (nsub XRN (Fin x) (nlit XRN 640 1))) (nlit XRN 1 100))%bool then nlit XRN 840 1 else Fin x) = Fin x').
    { change (nltb XRN (Fin x) (Fin p)) with (Rltb x p). replace (@nabs XRN (nsub XRN (Fin x) (nlit XRN 640 1))) with (Fin (Rabs (x - 640)) : XRN).
      - change (nltb XRN (Fin (Rabs (x - 640))) (nlit XRN 1 100)) with (Rltb (Rabs (x - 640)) (1 / 100)). unfold Rltb, x'. destruct (Rlt_dec x p); cbn [andb]; [|reflexivity].
        destruct (Rlt_dec (Rabs (x - 640)) (1 / 100)); [|reflexivity]. cbn. unfold xlit. f_equal. lra.
      - unfold nabs. cbn. unfold xlit. replace (x + - (640 / 1))%R with (x - 640)%R by lra. unfold Rltb, Rabs. destruct (Rcase_abs (x - 640)); match goal with |- context [Rlt_dec ?a ?b] => destruct (Rlt_dec a b) as [L|L] end; cbn in *; f_equal; lra. }
    destruct (IH x') as (l' & E1 & E2 & E3). exists (x' :: l'). cbn [map reals]. split; [|split; [cbn; auto|]].
    + eapply eq_trans; [|apply (f_equal (cons (Fin x' : XRN)) E1)]. cbv zeta. match goal with |- ?a :: ?b = _ => change (a :: @adjust_from XRN a (reals l) = Fin x' :: adjust_from (Fin x') (reals l)) end. now rewrite E.
    + intros [|i] y q Hy Hq; cbn [nth_error] in *.
      * injection Hy as <-. injection Hq as <-. unfold x'. destruct (Rlt_dec x p); [destruct (Rlt_dec (Rabs (x - 640)) (1 / 100))|]; [left|right|right]; split; auto; tauto.
      * exact (E3 i y q Hy Hq).
Qed.
Lemma adjust_ok w : adjusted w (@adjust_typo XRN w).
Proof.
  intros l ->. destruct l as [|x l]; cbn [reals map adjust_typo].
  - exists []. split; [reflexivity|]. repeat split. intros [|i]; discriminate.
  - destruct (adjust_from_ok l x) as (l' & E & L & K). exists (x :: l'). split; [cbn [reals map]; f_equal; exact E|]. split; [cbn; congruence|]. split; [reflexivity|]. exact K.
Qed.
Lemma nth_ext_error {A} (l l' : list A) : (forall i, nth_error l i = nth_error l' i) -> l = l'.
Proof.
  revert l'. induction l as [|x l IH]; intros [|y l'] H; auto; try (specialize (H 0%nat); discriminate).
  assert (H0 := H 0%nat). cbn in H0. injection H0 as ->. f_equal. apply IH. intros i. exact (H (S i)).
Qed.
Lemma sorted_unchanged l l' : reprinted l l' -> (forall i x y, nth_error l i = Some x -> nth_error l (S i) = Some y -> (x <= y)%R) -> l' = l.
Proof.
  intros (L & Z & H) S. apply nth_ext_error. intros i. induction i as [|i IH]; [exact Z|].
  destruct (nth_error l (Datatypes.S i)) as [y|] eqn:Y.
  - destruct (nth_error l i) as [x|] eqn:X; [|apply nth_error_None in X; assert (nth_error l (Datatypes.S i) <> None) by congruence; apply nth_error_Some in H0; lia].
    destruct (H i y x Y IH) as [[[K _] _]|[_ K]]; [|exact K]. specialize (S i x y X Y). lra.
  - apply nth_error_None. apply nth_error_None in Y. lia.
Qed.
