(** Lemmas about MODIS files. *)
From Coq Require Import String Ascii List Bool ZArith Lia DecimalString DecimalNat DecimalPos DecimalZ FinFun.
From Verif Require Import Base NumSig M_Tables M_Utils M_World M_Hdf5 M_Raw S_Raw S_Hdf5 S_Names P_Strings P_Hdf5 P_Hdf52 P_Raw6 S_Raw2.
Import ListNotations.
Local Open Scope string_scope.

(** ** fields of a line *)
Lemma is_space_white c : is_space c = white_space c.
Proof. destruct c as [[] [] [] [] [] [] [] []]; reflexivity. Qed.
Lemma words_skip b s : blank b -> words_from "" (b ++ s) = words_from "" s.
Proof. induction b as [|c b IH]; [easy|]. intros [E H]. cbn [append words_from]. rewrite is_space_white, E. now apply IH. Qed.
Lemma words_blank b : blank b -> words_from "" b = [].
Proof. induction b as [|c b IH]; [easy|]. intros [E H]. cbn [append words_from]. rewrite is_space_white, E. now apply IH. Qed.
Lemma app_assoc_s (a b c : string) : (a ++ b) ++ c = a ++ (b ++ c).
Proof. induction a; cbn; congruence. Qed.
Lemma app_nil_s (a : string) : a ++ "" = a.
Proof. induction a; cbn; congruence. Qed.
Lemma eqb_app_ne a c t : String.eqb (a ++ String c t) "" = false.
Proof. now destruct a. Qed.
Lemma words_solid w : forall cur s, solid w -> at_end s -> cur ++ w <> "" -> words_from cur (w ++ s) = (cur ++ w) :: words_from "" s.
Proof.
  induction w as [|c w IH]; intros cur s Hw Hs Hn.
  - rewrite app_nil_s in *. cbn [append]. assert (E : String.eqb cur "" = false) by now apply String.eqb_neq.
    destruct s as [|d s]; cbn [words_from] in *; rewrite ?E; [reflexivity|]. cbn [at_end] in Hs. rewrite is_space_white, Hs. reflexivity.
  - destruct Hw as [Hc Hw]. cbn [append words_from]. rewrite is_space_white, Hc. rewrite IH; [|easy|easy|].
    + rewrite app_assoc_s. reflexivity.
    + rewrite app_assoc_s. cbn. now destruct cur.
Qed.
Lemma fields_words s l : fields s l -> words s = l.
Proof.
  unfold words. induction 1 as [s H|b w s l Hb Hw Hsw Hs F IH]; [now apply words_blank|].
  rewrite words_skip by easy. rewrite words_solid by (cbn; auto). cbn. now rewrite IH.
Qed.
Lemma solid_snoc w c : solid w -> white_space c = false -> solid (w ++ String c "").
Proof. induction w; cbn; [auto|]. intros [? ?] ?. auto. Qed.
Lemma words_fields_aux s : forall cur b, solid cur -> blank b -> fields (b ++ cur ++ s) (words_from cur s).
Proof.
  induction s as [|c s IH]; intros cur b Hc Hb; cbn [words_from].
  - destruct (String.eqb_spec cur "") as [->|Hn].
    + apply fields_none. cbn. now rewrite app_nil_s.
    + apply (fields_more b cur "" []); auto; [exact I|]. now constructor.
  - rewrite is_space_white. destruct (white_space c) eqn:E.
    + destruct (String.eqb_spec cur "") as [->|Hn].
      * cbn [append]. replace (b ++ String c s) with ((b ++ String c "") ++ ("" ++ s)) by (rewrite app_assoc_s; reflexivity).
        apply IH; [exact I|]. clear -Hb E. induction b; cbn in *; tauto.
      * apply fields_more; auto. replace (String c s) with (String c "" ++ "" ++ s) by reflexivity. apply IH; [exact I|]. cbn. auto.
    + replace (String c s) with (String c "" ++ s) by reflexivity. rewrite <- (app_assoc_s cur). apply IH; [now apply solid_snoc|easy].
Qed.
Lemma words_iff s l : words s = l <-> fields s l.
Proof.
  split; [|apply fields_words]. intros <-. exact (words_fields_aux s "" "" I I).
Qed.

(** ** names of detectors *)
Lemma label_nat k : det_label (Z.of_nat k) = det_name k.
Proof. unfold det_label. destruct (Z.ltb_spec (Z.of_nat k) 0); [lia|]. now rewrite Nat2Z.id. Qed.
Lemma neg_digits p : exists u, Z.to_int (Zneg p) = Decimal.Neg u /\ u <> Decimal.Nil.
Proof. exists (Pos.to_uint p). split; [reflexivity|]. apply DecimalPos.Unsigned.to_uint_nonnil. Qed.
Lemma no_minus n s : NilZero.string_of_uint (Nat.to_uint n) <> String "-" s.
Proof. destruct (Nat.to_uint n); cbn; discriminate. Qed.
Lemma label_inj a b : det_label a = det_label b -> a = b.
Proof.
  unfold det_label. destruct (Z.ltb_spec a 0) as [Ha|Ha], (Z.ltb_spec b 0) as [Hb|Hb]; intros E.
  - apply sapp_inj in E. destruct a as [|?|p]; try lia. destruct b as [|?|q]; try lia.
    destruct (neg_digits p) as (u & Hu & Nu), (neg_digits q) as (v & Hv & Nv). rewrite Hu, Hv in E.
    assert (I : Decimal.Neg u = Decimal.Neg v).
    { apply (f_equal NilZero.int_of_string) in E. rewrite !NilZero.isi in E by congruence. congruence. }
    rewrite <- (DecimalZ.of_to (Zneg p)), <- (DecimalZ.of_to (Zneg q)). congruence.
  - apply sapp_inj in E. destruct a as [|?|p]; try lia. destruct (neg_digits p) as (u & Hu & _). rewrite Hu in E. cbn [NilZero.string_of_int] in E. symmetry in E. now apply no_minus in E.
  - apply sapp_inj in E. destruct b as [|?|p]; try lia. destruct (neg_digits p) as (u & Hu & _). rewrite Hu in E. cbn [NilZero.string_of_int] in E. now apply no_minus in E.
  - apply det_name_inj in E. lia.
Qed.

(** ** reading the lines *)
Section Lines.
  Context {N : Num}.
  Variable py_int : string -> res Z.
  Variable py_float : string -> res N.
  Variable scale : N.
  Notation row := (option (Z * N * N)).
  Local Open Scope num_scope.

  Definition of_row (o : row) (z : Z) : list (N * N) :=
    match o with Some (z', w, r) => if Z.eqb z z' then [(w, r)] else [] | None => [] end.
  Definition all_of (rows : list row) (z : Z) : list (N * N) := flat_map (fun o => of_row o z) rows.
  Definition rawof (l : list (N * N)) : raw N := {| rw_wavelength := map (fun p => fst p * scale) l; rw_response := map snd l |}.

  Lemma hash_line line : String.eqb (substring 0 1 line) "#" = true <-> exists s, line = String "#" s.
  Proof.
    destruct line as [|c s]; cbn.
    - split; [discriminate|intros (s & H); discriminate].
    - destruct (Ascii.eqb_spec c "#") as [->|Hn].
      + destruct s; cbn; split; eauto.
      + split; [destruct s; discriminate|]. intros (s' & H). congruence.
  Qed.
  Definition put (o : row) (d : dict (raw N)) : dict (raw N) :=
    match o with
    | None => d
    | Some (z, w, r) =>
        let x := match dget (det_label z) d with Some x => x | None => {| rw_wavelength := []; rw_response := [] |} end in
        dset (det_label z) {| rw_wavelength := rw_wavelength x ++ [w * scale]; rw_response := rw_response x ++ [r] |} d
    end%list.
  Lemma line_ok line d d' : modis_line py_int py_float scale line d = Ok d' <-> exists o, modis_row py_int py_float line o /\ d' = put o d.
  Proof.
    unfold modis_line. destruct (String.eqb (substring 0 1 line) "#") eqn:E.
    - apply hash_line in E as (s & ->). split.
      + intros [= <-]. exists None. split; [constructor|reflexivity].
      + intros (o & H & ->). inversion H as [|? ? ? ? ? ? ? ? K]; subst; [reflexivity|]. now destruct (K s).
    - assert (NH : forall s, line <> String "#" s). { intros s ->. rewrite (proj2 (hash_line _)) in E; [discriminate|eauto]. }
      split.
      + destruct (words line) as [|a [|b [|c [|e [|? ?]]]]] eqn:W; try discriminate.
        destruct (py_int b) as [z|] eqn:E1; cbn [bind]; [|discriminate].
        destruct (py_float c) as [w|] eqn:E2; cbn [bind]; [|discriminate].
        destruct (py_float e) as [r|] eqn:E3; cbn [bind]; [|discriminate]. intros [= <-].
        exists (Some (z, w, r)). split; [|reflexivity]. apply words_iff in W. econstructor; eauto.
      + intros (o & H & ->). inversion H as [s|? a b c e z w r K F E1 E2 E3]; subst; [now destruct (NH s)|].
        apply words_iff in F. rewrite F, E1. cbn [bind]. rewrite E2. cbn [bind]. rewrite E3. reflexivity.
  Qed.
  Lemma lines_ok lines : forall d d', modis_lines py_int py_float scale lines d = Ok d' <->
    exists rows, Forall2 (modis_row py_int py_float) lines rows /\ d' = fold_left (fun d o => put o d) rows d.
  Proof.
    induction lines as [|l ls IH]; intros d d'; cbn [modis_lines].
    - split; [intros [= <-]; exists []; split; auto|]. intros (rows & F & ->). now inversion F.
    - split.
      + destruct (modis_line py_int py_float scale l d) as [d1|] eqn:E; cbn [bind]; [|discriminate]. intros H. apply IH in H as (rows & F & ->).
        apply line_ok in E as (o & Ho & ->). exists (o :: rows). split; [now constructor|reflexivity].
      + intros (rows & F & ->). inversion F as [|? o ? rows' Ho F']; subst. rewrite (proj2 (line_ok l d (put o d))) by eauto. cbn [bind].
        apply IH. eauto.
  Qed.

  (** what the dictionary holds after some rows *)
  Definition holds (rows : list row) (d : dict (raw N)) : Prop :=
    NoDup (dkeys d) /\ (forall k, In k (dkeys d) <-> exists z, mentions rows z /\ k = det_label z) /\
    (forall z, mentions rows z -> dget (det_label z) d = Some (rawof (all_of rows z))).
  Lemma mentions_app a b z : mentions (a ++ b)%list z <-> mentions a z \/ @mentions N b z.
  Proof.
    unfold mentions. split.
    - intros (w & r & H). apply in_app_or in H as [H|H]; eauto.
    - intros [(w & r & H)|(w & r & H)]; exists w, r; apply in_or_app; auto.
  Qed.
  Lemma mentions_one z (w r : N) z' : @mentions N [Some (z, w, r)] z' <-> z' = z :> Z.
  Proof. unfold mentions. cbn. split; [intros (? & ? & [H|[]]); congruence|intros ->; eauto]. Qed.
  Lemma mentions_dec rows z : {@mentions N rows z} + {~ mentions rows z}.
  Proof.
    induction rows as [|o rows IH].
    - right. intros (w & r & []).
    - destruct o as [((z', w), r)|].
      + destruct (Z.eq_dec z z') as [->|Hn]; [left; exists w, r; now left|].
        destruct IH as [H|H]; [left|right].
        * destruct H as (w' & r' & H). exists w', r'. now right.
        * intros (w' & r' & [K|K]); [congruence|]. apply H. now exists w', r'.
      + destruct IH as [H|H]; [left|right].
        * destruct H as (w' & r' & H). exists w', r'. now right.
        * intros (w' & r' & [K|K]); [congruence|]. apply H. now exists w', r'.
  Defined.
  Lemma all_none rows z : ~ mentions rows z -> all_of rows z = [].
  Proof.
    induction rows as [|o rows IH]; intros H; [auto|]. unfold all_of. cbn [flat_map]. fold (all_of rows z). rewrite IH.
    - destruct o as [((z', w), r)|]; cbn; [|auto]. destruct (Z.eqb_spec z z') as [->|]; [|auto]. exfalso. apply H. exists w, r. now left.
    - intros (w & r & K). apply H. exists w, r. now right.
  Qed.
  Lemma all_app a b z : all_of (a ++ b) z = (all_of a z ++ all_of b z)%list.
  Proof. apply flat_map_app. Qed.
  Lemma put_holds rows o d : holds rows d -> holds (rows ++ [o])%list (put o d).
  Proof.
    intros (H1 & H2 & H3). destruct o as [((z, w), r)|]; cbn [put].
    - set (x := match dget (det_label z) d with Some x => x | None => _ end).
      assert (X : x = rawof (all_of rows z)).
      { unfold x. destruct (mentions_dec rows z) as [Hm|Hm].
        - now rewrite (H3 _ Hm).
        - rewrite (all_none _ _ Hm). assert (E : dget (det_label z) d = None).
          { apply dget_None_notin. intros Hin. apply H2 in Hin as (z' & K & L). apply label_inj in L. subst. contradiction. }
          now rewrite E. }
      split; [now apply dset_nodup|]. split.
      + intros k. rewrite dset_keys_in, H2. split.
        * intros [->|(z' & K & ->)].
          -- exists z. split; auto. apply mentions_app. right. now apply mentions_one.
          -- exists z'. split; auto. apply mentions_app. now left.
        * intros (z' & K & ->). apply mentions_app in K as [K|K]; [right; eauto|]. apply mentions_one in K as ->. now left.
      + intros z' Hz'. rewrite dget_dset. destruct (String.eqb_spec (det_label z') (det_label z)) as [E|E].
        * apply label_inj in E as ->. f_equal. rewrite all_app. unfold all_of at 2. cbn. rewrite Z.eqb_refl. cbn.
          rewrite X. unfold rawof. cbn. rewrite !map_app. reflexivity.
        * rewrite all_app. unfold all_of at 2. cbn. destruct (Z.eqb_spec z' z) as [->|Hn]; [congruence|]. rewrite !app_nil_r.
          apply H3. apply mentions_app in Hz' as [K|K]; auto. apply mentions_one in K. congruence.
    - assert (M : forall z, mentions (rows ++ [None]) z <-> mentions rows z).
      { intros z. rewrite mentions_app. split; [|auto]. intros [K|(w & r & [K|[]])]; auto; discriminate. }
      split; auto. split.
      + intros k. rewrite H2. split; intros (z & K & ->); exists z; split; auto; now apply M.
      + intros z Hz. rewrite all_app. cbn. rewrite app_nil_r. now apply H3, M.
  Qed.
  Lemma fold_holds rows : forall done d, holds done d -> holds (done ++ rows)%list (fold_left (fun d o => put o d) rows d).
  Proof.
    induction rows as [|o rows IH]; intros done d H; cbn [fold_left].
    - now rewrite app_nil_r.
    - replace (done ++ o :: rows)%list with ((done ++ [o]) ++ rows)%list by (now rewrite <- app_assoc). apply IH. now apply put_holds.
  Qed.
  Lemma first_key rows : forall d k v, hd_error d = Some (k, v) -> exists v', hd_error (fold_left (fun d o => put o d) rows d) = Some (k, v').
  Proof.
    induction rows as [|o rows IH]; intros d k v H; cbn [fold_left]; [eauto|].
    assert (K : exists v1, hd_error (put o d) = Some (k, v1)).
    { destruct o as [((z, w), r)|]; cbn [put]; [|eauto]. destruct d as [|(k0, v0) d]; [discriminate|]. cbn in H. injection H as -> ->.
      cbn [dset]. destruct (String.eqb (det_label z) k); cbn; eauto. }
    destruct K as (v1 & K). eapply IH. exact K.
  Qed.
  Lemma first_row rows : forall k v, hd_error (fold_left (fun d o => put o d) rows []) = Some (k, v) -> exists z, first_mentioned rows z /\ k = det_label z.
  Proof.
    induction rows as [|o rows IH]; intros k v H; cbn [fold_left] in H; [discriminate|].
    destruct o as [((z, w), r)|].
    - cbn [put dget dset] in H. match type of H with hd_error (fold_left _ rows [(?k0, ?v0)]) = _ => destruct (first_key rows [(k0, v0)] k0 v0 eq_refl) as (v' & E) end.
      rewrite E in H. injection H as <- <-. exists z. split; auto. constructor.
    - apply IH in H as (z & F & ->). exists z. split; auto. now constructor.
  Qed.
  Lemma compressed_rows rows z : compressed (rawof (all_of rows z)) = {| rw_wavelength := map (fun p => fst p * scale) (rows_of rows z); rw_response := map snd (rows_of rows z) |}.
  Proof.
    assert (E : rows_of rows z = filter (fun p => negb (snd p =? nlit N (-99) 1)) (all_of rows z)).
    { unfold rows_of, all_of. induction rows as [|o rows IH]; cbn; [auto|]. rewrite filter_app, <- IH. f_equal.
      destruct o as [((z', w), r)|]; cbn; [|auto]. destruct (Z.eqb z z'); cbn; [|auto]. destruct (r =? nlit N (-99) 1); reflexivity. }
    rewrite E. clear E. unfold compressed, rawof. cbn [rw_wavelength rw_response]. induction (all_of rows z) as [|(w, r) l IH]; cbn; [auto|].
    injection IH as IH1 IH2. destruct (r =? nlit N (-99) 1); cbn; [congruence|]. now rewrite IH1, IH2.
  Qed.

  Lemma response_rows readlines f lines : readlines f = Ok lines ->
    (forall d, read_modis_response readlines py_int py_float f scale = Ok d ->
       exists rows, Forall2 (modis_row py_int py_float) lines rows /\
         NoDup (dkeys d) /\ (forall k, In k (dkeys d) <-> exists z, mentions rows z /\ k = det_label z) /\
         (forall k, hd_error (dkeys d) = Some k -> exists z, first_mentioned rows z /\ k = det_label z) /\
         forall z, mentions rows z -> dget (det_label z) d = Some {| rw_wavelength := map (fun p => fst p * scale) (rows_of rows z); rw_response := map snd (rows_of rows z) |}) /\
    (forall rows, Forall2 (modis_row py_int py_float) lines rows -> exists d, read_modis_response readlines py_int py_float f scale = Ok d).
  Proof.
    intros L. unfold read_modis_response. rewrite L. cbn [bind]. split.
    - intros d. destruct (modis_lines py_int py_float scale lines []) as [d0|] eqn:E; cbn [bind]; [|discriminate]. intros [= <-].
      apply lines_ok in E as (rows & F & ->). exists rows. split; auto.
      destruct (fold_holds rows [] []) as (H1 & H2 & H3).
      { split; [constructor|]. split; [|intros z (? & ? & [])]. intros k. split; [intros []|]. intros (z & (? & ? & []) & _). }
      cbn [app] in *. rewrite dkeys_dmap. split; auto. split; auto. split.
      + intros k K. destruct (fold_left _ rows []) as [|(k0, v0) t] eqn:E; [discriminate|]. cbn in K. injection K as ->.
        apply (first_row rows k v0). now rewrite E.
      + intros z Hz. rewrite dget_dmap, (H3 z Hz). cbn [option_map]. now rewrite compressed_rows.
    - intros rows F. rewrite (proj2 (lines_ok lines [] _)) by eauto. cbn [bind]. eauto.
  Qed.
End Lines.
