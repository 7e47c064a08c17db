(** Lemmas for C43, C59-C61, C70. *)
From Coq Require Import String Ascii List Bool Arith ZArith Lia.
From Verif Require Import Base M_Tables M_Utils M_Rsr S_Names.
Import ListNotations.
Local Open Scope string_scope.

(** ** Band lookup *)
Lemma std_name_fun i key a b : std_name i key a -> std_name i key b -> a = b.
Proof.
  intros [(n & t & Hi & Ht & Hk)|[Hn Hg]] [(n' & t' & Hi' & Ht' & Hk')|[Hn' Hg']].
  - congruence.
  - specialize (Hn' _ _ Hi Ht). congruence.
  - specialize (Hn _ _ Hi' Ht'). congruence.
  - congruence.
Qed.

Lemma getitem_stored {V} i (d : dict V) key v : dget key d = Some v -> RSRDict_getitem i d key = Ok v.
Proof. intros H. unfold RSRDict_getitem. now rewrite H. Qed.

Lemma getitem_alias {V} i (d : dict V) key k' : (forall l, i <> Some (IList l)) ->
  dget key d = None -> std_name i key k' ->
  RSRDict_getitem i d key = of_option KeyError (dget k' d).
Proof.
  intros Hl Hd Hs. unfold RSRDict_getitem. rewrite Hd.
  destruct Hs as [(n & t & -> & Ht & Hk)|[Hn Hg]].
  - now rewrite Ht, Hk.
  - rewrite Hg. destruct i as [[n|l]|]; auto.
    + destruct (dget n BANDNAMES) as [t|] eqn:Et; auto. now rewrite (Hn n t eq_refl Et).
    + exfalso. apply (Hl l); auto.
Qed.

Lemma getitem_unknown {V} i (d : dict V) key : (forall l, i <> Some (IList l)) ->
  dget key d = None -> (forall k', ~ std_name i key k') ->
  RSRDict_getitem i d key = Err KeyError.
Proof.
  intros Hl Hd Hs. unfold RSRDict_getitem. rewrite Hd.
  assert (G : (forall n t, i = Some (IOne n) -> dget n BANDNAMES = Some t -> dget key t = None) ->
              dget key BN_generic = None).
  { intros Hn. destruct (dget key BN_generic) as [k'|] eqn:E; auto. exfalso. apply (Hs k'). right. auto. }
  destruct i as [[n|l]|].
  - destruct (dget n BANDNAMES) as [t|] eqn:Et.
    + destruct (dget key t) as [k'|] eqn:Ek.
      * exfalso. apply (Hs k'). left. eauto.
      * rewrite G; auto. intros n' t' [= <-]. congruence.
    + rewrite G; auto. intros n' t' [= <-]. congruence.
  - exfalso. apply (Hl l); auto.
  - rewrite G; auto. discriminate.
Qed.

Lemma std_name_dec i key : (exists k', std_name i key k') \/ (forall k', ~ std_name i key k').
Proof.
  destruct i as [[n|l]|].
  - destruct (dget n BANDNAMES) as [t|] eqn:Et.
    + destruct (dget key t) as [k'|] eqn:Ek; [left; exists k'; left; eauto|].
      destruct (dget key BN_generic) as [k'|] eqn:Eg.
      * left. exists k'. right. split; auto. intros n' t' [= <-]. congruence.
      * right. intros k' [(n' & t' & [= <-] & H1 & H2)|[_ H]]; congruence.
    + destruct (dget key BN_generic) as [k'|] eqn:Eg.
      * left. exists k'. right. split; auto. intros n' t' [= <-]. congruence.
      * right. intros k' [(n' & t' & [= <-] & H1 & H2)|[_ H]]; congruence.
  - destruct (dget key BN_generic) as [k'|] eqn:Eg.
    + left. exists k'. right. split; auto. discriminate.
    + right. intros k' [(n' & t' & H0 & H1 & H2)|[_ H]]; congruence.
  - destruct (dget key BN_generic) as [k'|] eqn:Eg.
    + left. exists k'. right. split; auto. discriminate.
    + right. intros k' [(n' & t' & H0 & H1 & H2)|[_ H]]; congruence.
Qed.

Lemma getitem_spec : forall V i (d : dict V) key,
  (forall l, i <> Some (IList l)) ->
  (forall v, RSRDict_getitem i d key = Ok v <->
     dget key d = Some v \/
     (dget key d = None /\ exists k', std_name i key k' /\ dget k' d = Some v)) /\
  (forall e, RSRDict_getitem i d key = Err e -> e = KeyError).
Proof.
  intros V i d key Hl. destruct (dget key d) as [v0|] eqn:Ed.
  - rewrite (getitem_stored _ _ _ _ Ed). split; [|discriminate].
    intros v. split; [intros [= <-]; auto|]. intros [H|[H _]]; congruence.
  - destruct (std_name_dec i key) as [[k' Hk]|Hn].
    + rewrite (getitem_alias _ _ _ _ Hl Ed Hk). split.
      * intros v. split.
        -- destruct (dget k' d) eqn:E; [|discriminate]. intros [= <-]. right. split; eauto.
        -- intros [H|(_ & k2 & Hk2 & H)]; [congruence|]. rewrite (std_name_fun _ _ _ _ Hk Hk2), H. reflexivity.
      * intros e. destruct (dget k' d); [discriminate|]. intros [= <-]. auto.
    + rewrite (getitem_unknown _ _ _ Hl Ed Hn). split.
      * intros v. split; [discriminate|]. intros [H|(_ & k2 & Hk2 & H)]; [congruence|]. exfalso. eapply Hn; eauto.
      * intros e [= <-]. auto.
Qed.

Lemma get_spec : forall V i (d : dict V) key def,
  (forall l, i <> Some (IList l)) ->
  RSRDict_get i d key def = match RSRDict_getitem i d key with Ok v => Ok v | Err _ => Ok def end.
Proof.
  intros V i d key def Hl. unfold RSRDict_get. destruct (RSRDict_getitem i d key) as [v|e] eqn:E; auto.
  destruct (getitem_spec V i d key Hl) as [_ H]. rewrite (H e E). reflexivity.
Qed.

Lemma getitem_list : forall V l (d : dict V) key def, dget key d = None ->
  RSRDict_getitem (Some (IList l)) d key = Err TypeError /\
  RSRDict_get (Some (IList l)) d key def = Err TypeError.
Proof.
  intros V l d key def H.
  assert (E : RSRDict_getitem (Some (IList l)) d key = Err TypeError).
  { unfold RSRDict_getitem. rewrite H. reflexivity. }
  split; auto. unfold RSRDict_get. now rewrite E.
Qed.

(** ** Text *)
Lemma convert2str_spec : forall v,
  (forall w, convert2str v = Ok w <-> exists s, w = TStr s /\ holds_text v s) /\
  (convert2str v = Err UnicodeDecodeError <-> bad_bytes v) /\
  (convert2str v = Err AttributeError <-> boxed_nontext v) /\
  (forall e, convert2str v = Err e -> e = UnicodeDecodeError \/ e = AttributeError \/ e = ValueError).
Proof.
  assert (Hd : forall b, decode b = if utf8_valid b then Ok (TStr b) else Err UnicodeDecodeError) by reflexivity.
  intros v. unfold convert2str, bytes2string, np2str.
  destruct v as [s|b|l|l|l| |]; cbn [bind].
  - repeat split; try discriminate.
    + intros [= <-]. exists s. split; auto. constructor.
    + intros (s' & -> & H). inversion H; subst. auto.
    + intros H; inversion H.
    + intros (x & H & _). discriminate.
  - rewrite Hd. destruct (utf8_valid b) eqn:E; cbn [bind]; repeat split; try discriminate.
    + intros [= <-]. exists b. split; auto. now constructor.
    + intros (s' & -> & H). inversion H; subst. auto.
    + intros H; inversion H; congruence.
    + intros (x & H & _). discriminate.
    + intros (s' & -> & H). inversion H; congruence.
    + intros _. now constructor.
    + intros (x & H & _). discriminate.
    + intros e [= <-]. auto.
  - destruct l as [|s [|s2 l]]; repeat split; try discriminate;
      try (intros (s' & -> & H); inversion H; subst; auto; fail); try (intros H; inversion H; fail);
      try (intros (x & H & _); discriminate); try (intros e [= <-]; auto; fail).
    intros [= <-]. exists s. split; auto. constructor.
  - destruct l as [|s [|s2 l]]; rewrite ?Hd; try (destruct (utf8_valid s) eqn:E); repeat split; try discriminate;
      try (intros (s' & -> & H); inversion H; subst; auto; congruence); try (intros H; inversion H; congruence);
      try (intros (x & H & _); discriminate); try (intros e [= <-]; auto; fail).
    + intros [= <-]. exists s. split; auto. now constructor.
    + intros _. now constructor.
  - destruct l as [|x [|x2 l]].
    + repeat split; try discriminate;
      try (intros (s' & -> & H); inversion H; subst; auto; congruence); try (intros H; inversion H; congruence);
      try (intros (x & H & _); discriminate); try (intros e [= <-]; auto; fail).
    + destruct x as [s|b|a|a|a| |]; rewrite ?Hd.
      * repeat split; try discriminate;
          try (intros (s' & -> & H); inversion H; subst; auto; congruence); try (intros H; inversion H; congruence);
          try (intros e [= <-]; auto; fail).
        -- intros [= <-]. exists s. split; auto. constructor.
        -- intros (x & [= <-] & H & _). exfalso. eapply H; eauto.
      * destruct (utf8_valid b) eqn:E; repeat split; try discriminate;
          try (intros (s' & -> & H); inversion H; subst; auto; congruence); try (intros H; inversion H; congruence);
          try (intros e [= <-]; auto; fail).
        -- intros [= <-]. exists b. split; auto. now constructor.
        -- intros (x & [= <-] & _ & H). exfalso. eapply H; eauto.
        -- intros _. now constructor.
        -- intros (x & [= <-] & _ & H). exfalso. eapply H; eauto.
      * repeat split; try discriminate; try (intros (s' & -> & H); inversion H; fail); try (intros H; inversion H; fail);
          try (intros e [= <-]; auto; fail). intros _. eexists; repeat split; discriminate.
      * repeat split; try discriminate; try (intros (s' & -> & H); inversion H; fail); try (intros H; inversion H; fail);
          try (intros e [= <-]; auto; fail). intros _. eexists; repeat split; discriminate.
      * repeat split; try discriminate; try (intros (s' & -> & H); inversion H; fail); try (intros H; inversion H; fail);
          try (intros e [= <-]; auto; fail). intros _. eexists; repeat split; discriminate.
      * repeat split; try discriminate; try (intros (s' & -> & H); inversion H; fail); try (intros H; inversion H; fail);
          try (intros e [= <-]; auto; fail). intros _. eexists; repeat split; discriminate.
      * repeat split; try discriminate; try (intros (s' & -> & H); inversion H; fail); try (intros H; inversion H; fail);
          try (intros e [= <-]; auto; fail). intros _. eexists; repeat split; discriminate.
    + destruct x; repeat split; try discriminate;
      try (intros (s' & -> & H); inversion H; subst; auto; congruence); try (intros H; inversion H; congruence);
      try (intros (y & H & _); discriminate); try (intros e [= <-]; auto; fail).
  - repeat split; try discriminate; try (intros (s' & -> & H); inversion H; fail); try (intros H; inversion H; fail);
      try (intros (x & H & _); discriminate); try (intros e [= <-]; auto; fail).
  - repeat split; try discriminate; try (intros (s' & -> & H); inversion H; fail); try (intros H; inversion H; fail);
      try (intros (x & H & _); discriminate); try (intros e [= <-]; auto; fail).
Qed.

Lemma convert2str_idem v w : convert2str v = Ok w -> convert2str w = Ok w.
Proof. intros H. apply convert2str_spec in H. destruct H as (s & -> & _). reflexivity. Qed.

(** ** Instrument names *)
Lemma smap_get f s n : String.get n (smap f s) = option_map f (String.get n s).
Proof. revert n; induction s as [|c s IH]; intros [|n]; simpl; auto. Qed.

Lemma lower_ascii_not_upper c : ~ (65 <= nat_of_ascii (lower_ascii c) <= 90).
Proof.
  unfold lower_ascii. destruct ((65 <=? nat_of_ascii c)%nat && (nat_of_ascii c <=? 90)%nat)%bool eqn:E.
  - apply andb_prop in E. destruct E as [E1 E2]. apply Nat.leb_le in E1, E2.
    rewrite nat_ascii_embedding by lia. lia.
  - intros [H1 H2]. apply andb_false_iff in E. destruct E as [E|E]; apply Nat.leb_gt in E; lia.
Qed.

Lemma lower_lower_case s : lower_case (lower s).
Proof.
  intros n c H. unfold lower in H. rewrite smap_get in H. destruct (String.get n s); [|discriminate].
  injection H as <-. apply lower_ascii_not_upper.
Qed.

Lemma remove_char_get c s n x : String.get n (remove_char c s) = Some x -> exists m, String.get m s = Some x.
Proof.
  revert n; induction s as [|c' s IH]; intros n H; simpl in *; [destruct n; discriminate|].
  destruct (Ascii.eqb c c').
  - destruct (IH _ H) as [m Hm]. exists (S m). exact Hm.
  - destruct n as [|n]; simpl in H.
    + exists 0%nat. exact H.
    + destruct (IH _ H) as [m Hm]. exists (S m). exact Hm.
Qed.

Lemma remove_char_lower_case c s : lower_case s -> lower_case (remove_char c s).
Proof. intros H n x Hx. destruct (remove_char_get _ _ _ _ Hx) as [m Hm]. eapply H; eauto. Qed.

Lemma normal_form_ok s : lower_case (normal_form s) /\ without "-" (normal_form s) /\ without "/" (normal_form s).
Proof.
  unfold normal_form, without. repeat split.
  - apply remove_char_lower_case, remove_char_lower_case, lower_lower_case.
  - apply has_char_remove_same.
  - apply has_char_remove_other, has_char_remove_same.
Qed.

Lemma smap_smap f g s : smap f (smap g s) = smap (fun c => f (g c)) s.
Proof. induction s; simpl; congruence. Qed.
Lemma smap_ext f g s : (forall c, f c = g c) -> smap f s = smap g s.
Proof. intros H. induction s; simpl; congruence. Qed.
Lemma lower_ascii_idem c : lower_ascii (lower_ascii c) = lower_ascii c.
Proof.
  pose proof (lower_ascii_not_upper c) as H. unfold lower_ascii at 1.
  destruct ((65 <=? nat_of_ascii (lower_ascii c))%nat && (nat_of_ascii (lower_ascii c) <=? 90)%nat)%bool eqn:E; auto.
  apply andb_prop in E. destruct E as [E1 E2]. apply Nat.leb_le in E1, E2. lia.
Qed.
Lemma lower_idem s : lower (lower s) = lower s.
Proof. unfold lower. rewrite smap_smap. apply smap_ext. apply lower_ascii_idem. Qed.

Lemma normal_form_lower s : normal_form (lower s) = normal_form s.
Proof. unfold normal_form. now rewrite lower_idem. Qed.

Lemma identical_iff a b : instr_identical a b = true <-> a = b \/ dget b DASH2SLASH = Some a.
Proof.
  unfold instr_identical, are_instruments_identical. destruct (String.eqb_spec a b) as [->|Hne].
  - split; auto.
  - destruct (dget b DASH2SLASH) as [c|] eqn:E.
    + destruct (String.eqb_spec a c); split; intros H; subst; auto; try discriminate.
      destruct H as [H|H]; congruence.
    + split; [discriminate|]. intros [H|H]; congruence.
Qed.

Lemma dash2slash_normal a b : dget b DASH2SLASH = Some a -> normal_form b = normal_form a.
Proof.
  intros H. apply dget_Some_in in H.
  assert (A : forallb (fun kv => String.eqb (normal_form (fst kv)) (normal_form (snd kv))) DASH2SLASH = true) by reflexivity.
  rewrite forallb_forall in A. apply A in H. now apply String.eqb_eq in H.
Qed.

Lemma identical_normal a b : instr_identical a b = true -> normal_form b = normal_form a.
Proof. rewrite identical_iff. intros [->|H]; auto. now apply dash2slash_normal. Qed.

Lemma INSTRUMENTS_nonempty p l : dget p INSTRUMENTS = Some (IList l) -> l <> [].
Proof.
  intros H ->. apply dget_Some_in in H.
  assert (A : forallb (fun kv => match snd kv with IList [] => false | _ => true end) INSTRUMENTS = true) by reflexivity.
  rewrite forallb_forall in A. apply A in H. discriminate.
Qed.

Lemma adjust_eq p i : check_and_adjust_instrument_name p i =
  match dget p INSTRUMENTS with
  | None => Ok (normal_form i)
  | Some (IOne x) => Ok (normal_form x)
  | Some (IList l) =>
      if existsb (fun x => instr_identical x (lower i)) l then Ok (normal_form i)
      else Ok (normal_form (hd "" l))
  end.
Proof.
  unfold check_and_adjust_instrument_name. destruct (dget p INSTRUMENTS) as [[x|l]|] eqn:E.
  - destruct (instr_identical x (lower i)) eqn:G; cbn [bind].
    + apply identical_normal in G. rewrite normal_form_lower in G. f_equal. exact G.
    + reflexivity.
  - destruct (existsb _ l) eqn:G; [reflexivity|].
    destruct l as [|x l]; [exfalso; eapply INSTRUMENTS_nonempty; eauto|]. reflexivity.
  - assert (G : instr_identical (lower i) (lower i) = true) by (apply identical_iff; auto).
    rewrite G. reflexivity.
Qed.

Lemma adjust_spec : forall p i, exists r, check_and_adjust_instrument_name p i = Ok r /\
  lower_case r /\ without "-" r /\ without "/" r /\
  (dget p INSTRUMENTS = None -> r = normal_form i) /\
  (forall x, dget p INSTRUMENTS = Some (IOne x) -> r = normal_form x) /\
  (dget p INSTRUMENTS <> None -> exists x, carries p x /\ r = normal_form x).
Proof.
  intros p i. rewrite adjust_eq. unfold carries. destruct (dget p INSTRUMENTS) as [[x|l]|] eqn:E.
  - exists (normal_form x). destruct (normal_form_ok x) as (H1 & H2 & H3). repeat split; auto; try discriminate.
    + intros y [= <-]. auto.
    + intros _. exists x. auto.
  - destruct (existsb (fun x => instr_identical x (lower i)) l) eqn:G.
    + apply existsb_exists in G. destruct G as (x & Hx & Hi). apply identical_normal in Hi.
      rewrite normal_form_lower in Hi.
      exists (normal_form i). destruct (normal_form_ok i) as (H1 & H2 & H3). repeat split; auto; try discriminate.
      intros _. exists x. split; auto. right. eauto.
    + pose proof (INSTRUMENTS_nonempty _ _ E). destruct l as [|x l]; [congruence|]. cbn [hd].
      exists (normal_form x). destruct (normal_form_ok x) as (H1 & H2 & H3). repeat split; auto; try discriminate.
      intros _. exists x. split; auto. right. exists (x :: l). split; auto. now left.
  - exists (normal_form i). destruct (normal_form_ok i) as (H1 & H2 & H3). repeat split; auto; try discriminate.
    intros H; congruence.
Qed.

(** multi-instrument platforms accept exactly their own names *)
Lemma adjust_multi : forall p l i, dget p INSTRUMENTS = Some (IList l) ->
  (In (lower i) l -> check_and_adjust_instrument_name p i = Ok (normal_form i)) /\
  (~ In (lower i) l -> check_and_adjust_instrument_name p i = Ok (normal_form (hd "" l))).
Proof.
  intros p l i E. rewrite adjust_eq, E.
  assert (Hex : existsb (fun x => instr_identical x (lower i)) l = true <-> In (lower i) l).
  { rewrite existsb_exists. split.
    - intros (x & Hx & Hi). apply identical_iff in Hi. destruct Hi as [<-|Hi]; auto.
      (* no multi-instrument platform carries a slash-named instrument *)
      exfalso. apply dget_Some_in in E.
      assert (A : forallb (fun kv => match snd kv with
                   | IList l => forallb (fun x => negb (existsb (fun ds => String.eqb (snd ds) x) DASH2SLASH)) l
                   | _ => true end) INSTRUMENTS = true) by reflexivity.
      rewrite forallb_forall in A. apply A in E. cbn [snd] in E. rewrite forallb_forall in E. apply E in Hx.
      apply negb_true_iff in Hx. apply dget_Some_in in Hi.
      assert (existsb (fun ds => String.eqb (snd ds) x) DASH2SLASH = true).
      { apply existsb_exists. eexists; split; eauto. cbn. apply String.eqb_refl. }
      congruence.
    - intros H. exists (lower i). split; auto. apply identical_iff. auto. }
  split; intros H.
  - apply Hex in H. now rewrite H.
  - destruct (existsb _ l) eqn:G; auto. exfalso. apply H. now apply Hex.
Qed.

(** ** Translation tables *)
Lemma dkeys_in_dget {V} (d : dict V) k : In k (dkeys d) -> exists v, dget k d = Some v.
Proof.
  intros H. destruct (dget k d) eqn:E; eauto. apply dget_None_notin in E. contradiction.
Qed.

Definition table_idem (t : dict string) : bool :=
  forallb (fun kv => match dget (snd kv) t with Some x => String.eqb x (snd kv) | None => true end) t.

Lemma tables_idem : forallb (fun it => table_idem (snd it)) BANDNAMES = true.
Proof. vm_compute. reflexivity. Qed.

Lemma table_idem_spec t k k' : table_idem t = true -> dget k t = Some k' -> dget k' t = None \/ dget k' t = Some k'.
Proof.
  intros H Hk. unfold table_idem in H. rewrite forallb_forall in H. apply dget_Some_in in Hk. apply H in Hk.
  cbn [snd] in Hk. destruct (dget k' t); auto. apply String.eqb_eq in Hk. subst. auto.
Qed.

Lemma tables_fixpoint : forall i t k k', dget i BANDNAMES = Some t -> dget k t = Some k' ->
  dget k' t = None \/ dget k' t = Some k'.
Proof.
  intros i t k k' Ht Hk. eapply table_idem_spec; eauto.
  pose proof tables_idem as H. rewrite forallb_forall in H. apply dget_Some_in in Ht. apply (H _ Ht).
Qed.

Lemma translate_idem : forall s b, translate_band s (translate_band s b) = translate_band s b.
Proof.
  intros s b. unfold translate_band. set (t := match dget s BANDNAMES with Some t => t | None => BN_generic end).
  cbn zeta. destruct (dget b t) as [k'|] eqn:E; [|now rewrite E].
  assert (Ht : table_idem t = true).
  { subst t. destruct (dget s BANDNAMES) eqn:Es; [|vm_compute; reflexivity].
    pose proof tables_idem as H. rewrite forallb_forall in H. apply dget_Some_in in Es. apply (H _ Es). }
  destruct (table_idem_spec _ _ _ Ht E) as [H|H]; now rewrite H.
Qed.

Lemma generic_numeric : forall n, (1 <= n <= 36)%nat -> forall s, dget s BANDNAMES = None ->
  translate_band s (str_nat n) = "ch" ++ str_nat n.
Proof.
  intros n Hn s Hs. unfold translate_band. rewrite Hs.
  assert (A : forallb (fun m => match dget (str_nat m) BN_generic with
               | Some x => String.eqb x ("ch" ++ str_nat m) | None => false end) (seq 1 36) = true)
    by (vm_compute; reflexivity).
  rewrite forallb_forall in A. specialize (A n ltac:(apply in_seq; lia)). cbn zeta.
  destruct (dget (str_nat n) BN_generic); [|discriminate]. now apply String.eqb_eq in A.
Qed.

(** digit strings outside 1..36 are not translated *)

Lemma generic_numeric_only : forall b k', all_digits b = true -> dget b BN_generic = Some k' ->
  exists n, (1 <= n <= 36)%nat /\ b = str_nat n /\ k' = "ch" ++ str_nat n.
Proof.
  intros b k' Hd Hb. apply dget_Some_in in Hb.
  assert (A : forallb (fun kv => negb (all_digits (fst kv)) ||
               existsb (fun n => String.eqb (fst kv) (str_nat n) && String.eqb (snd kv) ("ch" ++ str_nat n)) (seq 1 36))
               BN_generic = true) by (vm_compute; reflexivity).
  rewrite forallb_forall in A. apply A in Hb. cbn [fst snd] in Hb. rewrite Hd in Hb. cbn [negb orb] in Hb.
  apply existsb_exists in Hb. destruct Hb as (n & Hn & H). apply in_seq in Hn. apply andb_prop in H.
  destruct H as [H1 H2]. apply String.eqb_eq in H1, H2. exists n. repeat split; auto; lia.
Qed.
