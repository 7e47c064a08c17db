(** Lemmas about AVHRR/1 work books: when reading succeeds. *)
From Coq Require Import String Ascii List Bool ZArith Lia Reals Lra.
From Verif Require Import Base NumSig XR M_Tables M_Utils M_World M_Hdf5 M_Raw M_Books S_Raw S_Raw2 S_Hdf5 S_Names S_Books S_Books2 P_Hdf5 P_Hdf52 P_Raw P_Raw6 P_Raw7 P_Books P_Books2 P_Books5 P_Books6.
Import ListNotations.
Local Open Scope string_scope.

Lemma app_cut a b c d : a ++ b = c ++ d -> String.length a = String.length c -> a = c /\ b = d.
Proof. revert c. induction a as [|x a IH]; intros [|y c] E L; try discriminate; [auto|]. cbn in E. injection E as <- E. injection L as L. destruct (IH _ E L). subst. auto. Qed.
Lemma split_fun sep s a b a' b' : first_split sep s a b -> first_split sep s a' b' -> a = a' /\ b = b'.
Proof.
  intros [E M] [E' M']. assert (L : String.length a = String.length a'). { specialize (M _ _ E'). specialize (M' _ _ E). lia. }
  rewrite E in E'. destruct (app_cut _ _ _ _ E' L) as [-> E2]. destruct (app_cut _ _ _ _ E2 eq_refl). auto.
Qed.
Lemma second_part_iff sep s t : between sep s t <-> second_part sep s = Ok t.
Proof.
  split; [|apply second_part_ok]. intros (a & b & F & H). unfold second_part. destruct (cut_at sep s) as [(a', b')|] eqn:C.
  - apply cut_some in C. destruct (split_fun _ _ _ _ _ _ F C) as [<- <-]. destruct (cut_at sep b) as [(x, y)|] eqn:D.
    + destruct H as [(c & H)|[-> H]]; [apply cut_some in D; destruct (split_fun _ _ _ _ _ _ H D); congruence|]. apply cut_some in D as [D _]. exfalso. exact (H _ _ D).
    + destruct H as [(c & H)|[-> H]]; [|reflexivity]. destruct H as [H _]. exfalso. exact (cut_none _ _ D _ _ H).
  - destruct F as [F _]. exfalso. exact (cut_none _ _ C _ _ F).
Qed.
Lemma numbers_total {N : Num} (x : list N) : mapM number (map CNum x) = Ok x.
Proof. induction x as [|y x IH]; [reflexivity|]. cbn [map mapM number bind]. now rewrite IH. Qed.
Lemma drop_all {N : Num} (c : list string) (l : list (cell N)) : drop_text (map CText c ++ l) = drop_text l.
Proof. induction c; auto. Qed.
Lemma without_total {N : Num} (x : list N) c : x <> [] -> without_comments (map CNum x ++ map CText c) = Ok (map CNum x).
Proof.
  intros NE. unfold without_comments. rewrite rev_app_distr, <- map_rev, drop_all, <- map_rev. destruct (rev x) as [|y z] eqn:E; [exfalso; apply NE; rewrite <- (rev_involutive x), E; reflexivity|].
  cbn [map drop_text]. change (CNum y :: map CNum z) with (map CNum (y :: z)). now rewrite <- E, <- map_rev, rev_involutive.
Qed.
Lemma scale_total {N : Num} unit (scale : N) : avhrr1_unit unit scale -> get_scale_from_unit unit = Some scale.
Proof. intros [[-> ->]|[-> ->]]; reflexivity. Qed.
Lemma avhrr1_sheet_total {N : Num} fix_ (s : book_sheet N) p r : avhrr1_sheet_of fix_ s p r -> exists r', avhrr1_sheet s = Ok (p, r').
Proof.
  intros (t0 & t1 & u & unit & scale & pr & com & wvl & col1 & A1 & A2 & A3 & A4 & A5 & A6 & A7 & A8 & A9 & A10). unfold avhrr1_sheet, cells, idx. rewrite A1, A9. cbn [of_option bind Nat.sub skipn firstn nth_error text].
  apply second_part_iff in A4. rewrite A4. cbn [bind]. rewrite (without_total _ _ A2). cbn [bind]. rewrite numbers_total. cbn [bind].
  apply trimmed_iff in A3, A5. rewrite A5, (scale_total _ _ A6). rewrite map_length. replace (2 + List.length pr - 2)%nat with (List.length pr) by lia.
  change (match col1 with _ :: _ :: l => l | _ => [] end) with (skipn 2 col1). rewrite <- A10, numbers_total. cbn [bind of_option]. rewrite A3. eauto.
Qed.
Lemma avhrr1_sheets_total {N : Num} fix_ (l k : list (book_sheet N)) : sheets_read l k -> (forall s, In s k -> exists p r, In p AVHRR1 /\ avhrr1_sheet_of fix_ s p r) ->
  forall acc, (forall p, In p AVHRR1 -> In p (dkeys acc)) -> exists out, avhrr1_sheets l acc = Ok out.
Proof.
  induction 1 as [|s l k Q S IH|s l k Q I S IH|s l Q I]; intros H acc K; cbn [avhrr1_sheets].
  - eauto.
  - rewrite Q, String.eqb_refl. auto.
  - destruct (String.eqb_spec (bs_name s) "Kleespies Data"); [contradiction|]. destruct (dget (strip (bs_name s)) CHANNEL_NAMES) as [c|] eqn:C; [|apply unknown_sheet in C; contradiction].
    destruct (H s (or_introl eq_refl)) as (p & r & Hp & A). destruct (avhrr1_sheet_total _ _ _ _ A) as (r' & ->). cbn [bind]. specialize (K p Hp) as Kp. apply in_dkeys_dget in Kp as (sat & ->). cbn [of_option bind].
    apply IH; [intros s' I'; apply H; now right|]. intros q Hq. apply dset_keys_in. right. auto.
  - destruct (String.eqb_spec (bs_name s) "Kleespies Data"); [contradiction|]. apply unknown_sheet in I. rewrite I. eauto.
Qed.
Lemma avhrr1_succeeds {N : Num} options ex (open_workbook : string -> res (list (book_sheet N))) m path sheets k : dget "avhrr/1" options = Some (CMap m) -> dget "path" m = Some (Leaf (LStr path)) ->
  (ex path = true \/ exists f, dget "filename" m = Some (Leaf (LStr f))) -> open_workbook path = Ok sheets -> sheets_read sheets k ->
  (forall s, In s k -> exists p r, In p AVHRR1 /\ avhrr1_sheet_of (fun _ _ => True) s p r) ->
  (exists rsr, Avhrr1RSR options ex open_workbook "wavelength" = Ok rsr) /\ Avhrr1RSR options ex open_workbook "wavenumber" = Err AttributeError.
Proof.
  intros O P X W S H. unfold Avhrr1RSR, get_path. rewrite O. cbn [of_option bind]. rewrite P. cbn [bind].
  destruct (avhrr1_sheets_total _ _ _ S H (map (fun sat => (sat, map (fun ch => (ch, None)) (channels 1 4))) AVHRR1_SATELLITES)) as (out & E); [auto|].
  destruct X as [X|(g & X)].
  - rewrite X. cbn [bind]. rewrite W. cbn [bind]. rewrite E. cbn [bind]. split; [exists out|]; reflexivity.
  - rewrite X. destruct (ex path); cbn [bind]; rewrite W; cbn [bind]; rewrite E; cbn [bind]; split; [exists out| |exists out|]; reflexivity.
Qed.
Lemma avhrr1_fallback {N : Num} options ex (ow ow' : string -> res (list (book_sheet N))) m path ws : dget "avhrr/1" options = Some (CMap m) -> dget "path" m = Some (Leaf (LStr path)) ->
  ow path = ow' path -> Avhrr1RSR options ex ow ws = Avhrr1RSR options ex ow' ws.
Proof. intros O P W. unfold Avhrr1RSR, get_path. rewrite O. cbn [of_option bind]. rewrite P. cbn [bind]. now rewrite W. Qed.
