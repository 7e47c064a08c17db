(** Lemmas for C97: several processes on one directory. *)
From Coq Require Import String Ascii List Bool Arith Lia.
From Verif Require Import Base M_World M_Download M_Procs S_Procs P_Strings P_Utils P_Events.
Import ListNotations.
Local Open Scope string_scope.

(** ** Lists and strings *)
Lemma set_nth_length {A} (a : A) : forall i l, List.length (set_nth i a l) = List.length l.
Proof. induction i; intros [|b l]; cbn; auto. Qed.
Lemma set_nth_same {A} (a : A) : forall i l, i < List.length l -> nth_error (set_nth i a l) i = Some a.
Proof. induction i; intros [|b l] H; cbn in *; try lia; auto. apply IHi. lia. Qed.
Lemma set_nth_other {A} (a : A) : forall i j l, i <> j -> nth_error (set_nth i a l) j = nth_error l j.
Proof. induction i; intros [|j] [|b l] H; cbn; auto; try lia. Qed.
Lemma from_0 s : from 0 s = s.
Proof. unfold from. rewrite Nat.sub_0_r. induction s; cbn; auto. now rewrite IHs. Qed.
Lemma from_past n s : String.length s <= n -> from n s = "".
Proof. intros H. unfold from. replace (String.length s - n) with 0 by lia. clear H. revert n. induction s as [|c s IH]; intros [|n]; cbn; auto. Qed.
Lemma substring_whole s : substring 0 (String.length s) s = s.
Proof. induction s; cbn; auto. now rewrite IHs. Qed.
Lemma sapp_length a b : String.length (a ++ b) = String.length a + String.length b.
Proof. induction a; cbn; auto. Qed.
Lemma write_end s c : write_at (String.length c) s c = c ++ s.
Proof.
  unfold write_at. rewrite substring_whole, Nat.sub_diag, from_past by lia. cbn [zeros append]. now rewrite sapp_nil.
Qed.

(** ** Single calls *)
Definition agrees (fs : fsys) (w : world) : Prop := forall p, shows fs p = dget p (w_files w).
Lemma nth_snoc {A} (l : list A) a : nth_error (l ++ [a]) (List.length l) = Some a.
Proof. rewrite nth_error_app2, Nat.sub_diag by lia. reflexivity. Qed.

Lemma openw_ok p fs fs' r : proper fs -> exec (COpenW p) fs = (fs', r) -> exists i, r = RFile i /\ proper fs' /\ dget p (fs_names fs') = Some i /\
  shows fs' p = Some "" /\ (forall q, q <> p -> dget q (fs_names fs') = dget q (fs_names fs) /\ shows fs' q = shows fs q) /\ List.length (fs_bytes fs) <= List.length (fs_bytes fs').
Proof.
  intros [P1 P2]. unfold exec. destruct (dget p (fs_names fs)) as [i|] eqn:E; intros [= <- <-]; eexists; (split; [reflexivity|]).
  - pose proof (P1 _ _ E) as L. split; [|split; [exact E|split; [|split]]].
    + split; cbn [fs_names fs_bytes]; [intros q j H; rewrite set_nth_length; eauto|exact P2].
    + unfold shows. cbn [fs_names fs_bytes]. rewrite E. now apply set_nth_same.
    + intros q Hq. split; [reflexivity|]. unfold shows. cbn [fs_names fs_bytes]. destruct (dget q (fs_names fs)) as [j|] eqn:F; [|reflexivity].
      apply set_nth_other. intros ->. apply Hq. eauto.
    + cbn [fs_bytes]. now rewrite set_nth_length.
  - assert (D : forall q, q <> p -> dget q ((p, List.length (fs_bytes fs)) :: fs_names fs) = dget q (fs_names fs)) by (intros q Hq; cbn [dget]; destruct (String.eqb_spec q p); congruence).
    assert (D' : dget p ((p, List.length (fs_bytes fs)) :: fs_names fs) = Some (List.length (fs_bytes fs))) by (cbn [dget]; now rewrite String.eqb_refl).
    split; [|split; [exact D'|split; [|split]]].
    + split; cbn [fs_names fs_bytes].
      * intros q j H. rewrite app_length. cbn [List.length]. destruct (string_dec q p) as [->|Hq]; [rewrite D' in H; injection H as <-; lia|]. rewrite D in H by auto. apply P1 in H. lia.
      * intros q q' j H H'. destruct (string_dec q p) as [->|Hq], (string_dec q' p) as [->|Hq']; auto; rewrite ?D', ?D in * by auto; eauto.
        -- injection H as <-. apply P1 in H'. lia.
        -- injection H' as <-. apply P1 in H. lia.
    + unfold shows. cbn [fs_names fs_bytes]. rewrite D'. apply nth_snoc.
    + intros q Hq. unfold shows. cbn [fs_names fs_bytes]. rewrite D by auto. split; [reflexivity|]. destruct (dget q (fs_names fs)) as [j|] eqn:F; [|reflexivity].
      apply nth_error_app1. eauto.
    + cbn [fs_bytes]. rewrite app_length. lia.
Qed.
Lemma write_ok i pos s fs p : proper fs -> dget p (fs_names fs) = Some i -> let fs' := fst (exec (CWrite i pos s) fs) in
  proper fs' /\ fs_names fs' = fs_names fs /\ shows fs' p = Some (write_at pos s (bytes_of fs i)) /\ (forall q, q <> p -> shows fs' q = shows fs q).
Proof.
  intros [P1 P2] E. cbn [exec fst]. split; [|split; [reflexivity|split]].
  - split; cbn [fs_names fs_bytes]; [intros q j H; rewrite set_nth_length; eauto|exact P2].
  - unfold shows. cbn [fs_names fs_bytes]. rewrite E. apply set_nth_same; eauto.
  - intros q Hq. unfold shows. cbn [fs_names fs_bytes]. destruct (dget q (fs_names fs)) as [j|] eqn:F; [|reflexivity]. apply set_nth_other. intros ->. apply Hq. eauto.
Qed.
Lemma ddel_all_some {V} p q (d : dict V) v : dget q (ddel_all p d) = Some v -> q <> p /\ dget q d = Some v.
Proof.
  intros H. destruct (string_dec q p) as [->|N]; [rewrite dget_ddel_all_same in H; discriminate|]. split; auto. now rewrite dget_ddel_all_other in H.
Qed.
Lemma unlink_ok p fs fs' r : proper fs -> exec (CUnlink p) fs = (fs', r) ->
  (dget p (fs_names fs) = None /\ fs' = fs /\ r = RFail FileNotFoundError) \/
  (r = RDone /\ proper fs' /\ fs_bytes fs' = fs_bytes fs /\ dget p (fs_names fs') = None /\ forall q, q <> p -> dget q (fs_names fs') = dget q (fs_names fs)).
Proof.
  intros [P1 P2]. unfold exec. destruct (dget p (fs_names fs)) as [i|] eqn:E; intros [= <- <-]; [right|left; auto]. split; [reflexivity|]. cbn [fs_names fs_bytes].
  split; [|split; [reflexivity|split; [apply dget_ddel_all_same|intros q Hq; apply dget_ddel_all_other; auto]]].
  split; cbn [fs_names fs_bytes].
  - intros q j H. apply ddel_all_some in H as [_ H]. eauto.
  - intros q q' j H H'. apply ddel_all_some in H as [_ H]. apply ddel_all_some in H' as [_ H']. eauto.
Qed.

(** ** A process by itself *)
Inductive goes : fsys -> proc -> fsys -> proc -> Prop :=
| goes_refl fs p : goes fs p fs p
| goes_step fs c k fs' r fs'' p : exec c fs = (fs', r) -> goes fs' (k r) fs'' p -> goes fs (Do c k) fs'' p.
Lemma goes_trans fs p fs' p' fs'' p'' : goes fs p fs' p' -> goes fs' p' fs'' p'' -> goes fs p fs'' p''.
Proof. induction 1; intros H2; [auto|]. econstructor; eauto. Qed.
Lemma goes_run fs p fs' p' : goes fs p fs' p' -> exists n, run (repeat 0 n) (fs, [p]) = (fs', [p']).
Proof.
  induction 1 as [fs p|fs c k fs' r fs'' p E _ (n & IH)]; [exists 0; reflexivity|].
  exists (S n). cbn [repeat run fold_left]. unfold turn at 2. cbn [fst snd nth_error]. rewrite E. exact IH.
Qed.
Lemma goes_after k fs p fs' p' : goes fs p fs' p' -> goes fs (after p k) fs' (after p' k).
Proof. induction 1; [constructor|]. cbn [after]. econstructor; eauto. Qed.

Lemma agrees_bytes fs w p i : agrees fs w -> proper fs -> dget p (fs_names fs) = Some i -> bytes_of fs i = file_text w p.
Proof.
  intros A [P1 _] E. specialize (A p). unfold shows in A. rewrite E in A. unfold bytes_of, file_text. rewrite <- A.
  specialize (P1 _ _ E). rewrite (nth_error_nth' _ "" P1). reflexivity.
Qed.
Lemma openw_agrees fs w p fs' r : proper fs -> agrees fs w -> exec (COpenW p) fs = (fs', r) ->
  exists i, r = RFile i /\ proper fs' /\ agrees fs' (apply_ev (ECreate p) w) /\ dget p (fs_names fs') = Some i.
Proof.
  intros P A E. destruct (openw_ok _ _ _ _ P E) as (i & -> & P' & D & S1 & S2 & _). exists i. split; [auto|]. split; [auto|]. split; [|auto].
  intros q. cbn [apply_ev]. unfold set_files. cbn [w_files]. destruct (string_dec q p) as [->|N].
  - rewrite S1. now rewrite dget_dset_same.
  - rewrite (proj2 (S2 q N)), A. now rewrite dget_dset_other by congruence.
Qed.
Lemma write_agrees fs w p i s : proper fs -> agrees fs w -> dget p (fs_names fs) = Some i -> let fs' := fst (exec (CWrite i (String.length (file_text w p)) s) fs) in
  proper fs' /\ agrees fs' (apply_ev (EAppend p s) w) /\ fs_names fs' = fs_names fs.
Proof.
  intros P A E. destruct (write_ok i (String.length (file_text w p)) s fs p P E) as (P' & N' & S1 & S2). split; [auto|]. split; [|auto].
  intros q. cbn [apply_ev]. unfold set_files. cbn [w_files]. destruct (string_dec q p) as [->|N].
  - rewrite S1, dget_dset_same, (agrees_bytes fs w p i A P E), write_end. reflexivity.
  - rewrite S2, dget_dset_other by congruence. apply A.
Qed.
Lemma file_text_append w p s : file_text (apply_ev (EAppend p s) w) p = file_text w p ++ s.
Proof. cbn [apply_ev]. unfold file_text at 1, set_files. cbn [w_files]. now rewrite dget_dset_same. Qed.
Lemma chunks_go local i k : forall chunks fs w, proper fs -> agrees fs w -> dget local (fs_names fs) = Some i ->
  exists fs', goes fs (write_chunks i (String.length (file_text w local)) chunks k) fs' k /\ proper fs' /\
    agrees fs' (run_evs (map (EAppend local) (filter nonempty chunks)) w) /\ fs_names fs' = fs_names fs.
Proof.
  induction chunks as [|s chunks IH]; intros fs w P A E; cbn [write_chunks filter].
  - exists fs. split; [constructor|auto].
  - destruct (nonempty s) eqn:NS; [|apply IH; auto]. cbn [map]. rewrite run_cons.
    destruct (write_agrees fs w local i s P A E) as (P' & A' & N').
    set (fs1 := fst (exec (CWrite i (String.length (file_text w local)) s) fs)) in *.
    destruct (IH fs1 (apply_ev (EAppend local s) w)) as (fs' & G & P2 & A2 & N2); [auto|auto|now rewrite N'|].
    exists fs'. split; [|split; [auto|split; [auto|congruence]]].
    eapply goes_step with (r := RDone) (fs' := fs1); [reflexivity|]. cbn [on_done]. rewrite <- sapp_length, <- file_text_append. exact G.
Qed.
Lemma members_go dir o : forall members fs w, proper fs -> agrees fs w ->
  exists fs', goes fs (unpack_members dir members o) fs' (Ret o) /\ proper fs' /\ agrees fs' (run_evs (member_events dir members) w).
Proof.
  induction members as [|[n c] members IH]; intros fs w P A; cbn [unpack_members].
  - exists fs. split; [constructor|auto].
  - destruct (exec (COpenW (join dir n)) fs) as [fs1 r] eqn:E1. destruct (openw_agrees _ _ _ _ _ P A E1) as (i & -> & P1 & A1 & D1).
    assert (L : String.length (file_text (apply_ev (ECreate (join dir n)) w) (join dir n)) = 0).
    { cbn [apply_ev]. unfold file_text, set_files. cbn [w_files]. now rewrite dget_dset_same. }
    destruct (write_agrees fs1 _ (join dir n) i c P1 A1 D1) as (P2 & A2 & N2). rewrite L in *.
    set (fs2 := fst (exec (CWrite i 0 c) fs1)) in *.
    destruct (IH fs2 _ P2 A2) as (fs' & G & P' & A'). exists fs'. split; [|split; [auto|exact A']].
    eapply goes_step; [exact E1|]. cbn [on_file]. eapply goes_step with (r := RDone) (fs' := fs2); [reflexivity|]. exact G.
Qed.
Lemma shows_none fs p : proper fs -> shows fs p = None <-> dget p (fs_names fs) = None.
Proof.
  intros [P1 _]. unfold shows. destruct (dget p (fs_names fs)) as [i|] eqn:E; [|tauto]. split; [|discriminate]. intros H. apply nth_error_None in H. apply P1 in E. lia.
Qed.

Lemma download_alone : forall x r tarball dir w fs, proper fs -> (forall p, shows fs p = dget p (w_files w)) -> is_dir w dir = true -> (forall n, is_dir w (join dir n) = false) ->
  exists n fs', run (repeat 0 n) (fs, [download r (join dir tarball) (unpack_all x dir)]) = (fs', [Ret (snd (transfer_events x r tarball dir w))]) /\
  proper fs' /\ forall p, shows fs' p = dget p (w_files (run_evs (fst (transfer_events x r tarball dir w)) w)).
Proof.
  intros x r tb dir w fs P A D ND. 
  assert (G : exists fs', goes fs (download r (join dir tb) (unpack_all x dir)) fs' (Ret (snd (transfer_events x r tb dir w))) /\ proper fs' /\ agrees fs' (run_evs (fst (transfer_events x r tb dir w)) w)).
  { unfold download, transfer_events. destruct (rs_ok r); cbn [negb]; [|exists fs; split; [constructor|auto]]. rewrite ND, D. cbn [negb]. set (local := join dir tb) in *.
    destruct (exec (COpenW local) fs) as [fs1 rp] eqn:E1. destruct (openw_agrees _ _ _ _ _ P A E1) as (i & -> & P1 & A1 & D1).
    assert (L : String.length (file_text (apply_ev (ECreate local) w) local) = 0).
    { cbn [apply_ev]. unfold file_text, set_files. cbn [w_files]. now rewrite dget_dset_same. }
    destruct (chunks_go local i (match rs_end r with
      | Err e => Ret (Err e)
      | Ok _ => Do (COpenR local) (on_file (fun t => after (unpack_all x dir t) (Do (CUnlink local) (on_done (Ret (Ok tt))))))
      end) (rs_chunks r) fs1 _ P1 A1 D1) as (fs2 & G2 & P2 & A2 & N2). rewrite L in G2.
    unfold write_events. rewrite run_cons. set (w2 := run_evs (map (EAppend local) (filter nonempty (rs_chunks r))) (apply_ev (ECreate local) w)) in *.
    assert (G1 : goes fs (Do (COpenW local) (on_file (fun h => write_chunks h 0 (rs_chunks r) (match rs_end r with
      | Err e => Ret (Err e)
      | Ok _ => Do (COpenR local) (on_file (fun t => after (unpack_all x dir t) (Do (CUnlink local) (on_done (Ret (Ok tt))))))
      end)))) fs2 (match rs_end r with
      | Err e => Ret (Err e)
      | Ok _ => Do (COpenR local) (on_file (fun t => after (unpack_all x dir t) (Do (CUnlink local) (on_done (Ret (Ok tt))))))
      end)) by (eapply goes_step; [exact E1|exact G2]). clear G2.
    destruct (rs_end r) as [u|e]; [|exists fs2; split; [exact G1|split; [auto|cbn [fst]; rewrite run_cons; exact A2]]].
    assert (D2 : dget local (fs_names fs2) = Some i) by (now rewrite N2).
    pose proof (agrees_bytes fs2 w2 local i A2 P2 D2) as B2.
    destruct (x_untar x (file_text w2 local)) as [members o] eqn:EU.
    destruct (extract_events w dir members o) as [l o'] eqn:EX.
    assert (EX' : l = member_events dir members /\ o' = o).
    { clear - EX ND. revert l o' EX. induction members as [|[n c] members IH]; intros l o' EX; cbn [extract_events] in EX; [injection EX as <- <-; auto|].
      rewrite ND in EX. destruct (extract_events w dir members o) as [l1 o1] eqn:E1. injection EX as <- <-. destruct (IH _ _ eq_refl) as [-> ->]. auto. }
    destruct EX' as [-> ->].
    destruct (members_go dir o members fs2 w2 P2 A2) as (fs3 & G3 & P3 & A3).
    assert (G4 : goes fs (Do (COpenW local) (on_file (fun h => write_chunks h 0 (rs_chunks r) (Do (COpenR local) (on_file (fun t => after (unpack_all x dir t) (Do (CUnlink local) (on_done (Ret (Ok tt))))))))))
      fs3 (after (Ret o) (Do (CUnlink local) (on_done (Ret (Ok tt)))))).
    { eapply goes_trans; [exact G1|]. eapply goes_step with (r := RFile i) (fs' := fs2); [unfold exec; now rewrite D2|]. cbn [on_file].
      apply goes_after. unfold unpack_all. eapply goes_step with (fs' := fs2); [unfold exec; reflexivity|]. cbn beta iota. rewrite from_0, B2, EU. exact G3. }
    assert (RE : forall t, run_evs ((ECreate local :: map (EAppend local) (filter nonempty (rs_chunks r))) ++ member_events dir members ++ t) w = run_evs t (run_evs (member_events dir members) w2)).
    { intros t. rewrite run_app, run_cons, run_app. reflexivity. }
    destruct o as [u'|e]; cbn [fst snd].
    - destruct (exec (CUnlink local) fs3) as [fs4 rp] eqn:E4. destruct (unlink_ok _ _ _ _ P3 E4) as [(H1 & H2 & H3)|(H1 & H2 & H3 & H4 & H5)].
      + exfalso. apply (shows_none fs3 local P3) in H1. rewrite A3 in H1. revert H1.
        assert (K : forall ms w0, dget local (w_files w0) <> None -> dget local (w_files (run_evs (member_events dir ms) w0)) <> None).
        { clear. induction ms as [|[n c] ms IH]; intros w0 H; [exact H|]. change (member_events dir ((n, c) :: ms)) with (ECreate (join dir n) :: EAppend (join dir n) c :: member_events dir ms).
          rewrite !run_cons. apply IH. cbn [apply_ev]. unfold set_files. cbn [w_files]. destruct (string_dec local (join dir n)) as [->|N]; [rewrite dget_dset_same; discriminate|]. rewrite !dget_dset_other by congruence. exact H. }
        apply K. rewrite <- A2. intros H. apply (shows_none fs2 local P2) in H. congruence.
      + exists fs4. split; [|split; [auto|]].
        * eapply goes_trans; [exact G4|]. cbn [after]. eapply goes_step; [exact E4|]. rewrite H1. cbn [on_done]. constructor.
        * rewrite RE. cbn [run_evs fold_left apply_ev]. intros q. unfold set_files. cbn [w_files]. unfold shows. destruct (string_dec q local) as [->|N].
          -- now rewrite H4, dget_ddel_all_same.
          -- rewrite H5, H3, dget_ddel_all_other by auto. apply A3.
    - exists fs3. split; [exact G4|]. split; [auto|]. specialize (RE []). rewrite app_nil_r in RE. rewrite RE. exact A3. }
  destruct G as (fs' & G & P' & A'). destruct (goes_run _ _ _ _ G) as [n R]. exists n, fs'. auto.
Qed.
