(** Lemmas on the plotting scripts and on find_wavelengths_for_satpy (C88-C90, C92). *)
From Coq Require Import String Ascii List Bool NArith ZArith Reals Lra Lia.
From Verif Require Import Base NumSig XR M_Tables M_Utils M_Rsr M_World M_Scripts S_Utils S_Scripts P_Central P_Utils2.
Import ListNotations.
Local Open Scope R_scope.

(** ** the order of strings *)
Lemma ascii_compare_eq a b : Ascii.compare a b = Eq -> a = b.
Proof.
  unfold Ascii.compare. intros H. apply N.compare_eq_iff in H. rewrite <- (ascii_N_embedding a), <- (ascii_N_embedding b). now f_equal.
Qed.
Lemma ascii_compare_refl a : Ascii.compare a a = Eq. Proof. unfold Ascii.compare. apply N.compare_refl. Qed.
Lemma leb_trans : forall a b c, String.leb a b = true -> String.leb b c = true -> String.leb a c = true.
Proof.
  unfold String.leb. induction a as [|x a IH]; intros [|y b] [|z c]; cbn; try congruence.
  intros H1 H2. specialize (IH b c).
  destruct (Ascii.compare x y) eqn:E1; [|clear H1|discriminate H1].
  - apply ascii_compare_eq in E1. subst y. destruct (Ascii.compare x z) eqn:E2; [auto|reflexivity|discriminate H2].
  - destruct (Ascii.compare y z) eqn:E2; [apply ascii_compare_eq in E2; subst z; now rewrite E1| |discriminate H2].
    assert (E3 : Ascii.compare x z = Lt). { unfold Ascii.compare in *. rewrite N.compare_lt_iff in *. lia. }
    now rewrite E3.
Qed.
Lemma leb_refl a : String.leb a a = true.
Proof. destruct (String.leb_total a a); assumption. Qed.
Lemma ltb_leb a b : String.ltb a b = true -> String.leb a b = true.
Proof. unfold String.ltb, String.leb. destruct (String.compare a b); congruence. Qed.
Lemma ltb_false a b : String.ltb a b = false -> String.leb b a = true.
Proof. unfold String.ltb, String.leb. rewrite (String.compare_antisym b a). destruct (String.compare a b); cbn; congruence. Qed.
Lemma least_spec l : forall m, (least m l = m \/ In (least m l) l) /\ String.leb (least m l) m = true /\ forall e, In e l -> String.leb (least m l) e = true.
Proof.
  induction l as [|s t IH]; intros m; cbn [least]; [repeat split; auto using leb_refl; intros e []|].
  destruct (IH (if String.ltb s m then s else m)) as (A & B & C).
  destruct (String.ltb s m) eqn:E.
  - repeat split.
    + right. destruct A as [A|A]; [left; congruence|right; exact A].
    + eapply leb_trans; [exact B|]. now apply ltb_leb.
    + intros e [<-|He]; auto.
  - repeat split; [destruct A as [A|A]; [left; exact A|right; right; exact A]|exact B|].
    intros e [<-|He]; [|auto]. eapply leb_trans; [exact B|]. now apply ltb_false.
Qed.
Lemma first_sorted_spec bd d : first_detector bd d -> exists det, first_sorted (dkeys bd) = Ok det /\ dget det bd = Some d.
Proof.
  intros (det & Hd & Hl). assert (Hi : In det (dkeys bd)). { apply dget_Some_in in Hd. exact (in_map fst _ _ Hd). }
  unfold first_sorted. destruct (dkeys bd) as [|s t] eqn:E; [destruct Hi|].
  destruct (least_spec t s) as (A & B & C). exists (least s t). split; [reflexivity|].
  replace (least s t) with det; [exact Hd|].
  apply String.leb_antisym.
  - apply Hl. destruct A as [->|A]; [now left|now right].
  - destruct Hi as [->|Hi]; auto.
Qed.

(** ** one band *)
Lemma unmasked_spec minimum d ws rs : arrays d ws rs ->
  unmasked (N := XRN) (Fin minimum) d = Ok (map (fun p => (Fin (fst p), Fin (snd p))) (filter (fun p => Rltb minimum (snd p)) (combine ws rs))).
Proof.
  intros (Hl & Hw & Hr). unfold unmasked, get_arr. rewrite Hw, Hr. cbn [bind]. f_equal. clear Hw Hr. revert ws Hl.
  induction rs as [|r rs IH]; intros [|w ws] Hl; try discriminate Hl; [reflexivity|]. cbn [map combine filter snd].
  injection Hl as Hl. cbn [nleb XRN xleb].
  assert (E : negb (Rleb r minimum) = Rltb minimum r).
  { unfold Rltb, Rleb. destruct (Rle_dec r minimum), (Rlt_dec minimum r); try reflexivity; lra. }
  rewrite E. destruct (Rltb minimum r); cbn [map fst snd]; rewrite IH; auto.
Qed.
Lemma so_band_present (o : robj XRN) b bd : dget b (so_rsr o) = Some bd -> so_band o b = Ok bd.
Proof. intros H. unfold so_band, RSRDict_getitem. now rewrite H. Qed.
Lemma plot_band_spec : forall o minimum legend b, drawable o b ->
  exists c, plot_band (Fin minimum) legend o b = Ok c /\ curve_of o minimum legend b c.
Proof.
  intros o minimum legend b (bd & d & ws & rs & Hb & Hd & Ha). unfold plot_band. rewrite (so_band_present o b bd Hb). cbn [bind].
  destruct (first_sorted_spec bd d Hd) as (det & -> & E). cbn [bind]. rewrite E. cbn [of_option bind].
  rewrite (unmasked_spec minimum d ws rs Ha). cbn [bind]. eexists. split; [reflexivity|].
  exists bd, d, ws, rs, (filter (fun p => Rltb minimum (snd p)) (combine ws rs)). repeat split; auto; apply Ha.
Qed.
Lemma points_above : forall minimum ws rs p, List.length rs = List.length ws ->
  In p (filter (fun p => Rltb minimum (snd p)) (combine ws rs)) <-> point_above minimum ws rs p.
Proof.
  intros minimum ws rs [w r] Hl. rewrite filter_In. cbn [snd].
  assert (E : In (w, r) (combine ws rs) <-> exists i, nth_error ws i = Some w /\ nth_error rs i = Some r).
  { revert rs Hl. induction ws as [|a ws IH]; intros [|c rs] Hl; try discriminate Hl.
    - cbn. split; [intros []|]. intros (i & A & _). destruct i; discriminate A.
    - cbn [combine In]. rewrite IH by (now injection Hl). split.
      + intros [H|(i & A & B)]; [injection H as <- <-; now exists 0%nat|now exists (S i)].
      + intros ([|i] & A & B); cbn in A, B; [left; congruence|right; eauto]. }
  rewrite E. unfold point_above. cbn [fst snd]. unfold Rltb. split.
  - intros ((i & A & B) & C). destruct (Rlt_dec minimum r); [eauto|discriminate].
  - intros (i & A & B & C). split; [eauto|]. destruct (Rlt_dec minimum r); [reflexivity|contradiction].
Qed.

(** ** scanning a range *)
Fixpoint new_names (excluded prev l : list string) : list string :=
  match l with
  | [] => []
  | b :: t => if negb (existsb_str b excluded) && negb (existsb_str b prev) then b :: new_names excluded (prev ++ [b]) t
              else new_names excluded (prev ++ [b]) t
  end.
Lemma existsb_str_in s l : existsb_str s l = true <-> In s l.
Proof.
  unfold existsb_str. rewrite existsb_exists. split; [intros (y & A & B); apply String.eqb_eq in B; now subst|].
  intros H. exists s. split; [exact H|apply String.eqb_refl].
Qed.
Lemma existsb_str_notin s l : existsb_str s l = false <-> ~ In s l.
Proof. rewrite <- existsb_str_in. destruct (existsb_str s l); intuition congruence. Qed.
Lemma new_names_in excluded b l : forall prev, In b (new_names excluded prev l) <-> In b l /\ ~ In b excluded /\ ~ In b prev.
Proof.
  induction l as [|a t IH]; intros prev; cbn [new_names In]; [tauto|].
  assert (E : In b (new_names excluded (prev ++ [a]) t) <-> In b t /\ ~ In b excluded /\ ~ In b prev /\ a <> b).
  { rewrite IH, in_app_iff. cbn. intuition congruence. }
  destruct (existsb_str a excluded) eqn:E1; cbn [negb andb].
  - apply existsb_str_in in E1. rewrite E. destruct (string_dec a b); [subst; tauto|intuition congruence].
  - apply existsb_str_notin in E1. destruct (existsb_str a prev) eqn:E2; cbn [negb].
    + apply existsb_str_in in E2. rewrite E. destruct (string_dec a b); [subst; tauto|intuition congruence].
    + apply existsb_str_notin in E2. cbn [In]. rewrite E. destruct (string_dec a b); [subst; tauto|intuition congruence].
Qed.
Lemma new_names_nodup excluded l : forall prev, NoDup (new_names excluded prev l).
Proof.
  induction l as [|a t IH]; intros prev; cbn [new_names]; [constructor|].
  destruct (_ && _); [|apply IH]. constructor; [|apply IH]. rewrite new_names_in, in_app_iff. cbn. tauto.
Qed.
Lemma new_names_app excluded l1 : forall prev l2,
  new_names excluded prev (l1 ++ l2) = (new_names excluded prev l1 ++ new_names excluded (prev ++ l1) l2)%list.
Proof.
  induction l1 as [|a t IH]; intros prev l2; cbn [new_names app]; [now rewrite app_nil_r|].
  rewrite IH, <- app_assoc. cbn [app]. destruct (_ && _); reflexivity.
Qed.
Lemma draw_new_spec (draw : string -> res (curve XRN)) excluded bands : (forall b, In b bands -> exists c, draw b = Ok c) ->
  forall prev acc, exists cs, draw_new draw excluded bands prev acc = Ok ((prev ++ bands)%list, (acc ++ cs)%list) /\
    Forall2 (fun b c => draw b = Ok c) (new_names excluded prev bands) cs.
Proof.
  induction bands as [|b t IH]; intros H prev acc; cbn [draw_new new_names].
  - exists []. rewrite !app_nil_r. split; [reflexivity|constructor].
  - assert (Ht : forall b, In b t -> exists c, draw b = Ok c) by (intros; apply H; now right).
    destruct (_ && _).
    + destruct (H b (or_introl eq_refl)) as (c & Hc). rewrite Hc. cbn [bind].
      destruct (IH Ht (prev ++ [b])%list (acc ++ [c])%list) as (cs & -> & F). exists (c :: cs).
      rewrite <- !app_assoc. split; [reflexivity|]. now constructor.
    + destruct (IH Ht (prev ++ [b])%list acc) as (cs & -> & F). exists cs. rewrite <- app_assoc. split; [reflexivity|exact F].
Qed.

Lemma step_fin x r : nadd XRN (Fin x) (ndiv XRN (Fin r) (nlit XRN 5 1)) = (Fin (x + r / 5) : num XRN).
Proof.
  change (xadd (Fin x) (xdiv (Fin r) (Fin (5 / 1))) = Fin (x + r / 5)). rewrite xdiv_fin by lra. cbn [xadd]. f_equal. field.
Qed.
Section Scan.
  Variables (o : robj XRN) (draw : string -> res (curve XRN)) (excluded : list string) (res hi : R).
  Hypothesis nd : NoDup (dkeys (so_rsr o)).
  Hypothesis cws : Forall (fun kb => first_cw (snd kb) <> None) (so_rsr o).
  Hypothesis names : forall b, In b (dkeys (so_rsr o)) -> b <> ""%string /\ translate_band (so_instrument o) b = b.
  Hypothesis draws : forall b, In b (dkeys (so_rsr o)) -> exists c, draw b = Ok c.
  Definition cand (x : R) : list string := map fst (filter (near x res) (so_rsr o)).
  Fixpoint cands (n : nat) (x : R) : list string := match n with O => [] | S n => (cand x ++ cands n (x + res / 5))%list end.
  Lemma cand_key x b : In b (cand x) -> In b (dkeys (so_rsr o)).
  Proof.
    unfold cand. intros H. apply in_map_iff in H as ((k & v) & <- & H). apply filter_In in H as [H _]. exact (in_map fst _ _ H).
  Qed.
  Lemma cand_lookup x : get_bandname_from_wavelength (so_instrument o) (Fin x : XRN) (so_rsr o) (Fin res) true =
    Ok (match cand x with [] => BNone | [b] => BName b | l => BNames l end).
  Proof.
    rewrite (bandname_spec (so_instrument o) x res true (so_rsr o) nd cws).
    replace (map (fun kb => translate_band (so_instrument o) (fst kb)) (filter (near x res) (so_rsr o))) with (cand x).
    - destruct (cand x) as [|? [|? ?]]; reflexivity.
    - unfold cand. apply map_ext_in. intros kb H. symmetry. apply names. apply filter_In in H as [H _]. exact (in_map fst _ _ H).
  Qed.
  Lemma scan_spec n : forall x, (forall k, (k < n)%nat -> scan_point x res k < hi) -> hi <= scan_point x res n ->
    forall prev acc, exists cs, (forall fuel, (n < fuel)%nat ->
       scan fuel draw o excluded (Fin res : XRN) (Fin x) (Fin hi) prev acc = Done (acc ++ cs)%list) /\
     Forall2 (fun b c => draw b = Ok c) (new_names excluded prev (cands n x)) cs.
  Proof.
    induction n as [|n IH]; intros x Hk Hn prev acc.
    - exists []. split; [|constructor]. intros [|fuel] Hf; [lia|]. unfold scan_point in Hn. cbn [INR] in Hn. cbn [scan].
      cbn [nltb XRN xltb]. unfold Rltb. destruct (Rlt_dec x hi); [lra|]. now rewrite app_nil_r.
    - assert (H0 : x < hi). { specialize (Hk 0%nat ltac:(lia)). unfold scan_point in Hk. cbn [INR] in Hk. lra. }
      assert (Hs : forall k, scan_point (x + res / 5) res k = scan_point x res (S k)). { intros k. unfold scan_point. rewrite S_INR. lra. }
      assert (Dn : exists cs1, draw_new draw excluded (cand x) prev acc = Ok ((prev ++ cand x)%list, (acc ++ cs1)%list) /\
         Forall2 (fun b c => draw b = Ok c) (new_names excluded prev (cand x)) cs1).
      { apply draw_new_spec. intros b Hb. apply draws. now apply cand_key with x. }
      destruct Dn as (cs1 & Ed & F1).
      destruct (IH (x + res / 5)) with (prev := (prev ++ cand x)%list) (acc := (acc ++ cs1)%list) as (cs2 & E2 & F2).
      { intros k Hlt. rewrite Hs. apply Hk. lia. } { rewrite Hs. exact Hn. }
      exists (cs1 ++ cs2)%list. split.
      + intros [|fuel] Hf; [lia|]. cbn [scan]. change (nltb XRN (Fin x) (Fin hi)) with (Rltb x hi).
        unfold Rltb. destruct (Rlt_dec x hi); [|lra]. rewrite cand_lookup.
        specialize (E2 fuel ltac:(lia)).
        replace (nadd XRN (Fin x) (ndiv XRN (Fin res) (nlit XRN 5 1))) with (Fin (x + res / 5) : num XRN).
        2:{ symmetry. apply step_fin. }
        rewrite app_assoc. rewrite <- E2. clear E2. pose proof (cand_key x) as Ck.
        destruct (cand x) as [|b [|b' l]] eqn:Ec.
        * cbn [new_names] in F1. inversion F1; subst. rewrite !app_nil_r. reflexivity.
        * destruct (names b) as [Hb _]; [apply Ck; now left|].
          destruct b as [|ch b0]; [congruence|]. rewrite Ed. reflexivity.
        * rewrite Ed. reflexivity.
      + cbn [cands]. rewrite new_names_app. apply Forall2_app; assumption.
  Qed.
  Lemma cands_in b n : forall x, In b (cands n x) <-> exists k, (k < n)%nat /\ In b (cand (scan_point x res k)).
  Proof.
    induction n as [|n IH]; intros x; cbn [cands]; [split; [intros []|intros (k & H & _); lia]|].
    assert (Hs : forall k, scan_point (x + res / 5) res k = scan_point x res (S k)). { intros k. unfold scan_point. rewrite S_INR. lra. }
    assert (H0 : scan_point x res 0 = x). { unfold scan_point. cbn [INR]. lra. }
    rewrite in_app_iff, IH. split.
    - intros [H|(k & A & B)]; [exists 0%nat; rewrite H0; split; [lia|exact H]|]. exists (S k). rewrite <- Hs. split; [lia|exact B].
    - intros ([|k] & A & B); [left; now rewrite H0 in B|right]. exists k. rewrite Hs. split; [lia|exact B].
  Qed.
End Scan.
Lemma scan_length res hi (Hr : 0 < res) : forall x, exists n, (forall k, (k < n)%nat -> scan_point x res k < hi) /\ hi <= scan_point x res n.
Proof.
  assert (H : forall N x, hi <= scan_point x res N -> exists n, (forall k, (k < n)%nat -> scan_point x res k < hi) /\ hi <= scan_point x res n).
  { induction N as [|N IH]; intros x H.
    - exists 0%nat. split; [lia|exact H].
    - destruct (Rle_dec hi x) as [L|L].
      + exists 0%nat. split; [lia|]. unfold scan_point. cbn [INR]. lra.
      + destruct (IH (x + res / 5)) as (n & A & B). { unfold scan_point in *. rewrite S_INR in H. lra. }
        exists (S n). split; [|unfold scan_point in *; rewrite S_INR; lra].
        intros [|k] Hk; [unfold scan_point; cbn [INR]; lra|]. specialize (A k ltac:(lia)). unfold scan_point in *. rewrite S_INR. lra. }
  intros x. set (q := (hi - x) / (res / 5)). apply (H (Z.to_nat (up q))). unfold scan_point.
  assert (HN : q <= INR (Z.to_nat (up q))).
  { destruct (archimed q) as [A _]. destruct (Z.le_gt_cases 0 (up q)) as [P|P].
    - rewrite INR_IZR_INZ, Z2Nat.id by exact P. lra.
    - apply IZR_lt in P. pose proof (pos_INR (Z.to_nat (up q))). lra. }
  apply (Rmult_le_compat_r (res / 5)) in HN; [|lra].
  replace (q * (res / 5)) with (hi - x) in HN by (unfold q; field; lra). lra.
Qed.
Lemma near_iff x res kb cw : first_cw (snd kb) = Some cw -> (near x res kb = true <-> Rabs (cw - x) < res /\ Rabs (cw - x) < 2).
Proof.
  intros H. unfold near. rewrite H, andb_true_iff. unfold Rltb. destruct (Rlt_dec _ res), (Rlt_dec _ 2); intuition congruence.
Qed.

Lemma range_spec : forall (o : robj XRN) minimum legend excluded lo hi res,
  NoDup (dkeys (so_rsr o)) -> Forall (fun kb => first_cw (snd kb) <> None) (so_rsr o) ->
  (forall b, In b (dkeys (so_rsr o)) -> b <> ""%string /\ translate_band (so_instrument o) b = b /\ drawable o b) -> 0 < res ->
  exists bs cs n, (forall fuel, (n <= fuel)%nat ->
      scan fuel (plot_band (Fin minimum) legend o) o excluded (Fin res : XRN) (Fin lo) (Fin hi) [] [] = Done cs) /\
    NoDup bs /\ Forall2 (curve_of o minimum legend) bs cs /\
    forall b, In b bs <-> ~ In b excluded /\ exists bd cw, dget b (so_rsr o) = Some bd /\ first_cw bd = Some cw /\ sampled lo hi res cw.
Proof.
  intros o minimum legend excluded lo hi res nd cws Hn Hr.
  destruct (scan_length res hi Hr lo) as (n & Hk & Hh).
  set (draw := plot_band (N := XRN) (Fin minimum) legend o).
  assert (Hd : forall b, In b (dkeys (so_rsr o)) -> exists c, draw b = Ok c).
  { intros b Hb. destruct (plot_band_spec o minimum legend b) as (c & E & _); [now apply Hn|eauto]. }
  destruct (scan_spec o draw excluded res hi nd cws) with (n := n) (x := lo) (prev := @nil string) (acc := @nil (curve XRN)) as (cs & Es & F); auto.
  { intros b Hb. destruct (Hn b Hb) as (A & B & _). auto. }
  exists (new_names excluded [] (cands o res n lo)), cs, (S n). split; [intros fuel Hf; apply Es; lia|].
  split; [apply new_names_nodup|]. split.
  - assert (K : forall b, In b (new_names excluded [] (cands o res n lo)) -> In b (dkeys (so_rsr o))).
    { intros b Hb. apply new_names_in in Hb as (Hb & _). apply cands_in in Hb as (k & _ & Hb). eapply cand_key; exact Hb. }
    revert K. clear - F Hn. induction F as [|b c bs cs Hc F IH]; intros K; constructor; [|apply IH; intros; apply K; now right].
    destruct (plot_band_spec o minimum legend b) as (c' & E & Hcv); [apply Hn, K; now left|]. unfold draw in Hc. congruence.
  - intros b. rewrite new_names_in, cands_in. split.
    + intros ((k & Hlt & Hb) & He & _). split; [exact He|]. unfold cand in Hb. apply in_map_iff in Hb as ((b' & bd) & <- & Hb). cbn [fst].
      apply filter_In in Hb as (Hb & Hnear). rewrite Forall_forall in cws. pose proof (cws _ Hb) as Hc. cbn [snd] in Hc.
      destruct (first_cw bd) as [cw|] eqn:Ec; [|congruence]. exists bd, cw. split; [now apply dget_in_nodup|]. split; [exact Ec|].
      exists k. split; [now apply Hk|]. now apply (near_iff _ _ (b', bd) cw Ec).
    + intros (He & bd & cw & Hb & Hc & k & Hlt & Hne). split; [|tauto]. exists k. split.
      * destruct (Nat.lt_ge_cases k n) as [L|L]; [exact L|]. exfalso.
        assert (scan_point lo res n <= scan_point lo res k); [|lra]. unfold scan_point. apply le_INR in L.
        apply Rplus_le_compat_l, Rmult_le_compat_r; [lra|exact L].
      * unfold cand. apply in_map_iff. exists (b, bd). split; [reflexivity|]. apply filter_In. split; [now apply dget_Some_in|].
        now apply (near_iff _ _ (b, bd) cw Hc).
Qed.
Lemma sampled_inside : forall lo hi res cw, 0 < res <= 10 -> lo <= cw < hi -> sampled lo hi res cw.
Proof.
  intros lo hi res cw Hr Hc.
  destruct (scan_length res cw (proj1 Hr) lo) as (n & A & B).
  destruct n as [|n].
  - exists 0%nat. unfold scan_point in *. cbn [INR] in *. replace (cw - (lo + 0 * (res / 5))) with 0 by lra. rewrite Rabs_R0. lra.
  - destruct (Rle_lt_or_eq_dec _ _ B) as [L|L].
    + exists n. specialize (A n ltac:(lia)). unfold scan_point in *. rewrite S_INR in L. split; [lra|]. rewrite Rabs_right by lra. lra.
    + exists (S n). rewrite <- L. split; [lra|]. replace (cw - cw) with 0 by lra. rewrite Rabs_R0. lra.
Qed.
Lemma sampled_outside : forall lo hi res cw, 0 < res -> sampled lo hi res cw -> lo - res < cw < hi + res.
Proof.
  intros lo hi res cw Hr (k & A & B & _). apply Rabs_def2 in B.
  assert (0 <= INR k * (res / 5)). { apply Rmult_le_pos; [apply pos_INR|lra]. } unfold scan_point in *. lra.
Qed.
(** a resolution that is not positive: the loop does not end *)
Lemma scan_forever : forall (o : robj XRN) draw excluded lo hi res, NoDup (dkeys (so_rsr o)) -> Forall (fun kb => first_cw (snd kb) <> None) (so_rsr o) ->
  res <= 0 -> lo < hi -> forall fuel prev acc,
  scan fuel draw o excluded (Fin res : XRN) (Fin lo) (Fin hi) prev acc = Stop StillRunning.
Proof.
  intros o draw excluded lo hi res nd cws Hr Hl fuel. revert lo Hl. induction fuel as [|fuel IH]; intros lo Hl prev acc; [reflexivity|].
  cbn [scan]. change (nltb XRN (Fin lo) (Fin hi)) with (Rltb lo hi). unfold Rltb. destruct (Rlt_dec lo hi); [|lra].
  rewrite (bandname_spec (so_instrument o) lo res true (so_rsr o) nd cws).
  replace (filter (near lo res) (so_rsr o)) with (@nil (string * band XRN)).
  - cbn [map]. replace (nadd XRN (Fin lo) (ndiv XRN (Fin res) (nlit XRN 5 1))) with (Fin (lo + res / 5) : num XRN).
    + apply IH. lra.
    + symmetry. apply step_fin.
  - symmetry. induction (so_rsr o) as [|kb t IHt]; [reflexivity|]. inversion cws; subst. cbn [filter].
    cbn [dkeys map] in nd. inversion nd; subst.
    destruct (near lo res kb) eqn:E; [|auto]. exfalso. destruct (first_cw (snd kb)) as [cw|] eqn:Ec; [|congruence].
    apply (near_iff lo res kb cw Ec) in E. pose proof (Rabs_pos (cw - lo)). lra.
Qed.
