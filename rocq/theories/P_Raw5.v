(** Scripts that fail, MERSI-1 and file names. *)
From Coq Require Import String Ascii List Bool ZArith Lia Reals Lra Sorted.
From Verif Require Import Base NumSig XR M_Tables M_Utils M_World M_Hdf5 M_Raw M_Download S_Raw S_Hdf5 S_Names P_Names P_Hdf52 P_Raw P_Raw2 P_Raw4.
Import ListNotations.
Local Open Scope string_scope.

Section F.
  Context {N : Num}.
  Implicit Types (options : dict cfg) (ex : string -> bool) (cols : string -> nat -> res (list (list N))).

  Lemma virr_fails options ex cols b p : VirrRSR options ex cols b p = Err (if existsb_str p ["FY-3B"; "FY-3C"] then TypeError else KeyError).
  Proof.
    unfold VirrRSR, VIRR_BAND_NAMES, existsb_str. cbn [dget existsb].
    destruct (String.eqb_spec p "FY-3B") as [->|]; [reflexivity|]. destruct (String.eqb_spec p "FY-3C") as [->|]; reflexivity.
  Qed.

  Lemma no_data_no_file f32 upper (load : string -> res (sensor N)) p bns scale dets b s : In b bns -> load b = Ok s -> sn_rsr s = RNone ->
    exists e, convert2hdf5 f32 upper load p bns scale dets = Err e.
  Proof.
    intros Hb Hl Hs. destruct (convert2hdf5 f32 upper load p bns scale dets) as [h|e] eqn:H; [|now exists e].
    apply written in H. destruct H as (_ & _ & _ & _ & _ & F). destruct (F b Hb) as (s' & g & E & W & _). rewrite Hl in E. injection E as <-.
    unfold writes in W. destruct dets as [ds|].
    - unfold write_multi, of_det in W. destruct (hd_error ds); cbn in W; [|discriminate]. rewrite Hs in W. discriminate.
    - unfold write_single, single in W. rewrite Hs in W. discriminate.
  Qed.

  Lemma mersi1_twins options ex cols o o' file : configured options "FY-3B" "mersi-1" "ch4" file -> configured options "FY-3B" "mersi-1" "ch8" file ->
    make Mersi1 options ex cols "ch4" "FY-3B" = Ok o -> make Mersi1 options ex cols "ch8" "FY-3B" = Ok o' -> ir_rsr o = ir_rsr o'.
  Proof.
    intros C4 C8 H H'. cbn [make] in H, H'. unfold Mersi1RSR in H, H'.
    destruct (text_inv _ _ _ _ _ _ _ _ _ H) as (out & f & P). rewrite (text_eq _ _ _ _ _ _ _ _ _ _ P) in H.
    destruct (text_inv _ _ _ _ _ _ _ _ _ H') as (out' & f' & P'). rewrite (text_eq _ _ _ _ _ _ _ _ _ _ P') in H'.
    assert (U : forall b g g', configured options "FY-3B" "mersi-1" b g -> configured options "FY-3B" "mersi-1" b g' -> g = g').
    { intros b g g' (m & pa & x & A1 & A2 & A3 & ->) (m' & pa' & x' & B1 & B2 & B3 & ->). rewrite A1 in B1. injection B1 as <-.
      rewrite A2 in B2. injection B2 as <-. rewrite A3 in B3. injection B3 as <-. reflexivity. }
    apply parts_configured in P as [P _]. apply parts_configured in P' as [P' _].
    rewrite (U _ _ _ P C4) in H. rewrite (U _ _ _ P' C8) in H'.
    assert (L : load_mersi1 cols "FY-3B" "ch4" file = load_mersi1 cols "FY-3B" "ch8" file) by reflexivity.
    rewrite L in H. destruct (ex file); [|injection H as <-; injection H' as <-; reflexivity].
    destruct (load_mersi1 cols "FY-3B" "ch8" file); [|discriminate]. injection H as <-. injection H' as <-. reflexivity.
  Qed.
End F.

Lemma mersi1_columns b b' c : mersi1_column "FY-3B" b = Ok c -> mersi1_column "FY-3B" b' = Ok c ->
  b = b' \/ (one_of ["ch4"; "ch8"] b /\ one_of ["ch4"; "ch8"] b') \/ one_of ["ch6"; "ch7"] b \/ one_of ["ch6"; "ch7"] b'.
Proof.
  assert (F : forall x d, mersi1_column "FY-3B" x = Ok d ->
    nth_error ["ch1"; "ch2"; "ch3"; "ch4"] (d - 1) = Some x \/ (nth_error ["ch8"; "ch9"; "ch10"; "ch11"; "ch12"; "ch13"; "ch14"; "ch15"; "ch16"; "ch17"; "ch18"; "ch19"; "ch20"] (d - 4) = Some x /\ (4 <= d)%nat) \/
    one_of ["ch6"; "ch7"] x).
  { intros x d. unfold mersi1_column. cbn [negb String.eqb]. change (negb _) with false. cbn iota.
    destruct (index_of x (channels 1 4)) as [n|] eqn:E1; [intros [= <-]; left; replace (n + 1 - 1)%nat with n by lia; exact (index_nth _ _ _ E1)|].
    destruct (index_of x (channels 8 13)) as [n|] eqn:E2; [intros [= <-]; right; left; split; [replace (n + 4 - 4)%nat with n by lia; exact (index_nth _ _ _ E2)|lia]|].
    destruct (index_of x ["ch6"; "ch7"]) as [n|] eqn:E3; [|discriminate]. intros _. right. right. constructor. apply nth_error_In with n. exact (index_nth _ _ _ E3). }
  intros H H'. destruct (F _ _ H) as [A|[[A A']|A]]; destruct (F _ _ H') as [B|[[B B']|B]]; try tauto; try (left; congruence).
  - assert (c = 4)%nat as ->. { destruct (Nat.le_gt_cases c 4); [lia|]. rewrite (proj2 (nth_error_None _ _)) in A by (cbn; lia). discriminate. }
    cbn in A, B. injection A as <-. injection B as <-. right. left. split; constructor; cbn; auto.
  - assert (c = 4)%nat as ->. { destruct (Nat.le_gt_cases c 4); [lia|]. rewrite (proj2 (nth_error_None _ _)) in B by (cbn; lia). discriminate. }
    cbn in A, B. injection A as <-. injection B as <-. right. left. split; constructor; cbn; auto.
Qed.

(** ** file names *)
Lemma append_inj_l a : forall b c, a ++ b = a ++ c -> b = c.
Proof. induction a as [|x a IH]; cbn; intros b c H; [easy|]. injection H as H. now apply IH. Qed.
Lemma append_len (a b : string) : String.length (a ++ b) = (String.length a + String.length b)%nat.
Proof. induction a; cbn; congruence. Qed.
Lemma append_inj_r c : forall a b, a ++ c = b ++ c -> a = b.
Proof.
  induction a as [|x a IH]; intros [|y b]; cbn; intros H; [easy| | |injection H as -> H; f_equal; now apply IH];
  exfalso; apply (f_equal String.length) in H; cbn in H; rewrite append_len in H; lia.
Qed.
Lemma has_remove_other c d s : c <> d -> has_char c (remove_char d s) = has_char c s.
Proof.
  intros Hd. induction s as [|x s IH]; cbn; [easy|]. destruct (Ascii.eqb_spec d x) as [<-|]; cbn; rewrite IH; [|easy].
  destruct (Ascii.eqb_spec c d); [easy|reflexivity].
Qed.
Lemma lower_case_remove s : lower_case (remove_char "/" s) -> lower_case s.
Proof.
  induction s as [|x s IH]; intros H; [exact H|]. cbn [remove_char] in H. destruct (Ascii.eqb_spec "/" x) as [<-|Hx].
  - intros [|n] c; cbn; [intros [= <-]; cbn; lia|]. apply (IH H).
  - intros [|n] c; cbn; [apply (H 0%nat)|]. apply IH. intros m d Hd. exact (H (S m) d Hd).
Qed.
Lemma lower_id s : lower_case s -> lower s = s.
Proof.
  induction s as [|x s IH]; intros H; [easy|]. cbn. f_equal.
  - pose proof (H 0%nat x eq_refl) as K. unfold lower_ascii. destruct (Nat.leb_spec 65 (nat_of_ascii x)), (Nat.leb_spec (nat_of_ascii x) 90); cbn; try easy. exfalso. lia.
  - apply IH. intros m d Hd. exact (H (S m) d Hd).
Qed.
Lemma listed_lower : forallb (fun e => match snd e with IOne _ => true | IList l => forallb (fun i => String.eqb (lower i) i) l end) INSTRUMENTS = true.
Proof. vm_compute. reflexivity. Qed.
Lemma names_agree p i i' : (dget p INSTRUMENTS = None \/ carries p i) -> check_and_adjust_instrument_name p i = Ok i' ->
  (converted_filename p i = get_rsr_filename p i' <-> lower_case i /\ without "-" i).
Proof.
  intros Hp Hc. assert (i' = normal_form i) as ->.
  { rewrite adjust_eq in Hc. destruct (dget p INSTRUMENTS) as [[x|l]|] eqn:E.
    - injection Hc as <-. destruct Hp as [|[H|(l & H & _)]]; [discriminate|congruence|congruence].
    - replace (existsb _ l) with true in Hc; [now injection Hc as <-|]. symmetry. apply existsb_exists.
      destruct Hp as [|[H|(l' & H & Hi)]]; [discriminate|congruence|]. rewrite E in H. injection H as <-.
      exists i. split; [easy|]. pose proof listed_lower as F. rewrite forallb_forall in F. apply dget_Some_in in E. specialize (F _ E). cbn in F.
      rewrite forallb_forall in F. specialize (F _ Hi). apply String.eqb_eq in F. rewrite F. apply identical_iff. auto.
    - now injection Hc as <-. }
  assert (E : converted_filename p i = get_rsr_filename p (normal_form i) <-> remove_char "/" i = normal_form i).
  { unfold converted_filename, get_rsr_filename. split; intros H; [|now rewrite H].
    apply append_inj_l in H. exact (append_inj_r _ _ _ H). }
  rewrite E. split.
  - intros H. pose proof (normal_form_ok i) as (A & B & _). rewrite <- H in A, B. split; [now apply lower_case_remove|].
    unfold without in *. now rewrite has_remove_other in B by discriminate.
  - intros [A B]. unfold normal_form. rewrite (lower_id _ A). symmetry. apply remove_char_id. now rewrite has_remove_other by discriminate.
Qed.
Lemma names_differ : exists p i i', carries p i /\ check_and_adjust_instrument_name p i = Ok i' /\ converted_filename p i <> get_rsr_filename p i'.
Proof. exists "FY-3D", "mersi-2", "mersi2". split; [left; reflexivity|]. split; [vm_compute; reflexivity|discriminate]. Qed.

Section G.
  Variable N : Num.
  Lemma own_file_cases k options ex (cols : string -> nat -> res (list (list N))) b p o : make k options ex cols b p = Ok o ->
    exists file, configured options p (ir_instrument o) b file /\ (ir_rsr o = None <-> ex file = false) /\
      (forall ex' cols', ex' file = ex file -> (forall n, cols' file n = cols file n) -> make k options ex' cols' b p = Ok o) /\
      (insists k -> forall ex' cols', ex' file = false -> @make N k options ex' cols' b p = Err OSError) /\
      (~ insists k -> forall ex' cols', ex' file = false -> @make N k options ex' cols' b p =
         Ok {| ir_instrument := ir_instrument o; ir_output_dir := ir_output_dir o; ir_rsr := None |}).
  Proof.
    intros H. destruct (own_file _ _ _ _ _ _ _ H) as (f & A & B & C & D). exists f. repeat split; try apply B; auto; intros I ex' cols' E; rewrite (D _ _ E).
    - apply strict_insists in I. now rewrite I.
    - rewrite <- strict_insists in I. destruct (strictb k); [congruence|reflexivity].
  Qed.
  Lemma no_data_no_file_o f32 upper (load : string -> res (sensor N)) p bns scale dets b o :
    In b bns -> load b = Ok (sensor_of o) -> ir_rsr o = None -> exists e, convert2hdf5 f32 upper load p bns scale dets = Err e.
  Proof. intros Hb Hl Ho. eapply no_data_no_file; eauto. unfold sensor_of. cbn. now rewrite Ho. Qed.
End G.

Lemma mersi1_trimmed options ex cols b p o r : make Mersi1 options ex cols b p = Ok o -> ir_rsr o = Some r ->
  exists file data w y c, configured options p (ir_instrument o) b file /\ cols file 0%nat = Ok data /\ nth_error data 0 = Some w /\
    nth_error data c = Some y /\ (p <> "FY-3B" -> c = 1%nat) /\ (1 <= c)%nat /\
    forall l : list (R * R), w = map (fun p => Fin (fst p)) l -> y = map (fun p => Fin (snd p)) l ->
      exists l', trimmed (map (fun p => (fst p / 1000, snd p))%R l) l' /\ curve r l'.
Proof.
  intros H Hr. cbn [make] in H. unfold Mersi1RSR in H. eapply text_load in H as (f & C & Hl & _); [|exact Hr]. unfold load_mersi1, idx in Hl.
  destruct (cols f 0%nat) as [data|] eqn:D; cbn [bind] in Hl; [|discriminate]. destruct (nth_error data 0) as [w|] eqn:W; cbn [bind of_option] in Hl; [|discriminate].
  destruct (mersi1_column p b) as [c|] eqn:M; cbn [bind] in Hl; [|discriminate]. destruct (nth_error data c) as [y|] eqn:Y; cbn [bind of_option] in Hl; [|discriminate].
  destruct (existsb_str b ["1"; "2"; "3"]); [discriminate|]. exists f, data, w, y, c. split; [easy|]. split; [easy|]. split; [easy|]. split; [easy|].
  unfold mersi1_column in M. split; [|split].
  - intros Hp. destruct (String.eqb_spec p "FY-3B"); [contradiction|]. now injection M as <-.
  - destruct (negb (String.eqb p "FY-3B")); [injection M as <-; lia|]. destruct (index_of b (channels 1 4)); [injection M as <-; lia|].
    destruct (index_of b (channels 8 13)); [injection M as <-; lia|]. destruct (index_of b ["ch6"; "ch7"]); [|discriminate]. injection M as <-. lia.
  - intros l -> ->. destruct (cut_trimmed (map (fun p => (fst p / 1000, snd p))%R l)) as (l' & T & K). exists l'. split; [easy|].
    assert (E : map (fun x => xmul x milli) (map (fun p : R * R => Fin (fst p)) l) = map (fun x : R * R => Fin (fst x / 1000)) l).
    { rewrite map_map. apply map_ext. intros q. unfold milli. cbn [nlit XRN]. rewrite xlit_eq. cbn [xmul]. f_equal. lra. }
    rewrite !map_map in K. cbn [fst snd] in K. rewrite <- E in K. injection Hl as <-. exact K.
Qed.
