(** MODIS and VIIRS files for T_Modis. *)
From Coq Require Import String Ascii List Bool ZArith Lia Reals Lra Sorted Permutation SpecFloat.
From Verif Require Import Base NumSig XR B64 M_Tables M_Utils M_World M_Hdf5 M_Raw S_Raw S_Raw2 S_Hdf5 S_Utils P_Raw8 Samples7.
Import ListNotations.
Local Open Scope string_scope.

Definition modis_opts : dict cfg := [("EOS-Aqua-modis", CMap [("path", Leaf (LStr "/raw"))])].
Definition modis_lines_ : list string :=
  ["# band det wavelength response"; "20 1 3700.0 0.9"; "20 1  3600.0 0.5"; "20 2 3600.01 0.4"; " 20 2 3650.0 -99"; "20 2 3700.01 0.8"].
Definition sample_lines (f : string) : res (list string) := Ok modis_lines_.
Definition sample_int (s : string) : res Z := if String.eqb s "1" then Ok 1%Z else if String.eqb s "2" then Ok 2%Z else Err ValueError.
Definition sample_floats (N : Num) : dict N :=
  [("3700.0", nlit N 3700 1); ("3600.0", nlit N 3600 1); ("3600.01", nlit N 360001 100); ("3650.0", nlit N 3650 1); ("3700.01", nlit N 370001 100);
   ("0.9", nlit N 9 10); ("0.5", nlit N 5 10); ("0.4", nlit N 4 10); ("0.8", nlit N 8 10); ("-99", nlit N (-99) 1)].
Definition sample_float (N : Num) (s : string) : res N := of_option ValueError (dget s (sample_floats N)).
Definition sample_rows (N : Num) : list (option (Z * N * N)) :=
  [None; Some (1%Z, nlit N 3700 1, nlit N 9 10); Some (1%Z, nlit N 3600 1, nlit N 5 10); Some (2%Z, nlit N 360001 100, nlit N 4 10);
   Some (2%Z, nlit N 3650 1, nlit N (-99) 1); Some (2%Z, nlit N 370001 100, nlit N 8 10)].
Lemma sample_modis_rows N : Forall2 (modis_row sample_int (sample_float N)) modis_lines_ (sample_rows N).
Proof.
  constructor; [constructor|]. repeat (constructor; [eapply mr_row; [discriminate|apply words_iff; reflexivity|reflexivity|reflexivity|reflexivity]|]). constructor.
Qed.

(** sorting by insertion *)
Section Argsort.
  Context {V : Type}.
  Variable leb : V -> V -> bool.
  Fixpoint insert_ (p : V * nat) (l : list (V * nat)) : list (V * nat) :=
    match l with [] => [p] | q :: t => if leb (fst p) (fst q) then p :: l else q :: insert_ p t end.
  Definition sort_ (l : list (V * nat)) : list (V * nat) := fold_right insert_ [] l.
  Definition argsort_ (l : list V) : list nat := map snd (sort_ (combine l (seq 0 (List.length l)))).
End Argsort.

Section Real.
  Local Open Scope R_scope.
  Definition le_r (a b : R) : bool := if Rle_dec a b then true else false.
  Lemma insert_perm p l : Permutation (insert_ le_r p l) (p :: l).
  Proof.
    induction l as [|q l IH]; cbn; [auto|]. destruct (le_r (fst p) (fst q)); [auto|].
    eapply Permutation_trans; [apply perm_skip, IH|]. apply perm_swap.
  Qed.
  Lemma sort_perm l : Permutation (sort_ le_r l) l.
  Proof. induction l as [|p l IH]; cbn; [auto|]. eapply Permutation_trans; [apply insert_perm|]. now apply perm_skip. Qed.
  Lemma insert_sorted p l : StronglySorted (fun a b => fst a <= fst b) l -> StronglySorted (fun a b => fst a <= fst b) (insert_ le_r p l).
  Proof.
    induction 1 as [|q l S IH F]; cbn; [repeat constructor|]. unfold le_r. destruct (Rle_dec (fst p) (fst q)) as [H|H].
    - constructor; [now constructor|]. constructor; auto. eapply Forall_impl; [|exact F]. cbn. intros a Ha. lra.
    - constructor; auto. apply Forall_forall. intros a Ha. apply (Permutation_in _ (insert_perm p l)) in Ha. destruct Ha as [<-|Ha]; [lra|].
      rewrite Forall_forall in F. now apply F.
  Qed.
  Lemma sort_sorted l : StronglySorted (fun a b => fst a <= fst b) (sort_ le_r l).
  Proof. induction l as [|p l IH]; cbn; [constructor|]. now apply insert_sorted. Qed.
  Lemma sorted_nth (l : list (R * nat)) : StronglySorted (fun a b => fst a <= fst b) l -> forall i j a b, (i < j)%nat -> nth_error l i = Some a -> nth_error l j = Some b -> fst a <= fst b.
  Proof.
    induction 1 as [|q l S IH F]; intros i j a b Hij Ha Hb; [destruct i; discriminate|].
    destruct j as [|j]; [lia|]. destruct i as [|i]; cbn in Ha, Hb.
    - injection Ha as <-. rewrite Forall_forall in F. apply F. eapply nth_error_In. exact Hb.
    - apply (IH i j); auto. lia.
  Qed.
  Lemma indexed_nth (xs : list R) : forall s v i, In (v, i) (combine xs (seq s (List.length xs))) -> (s <= i)%nat /\ nth_error xs (i - s) = Some v.
  Proof.
    induction xs as [|x xs IH]; intros s v i; cbn; [intros []|]. intros [[= <- <-]|H].
    - rewrite Nat.sub_diag. auto.
    - destruct (IH (S s) v i H) as (H1 & H2). split; [lia|]. replace (i - s)%nat with (S (i - S s)) by lia. exact H2.
  Qed.
  Definition real_of (x : XR) : R := match x with Fin r => r | _ => 0 end.
  Definition real_argsort (l : list XRN) : list nat := argsort_ le_r (map real_of l).
  Lemma real_argsort_ok xs : is_argsort xs (real_argsort (map Fin xs)).
  Proof.
    unfold real_argsort. rewrite map_map. cbn [real_of]. rewrite map_id. unfold argsort_.
    set (l := combine xs (seq 0 (List.length xs))). split.
    - eapply Permutation_trans; [apply Permutation_map, sort_perm|]. unfold l.
      assert (E : forall (s : nat), map snd (combine xs (seq s (List.length xs))) = seq s (List.length xs)).
      { clear l. induction xs as [|x xs IH]; intros s; cbn; [auto|]. now rewrite IH. }
      now rewrite E.
    - intros i j a b x y Hij Ha Hb Hx Hy. rewrite nth_error_map in Ha, Hb.
      destruct (nth_error (sort_ le_r l) i) as [(x', a')|] eqn:Ei; [|discriminate]. destruct (nth_error (sort_ le_r l) j) as [(y', b')|] eqn:Ej; [|discriminate].
      cbn in Ha, Hb. injection Ha as ->. injection Hb as ->.
      assert (Ix : In (x', a) l) by (eapply Permutation_in; [apply sort_perm|eapply nth_error_In; exact Ei]).
      assert (Iy : In (y', b) l) by (eapply Permutation_in; [apply sort_perm|eapply nth_error_In; exact Ej]).
      apply indexed_nth in Ix as (_ & Ix), Iy as (_ & Iy). rewrite Nat.sub_0_r in *. rewrite Hx in Ix. rewrite Hy in Iy. injection Ix as ->. injection Iy as ->.
      apply (sorted_nth _ (sort_sorted l) i j _ _ Hij Ei Ej).
  Qed.
End Real.
Lemma sample_finite : finite_rows (sample_rows XRN).
Proof.
  intros z w r H. cbn in H. destruct H as [H|H]; [discriminate|].
  repeat (destruct H as [H|H]; [injection H as <- <- <-; eexists _, _; split; reflexivity|]). destruct H.
Qed.
Lemma sample_nonempty z : mentions (sample_rows XRN) z -> rows_of (sample_rows XRN) z <> [].
Proof.
  intros (w & r & H). cbn in H. destruct H as [H|H]; [discriminate|].
  assert (E : z = 1%Z \/ z = 2%Z) by (repeat (destruct H as [H|H]; [injection H as <- _ _; auto|]); destruct H). clear H.
  assert (N1 : @neqb XRN (nlit XRN 9 10) (nlit XRN (-99) 1) = false) by (cbn; unfold xlit; apply Reqb_false_iff; lra).
  assert (N2 : @neqb XRN (nlit XRN 4 10) (nlit XRN (-99) 1) = false) by (cbn; unfold xlit; apply Reqb_false_iff; lra).
  intros K. destruct E as [-> | ->]; unfold rows_of, sample_rows in K; cbn [flat_map Z.eqb Pos.eqb andb] in K; rewrite ?N1, ?N2 in K; discriminate.
Qed.

(** ** doubles *)
Section Doubles.
  Variable lib : libm.
  Notation N := (B64N lib).
  Definition double_argsort : list N -> list nat := argsort_ (nleb N).
  Definition same (x : N) : N := x.
  Definition double_convert := @modis_convert2hdf5 N modis_opts all_there sample_lines sample_int (sample_float N) double_argsort same.
  Definition double_load := @ModisRSR N modis_opts all_there sample_lines sample_int (sample_float N) double_argsort.
  Lemma double_writes : exists h, double_convert "EOS-Aqua" = Ok h.
  Proof. apply fine_ok. vm_compute. reflexivity. Qed.
  Definition keys_ok (b : string) : bool :=
    match double_load b "EOS-Aqua" with Ok d => if list_eq_dec string_dec (dkeys d) ["det-1"; "det-2"] then true else false | Err _ => false end.
  Lemma all_keys_ok : forallb keys_ok MODIS_NAMES = true.
  Proof. vm_compute. reflexivity. Qed.
  Lemma double_standard b d : In b MODIS_NAMES -> double_load b "EOS-Aqua" = Ok d -> standard_names (dkeys d).
  Proof.
    intros Hb L. pose proof all_keys_ok as A. rewrite forallb_forall in A. specialize (A b Hb). unfold keys_ok in A. rewrite L in A.
    destruct (list_eq_dec string_dec (dkeys d) ["det-1"; "det-2"]) as [K|]; [|discriminate A].
    rewrite K. intros k Hk. cbn in Hk. destruct k as [|[|[|]]]; try lia; cbn; auto.
  Qed.
  Definition same_double (a b : b64) : bool :=
    match a, b with
    | S754_zero s, S754_zero t => Bool.eqb s t | S754_infinity s, S754_infinity t => Bool.eqb s t | S754_nan, S754_nan => true
    | S754_finite s m e, S754_finite t n f => Bool.eqb s t && Pos.eqb m n && Z.eqb e f | _, _ => false end.
  Lemma same_double_refl a : same_double a a = true.
  Proof. destruct a; cbn; rewrite ?eqb_reflx, ?Pos.eqb_refl, ?Z.eqb_refl; reflexivity. Qed.
  Definition starts_same (a b : list N) : bool := match a, b with x :: _, y :: _ => same_double x y | _, _ => true end.
  Lemma starts_refl a : starts_same a a = true.
  Proof. destruct a; cbn; auto. apply same_double_refl. Qed.
  Definition other_waves : bool :=
    match double_convert "EOS-Aqua" with
    | Ok h => match read_rsr h, double_load "20" "EOS-Aqua" with
              | Ok i, Ok d => match dget "det-2" d, dget "20" (ri_rsr i) with
                              | Some r, Some y => match dget "det-2" y with
                                                  | Some det => match dget "wavelength" det with
                                                                | Some (VArr w) => negb (starts_same w (stored same (rw_wavelength r)))
                                                                | _ => false end
                                                  | None => false end
                              | _, _ => false end
              | _, _ => false end
    | Err _ => false end.
  Lemma other_waves_true : other_waves = true.
  Proof. vm_compute. reflexivity. Qed.
  Lemma double_shared : exists h i d r y det w,
    double_convert "EOS-Aqua" = Ok h /\ read_rsr h = Ok i /\ double_load "20" "EOS-Aqua" = Ok d /\ dget "det-2" d = Some r /\
    dget "20" (ri_rsr i) = Some y /\ dget "det-2" y = Some det /\ dget "wavelength" det = Some (VArr w) /\ w <> stored same (rw_wavelength r).
  Proof.
    pose proof other_waves_true as A. unfold other_waves in A.
    destruct (double_convert "EOS-Aqua") as [h|] eqn:E1; [|discriminate A]. destruct (read_rsr h) as [i|] eqn:E2; [|discriminate A].
    destruct (double_load "20" "EOS-Aqua") as [d|] eqn:E3; [|discriminate A]. destruct (dget "det-2" d) as [r|] eqn:E4; [|discriminate A].
    destruct (dget "20" (ri_rsr i)) as [y|] eqn:E5; [|discriminate A]. destruct (dget "det-2" y) as [det|] eqn:E6; [|discriminate A].
    destruct (dget "wavelength" det) as [v|] eqn:E7; [|discriminate A]. destruct v as [w|?|?]; [|discriminate A|discriminate A].
    exists h, i, d, r, y, det, w. split; [exact eq_refl|]. split; [exact E2|]. split; [exact eq_refl|]. split; [exact E4|]. split; [exact E5|]. split; [exact E6|].
    split; [exact E7|]. intros E. rewrite <- E in A. rewrite starts_refl in A. discriminate A.
  Qed.
End Doubles.

(** ** VIIRS *)
Definition viirs_lines (f : string) : res (list string) := Ok ["% VIIRS"; "%"; "M1 1 1 400.0 0.1"; "M1 1 1 410.0 0.9"; "M1 2 1 410.0 0.8"; "M1 2 2 410.0 0.7"].
Definition viirs_path (p b : string) : res string := Ok ("/raw/" ++ b).
Definition viirs_sample : list (R * R * Z) := [(410, 1/10, 1%Z); (400, 9/10, 1%Z); (410, 8/10, 2%Z); (410, 7/10, 2%Z)]%R.
Definition viirs_reads (f : string) (n : nat) (p : string) : res (list (XRN * XRN * Z)) := if Nat.eqb n 2 then Ok (table viirs_sample) else Err ValueError.
Lemma viirs_in_file b : in_file all_there viirs_lines viirs_reads viirs_path "NOAA-20" b viirs_sample.
Proof.
  eexists _, _, 2%nat. split; [reflexivity|]. split; [reflexivity|]. split; [reflexivity|]. split; [|reflexivity].
  constructor. constructor. constructor. discriminate.
Qed.
Lemma viirs_all_detectors : every_detector viirs_sample.
Proof.
  exists 2%nat. split; [split; [cbn; auto|repeat constructor; cbn; lia]|]. split; [lia|].
  intros k Hk. destruct k as [|[|[|]]]; try lia; cbn; auto.
Qed.
Section Nan.
  Variable lib : libm.
  Notation N := (B64N lib).
  Definition nan_rows (f : string) (n : nat) (p : string) : res (list (N * N * Z)) :=
    Ok [(S754_nan, nlit N 1 10, 1%Z); (nlit N 400 1, nlit N 2 10, 1%Z); (nlit N 410 1, nlit N 3 10, 1%Z)].
  Definition nan_convert := @create_viirs_rsr N all_there viirs_lines (same lib) nan_rows (fun _ _ => Err ValueError) viirs_path.
  Definition lengths_of (b : string) : option (nat * nat) :=
    match nan_convert "NOAA-20" with
    | Ok h => match read_rsr h with
              | Ok i => match dget b (ri_rsr i) with
                        | Some y => match dget "det-1" y with
                                    | Some det => match dget "response" det, dget "wavelength" det with
                                                  | Some (VArr r), Some (VArr w) => Some (List.length r, List.length w)
                                                  | _, _ => None end
                                    | None => None end
                        | None => None end
              | Err _ => None end
    | Err _ => None end.
  Lemma nan_lengths : lengths_of "M1" = Some (2%nat, 3%nat).
  Proof. vm_compute. reflexivity. Qed.
  Lemma nan_case : exists h i y det r w, nan_convert "NOAA-20" = Ok h /\ read_rsr h = Ok i /\ dget "M1" (ri_rsr i) = Some y /\ dget "det-1" y = Some det /\
    dget "response" det = Some (VArr r) /\ dget "wavelength" det = Some (VArr w) /\ List.length w <> List.length r.
  Proof.
    pose proof nan_lengths as A. unfold lengths_of in A.
    destruct (nan_convert "NOAA-20") as [h|] eqn:E1; [|discriminate A]. destruct (read_rsr h) as [i|] eqn:E2; [|discriminate A].
    destruct (dget "M1" (ri_rsr i)) as [y|] eqn:E3; [|discriminate A]. destruct (dget "det-1" y) as [det|] eqn:E4; [|discriminate A].
    destruct (dget "response" det) as [v|] eqn:E5; [|discriminate A]. destruct v as [r|?|?]; [|discriminate A|discriminate A].
    destruct (dget "wavelength" det) as [v|] eqn:E6; [|discriminate A]. destruct v as [w|?|?]; [|discriminate A|discriminate A].
    exists h, i, y, det, r, w. split; [exact eq_refl|]. split; [exact E2|]. split; [exact E3|]. split; [exact E4|]. split; [exact E5|]. split; [exact E6|].
    intros E. assert (K : forall a b : nat, b = a -> Some (a, b) <> Some (2, 3)%nat) by (intros; subst; intros K; injection K; lia). exact (K _ _ E A).
  Qed.
End Nan.

(** ** more MODIS files *)
Definition missing_int (s : string) : res Z := if String.eqb s "3" then Ok 3%Z else sample_int s.
Definition missing_float : string -> res XRN := sample_float XRN.
Definition missing_rows : list (option (Z * XRN * XRN)) := [Some (1%Z, nlit XRN 3700 1, nlit XRN 9 10); Some (3%Z, nlit XRN 3700 1, nlit XRN (-99) 1)].
Lemma missing_case : mentions missing_rows 3 /\ rows_of missing_rows 3 = [] /\ finite_rows missing_rows /\
  Forall2 (modis_row missing_int missing_float) ["20 1 3700.0 0.9"; "20 3 3700.0 -99"] missing_rows.
Proof.
  split; [eexists _, _; right; left; reflexivity|]. split.
  { unfold rows_of, missing_rows. cbn [flat_map Z.eqb Pos.eqb andb].
    assert (E : @neqb XRN (nlit XRN (-99) 1) (nlit XRN (-99) 1) = true) by (cbn; now apply Reqb_iff). rewrite E. reflexivity. }
  split. { intros z w r H. cbn in H. repeat (destruct H as [H|H]; [injection H as <- <- <-; eexists _, _; split; reflexivity|]). destruct H. }
  repeat (constructor; [eapply mr_row; [discriminate|apply words_iff; reflexivity|reflexivity|reflexivity|reflexivity]|]). constructor.
Qed.
Section Odd.
  Variable lib : libm.
  Definition odd_int (s : string) : res Z := if String.eqb s "2" then Ok 7%Z else sample_int s.
  Definition odd_convert := @modis_convert2hdf5 (B64N lib) modis_opts all_there sample_lines odd_int (sample_float (B64N lib)) (double_argsort lib) (same lib).
  Definition odd_load := @ModisRSR (B64N lib) modis_opts all_there sample_lines odd_int (sample_float (B64N lib)) (double_argsort lib).
  Lemma odd_keys : match odd_load "20" "EOS-Aqua" with Ok d => dkeys d = ["det-1"; "det-7"] | Err _ => False end.
  Proof. vm_compute. reflexivity. Qed.
  Lemma odd_case : (exists h, odd_convert "EOS-Aqua" = Ok h) /\ exists d, odd_load "20" "EOS-Aqua" = Ok d /\ ~ standard_names (dkeys d).
  Proof.
    split; [apply fine_ok; vm_compute; reflexivity|]. pose proof odd_keys as K. destruct (odd_load "20" "EOS-Aqua") as [d|]; [|destruct K].
    exists d. split; [reflexivity|]. rewrite K. intros S. specialize (S 2%nat). cbn in S. destruct S as [S|[S|[]]]; [lia|discriminate S|discriminate S].
  Qed.
End Odd.
