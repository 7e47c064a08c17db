(** Concrete work books and files for the Examples of C103-C106. *)
From Coq Require Import String Ascii List Bool ZArith Reals Lra Lia Sorted.
From Verif Require Import Base NumSig XR M_Tables M_Utils M_World M_Hdf5 M_Raw M_Download M_Books S_Raw S_Raw2 S_Hdf5 S_Books S_Books2 P_Raw8 P_Books2 P_Books5 P_Books6 P_Books7 P_Books8 Samples6 Samples7 Samples12.
Import ListNotations.
Local Open Scope string_scope.

(** ** AVHRR/1 *)
Definition a1_sheet (name sat unit : string) (ws rs : list R) : book_sheet XRN :=
  {| bs_name := name; bs_columns := [CText ("# " ++ sat) :: CText ("Wavelength (" ++ unit ++ ")") :: map CNum (reals ws) ++ [CText "end"];
                                     CText "" :: CText "Response" :: map CNum (reals rs) ++ [CText ""]]%list |}.
Definition a1_book (f : string) : res (list (book_sheet XRN)) :=
  if String.eqb f "/raw/avhrr1.xls" then Ok
    [a1_sheet "A102C001" "NOAA-6" "nm" [580; 630; 680] [0; 1; 0]; a1_sheet "Kleespies Data" "" "" [] []; a1_sheet "A102C002" "NOAA-6" "nm" [720; 860; 1000] [0; 1; 0];
     a1_sheet " A102C003 " "NOAA-6" "Å" [35000; 37000; 39000] [0; 1; 0]; a1_sheet "A102C004" "NOAA-6" "nm" [10500; 11000; 11500] [0; 1; 0];
     a1_sheet "A101C002" "TIROS-N" "nm" [830; 640; 850] [0; 1; 0]; a1_sheet "Notes" "" "" [] []; a1_sheet "A101C001" "TIROS-N" "nm" [580; 630; 680] [0; 1; 0]]
  else Err FileNotFoundError.
Definition a1_options : dict cfg := [("avhrr/1", CMap [("path", Leaf (LStr "/raw/avhrr1.xls")); ("filename", Leaf (LStr "other.xls"))])].
Definition a1_read : list (book_sheet XRN) :=
    [a1_sheet "A102C001" "NOAA-6" "nm" [580; 630; 680] [0; 1; 0]; a1_sheet "A102C002" "NOAA-6" "nm" [720; 860; 1000] [0; 1; 0];
     a1_sheet " A102C003 " "NOAA-6" "Å" [35000; 37000; 39000] [0; 1; 0]; a1_sheet "A102C004" "NOAA-6" "nm" [10500; 11000; 11500] [0; 1; 0];
     a1_sheet "A101C002" "TIROS-N" "nm" [830; 640; 850] [0; 1; 0]].
Lemma a1_sheets_read : exists sheets, a1_book "/raw/avhrr1.xls" = Ok sheets /\ sheets_read sheets a1_read.
Proof.
  eexists. split; [reflexivity|]. unfold a1_read.
  apply sr_take; [discriminate|cbn; tauto|]. apply sr_skip; [reflexivity|]. do 4 (apply sr_take; [discriminate|cbn; tauto|]). apply sr_stop; [discriminate|]. cbn. intuition discriminate.
Qed.
Lemma a1_sheets_fine : forall s, In s a1_read -> exists p r, In p AVHRR1 /\ avhrr1_sheet_of (fun _ _ => True) s p r.
Proof.
  assert (X : forall s, In s a1_read -> exists p r, In p AVHRR1 /\ avhrr1_sheet s = Ok (p, r)).
  { intros s I. unfold a1_read in I. repeat destruct I as [<-|I]; [..|destruct I]; (eexists _, _; split; [|reflexivity]; cbn; tauto). }
  intros s I. destruct (X s I) as (p & r & P & E). exists p, r. split; [exact P|]. apply (sheet_weaken typo); [auto|]. now apply avhrr1_sheet_ok.
Qed.
Lemma a1_loads ex : exists rsr, Avhrr1RSR a1_options ex a1_book "wavelength" = Ok rsr.
Proof.
  destruct a1_sheets_read as (sheets & W & S).
  exact (proj1 (avhrr1_succeeds a1_options ex a1_book _ "/raw/avhrr1.xls" sheets a1_read eq_refl eq_refl (or_intror (ex_intro _ "other.xls" eq_refl)) W S a1_sheets_fine)).
Qed.
Lemma a1_noaa6 : exists rsr sat, Avhrr1RSR a1_options none_there a1_book "wavelength" = Ok rsr /\ dget "NOAA-6" rsr = Some sat /\
  (forall ch, In ch AVHRR1_CHANNELS -> exists r, dget ch sat = Some (Some r) /\ List.length (rw_response r) = List.length (rw_wavelength r)) /\
  dget "ch3" sat = Some (Some {| rw_wavelength := map (fun x => nmul XRN x (nlit XRN 1 10000)) (reals [35000; 37000; 39000]); rw_response := reals [0; 1; 0] |}) /\
  exists tn, dget "TIROS-N" rsr = Some tn /\ dget "ch1" tn = Some None.
Proof.
  eexists _, _. split; [reflexivity|]. split; [reflexivity|]. split; [|split; [reflexivity|eexists; split; reflexivity]].
  intros ch I. unfold AVHRR1_CHANNELS in I. repeat destruct I as [<-|I]; [..|destruct I]; (eexists; split; reflexivity).
Qed.
Lemma a1_reprinted : reprinted [830; 640; 850] [830; 840; 850].
Proof.
  split; [reflexivity|]. split; [reflexivity|]. assert (A : Rabs (640 - 640) < 1 / 100) by (replace (640 - 640) with 0 by lra; rewrite Rabs_R0; lra).
  intros [|[|[|i]]] x p Hx Hp; cbn in Hx, Hp; try discriminate; injection Hx as <-; injection Hp as <-; [left|right]; (split; [|reflexivity]); [split; [lra|exact A]|intros [H _]; lra].
Qed.

(** ** AHI *)
Definition ahi_book (f : string) : res (list (book_sheet XRN)) :=
  Ok [{| bs_name := "Title"; bs_columns := [] |};
      {| bs_name := "Band 3"; bs_columns := [repeat (CText "h") 5 ++ [CNum (Fin (6/10)); CNum (Fin (7/10))]; []; repeat (CText "h") 5 ++ [CNum (Fin 1); CNum (Fin (1/2))]]%list |}].
Lemma ahi_case : exists rsr, AhiRSR (at_path "Himawari-8-ahi" "/raw/ahi.xls") all_there ahi_book "Himawari-8" = Ok rsr.
Proof.
  apply ahi_succeeds with (path := "/raw/ahi.xls") (sheets := match ahi_book "" with Ok l => l | Err _ => [] end); [eexists; split; reflexivity|reflexivity|reflexivity|].
  intros s [<-|[<-|[]]] T; [contradiction (T eq_refl)|]. cbn. lia.
Qed.

(** ** Text files *)
Definition mt_float (s : string) : res XRN :=
  of_option ValueError (dget s [("800", Fin 800 : XRN); ("900", Fin 900 : XRN); ("1000", Fin 1000 : XRN); ("0.1", Fin (1/10) : XRN); ("0.5", Fin (1/2) : XRN); ("0.9", Fin (9/10) : XRN)]).
Definition mt_block (n : string) : list string := ["AVHRR channel " ++ n; "Wavenumber Response"; "800 0.1"; " 900   0.5 "; "1000 0.9"; ""].
Definition mt_rows : list (R * R) := [(800, 1/10); (900, 1/2); (1000, 9/10)].
Lemma words_no a b s : words s = [] -> ~ fields s [a; b].
Proof. intros W F. apply words_iff in F. congruence. Qed.
Lemma mt_row l a b x y : words l = [a; b] -> mt_float a = Ok (Fin x) -> mt_float b = Ok (Fin y) -> metop_row mt_float l (Fin x : XRN, Fin y : XRN).
Proof. intros W A B. exists a, b. split; [now apply words_iff|auto]. Qed.
Lemma not_avhrr l : prefix "AVHRR" l = false -> ~ headed l.
Proof. intros H K. apply headed_iff in K. unfold startswith in K. congruence. Qed.
Lemma mt_whole n : whole_block mt_float (mt_block n) (real_rows mt_rows).
Proof.
  exists [""]. split.
  - exists ("AVHRR channel " ++ n), "Wavenumber Response", ["800 0.1"; " 900   0.5 "; "1000 0.9"]. split; [reflexivity|]. split; [exists (" channel " ++ n); reflexivity|]. split; [discriminate|].
    split; [repeat constructor; eapply mt_row; reflexivity|]. split; [now apply not_avhrr|]. split; repeat constructor; now apply not_avhrr.
  - exists "", []. split; [reflexivity|]. intros a b. apply words_no. reflexivity.
Qed.
Definition mt_last : list string := ["AVHRR channel 6"; "Wavenumber Response"; "800 0.1"; " 900   0.5 "; "1000 0.9"].
(** the last row is at the end of the file *)
Lemma mt_lost : metop_block mt_float mt_last (real_rows mt_rows) [] /\
  exists out, split_metop mt_float (concat (map mt_block ["1"; "2"; "3"; "4"; "5"]) ++ mt_last) = Ok out /\
    nth_error out 5 = Some ("Metop_C_A309C005.txt", by_wavelength (real_rows [(800, 1/10); (900, 1/2)])).
Proof.
  split.
  - exists "AVHRR channel 6", "Wavenumber Response", ["800 0.1"; " 900   0.5 "; "1000 0.9"]. split; [reflexivity|]. split; [exists " channel 6"; reflexivity|]. split; [discriminate|].
    split; [repeat constructor; eapply mt_row; reflexivity|]. split; [now apply not_avhrr|]. split; repeat constructor; now apply not_avhrr.
  - eexists. split; reflexivity.
Qed.
Lemma mt_sorted : ascending mt_rows /\ forall q, In q mt_rows -> 0 < fst q.
Proof.
  split.
  - unfold ascending, mt_rows. repeat constructor; cbn; lra.
  - intros q I. unfold mt_rows in I. repeat destruct I as [<-|I]; cbn; try lra. destruct I.
Qed.
Definition st_table (w r : list (cell XRN)) (f : string) (fields : list string) : res (dict (list (cell XRN))) :=
  Ok (combine fields (flat_map (fun _ => [w; r]) [0; 1; 2]%nat)).
Definition st_w : list (cell XRN) := [CText "0.5"; CNum (Fin (6/10)); CText "-"; CText "0.9"].
Definition st_r : list (cell XRN) := [CNum (Fin 10); CText "900"; CText "-"; CText "800"].
Definition st_rows : list (option (XRN * XRN)) := [Some (Fin (1/2), Fin 10); Some (Fin (6/10), Fin 900); None; Some (Fin (9/10), Fin 800)].
Lemma st_case : star_columns mt_float st_w st_r st_rows /\ forall t w r f, In t STAR -> In (w, r, f) t ->
  exists data, st_table st_w st_r "old" (star_fields t) = Ok data /\ dget w data = Some st_w /\ dget r data = Some st_r.
Proof.
  split.
  - split; repeat constructor; try discriminate; reflexivity.
  - intros t w r f [<-|[<-|[]]] I; cbn in I; repeat destruct I as [I|I]; try (injection I as <- <- <-; eexists; split; [reflexivity|split; reflexivity]); destruct I.
Qed.
(** a number of values less *)
Lemma st_short : unpack_data mt_float (fun x => x) (st_table st_w (removelast st_r)) "old" (star_fields (hd [] STAR)) = Err ValueError.
Proof. reflexivity. Qed.
(** "-" in different rows *)
Lemma st_mixed : exists out pts, unpack_data mt_float (fun x => x) (st_table [CNum (Fin 1); CText "-"; CNum (Fin 3)] [CNum (Fin 10); CNum (Fin 20); CText "-"]) "old" (star_fields (hd [] STAR)) = Ok out /\
  In ("NOAA_15_A302xx01.txt", pts) out /\ In (Fin 3, ndiv XRN (Fin 20) (nlit XRN 100 1)) pts.
Proof. eexists _, _. split; [reflexivity|]. split; [left; reflexivity|]. right. left. reflexivity. Qed.

(** ** MODIS *)
Definition md_file (p : string) : h5file XRN :=
  {| h_band_names := Some [TBytes "ch1"]; h_description := Some (TStr "test"); h_platform_name := None;
     h_platform := Some (TBytes "eos"); h_sat_number := Some p; h_sensor := None; h_bands := [("ch1", band1)] |}.
Definition md_disk : dict (h5file XRN) := [("d/rsr_modis_EOS-Aqua.h5", md_file "2"); ("d/rsr_modis_EOS-Terra.h5", md_file "1"); ("d/rsr_modis_Terra.h5", file1); ("d/x.h5", file2)].
Lemma md_case : exists i, read_rsr (md_file "2") = Ok i /\ ri_platform i = Some "EOS-Aqua".
Proof. eexists. split; reflexivity. Qed.
Lemma a1_hidden : ~ (forall options ex open_workbook rsr path sheets s p ch r, @Avhrr1RSR XRN options ex open_workbook "wavelength" = Ok rsr -> get_path options "avhrr/1" "path" = Ok path ->
  open_workbook path = Ok sheets -> In s sheets -> In (strip (bs_name s), ch) AVHRR1_SHEETS -> avhrr1_sheet_of adjusted s p r -> exists sat r', dget p rsr = Some sat /\ dget ch sat = Some (Some r')).
Proof.
  intros H. destruct a1_noaa6 as (rsr & sat & E & _ & _ & _ & tn & T & N). destruct a1_sheets_read as (sheets & W & _).
  assert (S : exists r, avhrr1_sheet_of adjusted (a1_sheet "A101C001" "TIROS-N" "nm" [580; 630; 680] [0; 1; 0]) "TIROS-N" r).
  { eexists. apply (sheet_weaken typo); [intros a b ->; apply adjust_ok|]. apply avhrr1_sheet_ok. reflexivity. }
  destruct S as (r & S). destruct (H a1_options none_there a1_book rsr "/raw/avhrr1.xls" sheets (a1_sheet "A101C001" "TIROS-N" "nm" [580; 630; 680] [0; 1; 0]) "TIROS-N" "ch1" r E eq_refl W) as (sat' & r' & A & B); [| |exact S|].
  - injection W as <-. cbn. tauto.
  - cbn. tauto.
  - congruence.
Qed.
Lemma mt_refuted : ~ (forall pre blocks rowss, List.length rowss = 6%nat -> Forall (fun l => ~ headed l) pre -> Forall2 (fun b rows => exists after, metop_block mt_float b rows after /\ (after = [] \/ ends_rows after)) blocks rowss ->
  split_metop mt_float (pre ++ concat blocks) = Ok (combine METOP_FILES (map by_wavelength rowss))).
Proof.
  intros H. destruct mt_lost as [B (out & E & L)].
  specialize (H [] (map mt_block ["1"; "2"; "3"; "4"; "5"] ++ [mt_last])%list (repeat (real_rows mt_rows) 6) eq_refl (Forall_nil _)).
  rewrite concat_app in H. change (concat [mt_last]) with mt_last in H. cbn [app] in H. rewrite E in H.
  assert (K : Ok out = Ok (combine METOP_FILES (map by_wavelength (repeat (real_rows mt_rows) 6)))).
  { apply H. cbn [map app repeat]. do 5 (constructor; [match goal with |- context [mt_block ?n] => destruct (mt_whole n) as (a & X & Y) end; exists a; auto|]). constructor; [exists []; auto|constructor]. }
  apply ok_eq in K. subst out. apply (f_equal (fun o => match o with Some q => List.length (snd q) | None => 0%nat end)) in L. cbv in L. discriminate.
Qed.
Lemma st_refuted : ~ (forall file data (wrows rrows : list (option XRN)) out, Forall2 (star_cell mt_float) data wrows -> forall data', Forall2 (star_cell mt_float) data' rrows ->
  unpack_data mt_float (fun x => x) (st_table data data') file (star_fields (hd [] STAR)) = Ok out -> forall f pts w r, In (f, pts) out -> In (w, r) pts ->
  exists i x, nth_error wrows i = Some (Some w) /\ nth_error rrows i = Some (Some x) /\ r = ndiv XRN x (nlit XRN 100 1)).
Proof.
  intros H. destruct st_mixed as (out & pts & E & I & J).
  destruct (H _ _ [Some (Fin 1 : XRN); None; Some (Fin 3 : XRN)] [Some (Fin 10 : XRN); Some (Fin 20 : XRN); None] _ ltac:(repeat constructor) _ ltac:(repeat constructor) E _ _ _ _ I J) as ([|[|[|i]]] & x & A & B & C); cbn in A, B; try discriminate.
  - injection A as A. lra.
  - destruct i; discriminate.
Qed.
