(** Exhaustion of the constant tables (C110). *)
From Coq Require Import String Ascii List NArith Bool Lia Arith.
From Verif Require Import Base M_Tables M_Utils M_Rsr S_Names S_Tables P_Names.
Import ListNotations.
Local Open Scope string_scope.

Definition upto (lo hi : nat) : list N := map N.of_nat (seq lo (hi + 1 - lo)).
Lemma upto_in lo hi n : In n (upto lo hi) <-> (N.of_nat lo <= n <= N.of_nat hi)%N.
Proof.
  unfold upto. rewrite in_map_iff. split.
  - intros (m & <- & H). apply in_seq in H. lia.
  - intros H. exists (N.to_nat n). split; [lia|]. apply in_seq. lia.
Qed.
Definition same (a b : string * string) : bool := String.eqb (fst a) (fst b) && String.eqb (snd a) (snd b).
Lemma same_eq a b : same a b = true -> a = b.
Proof. destruct a, b. unfold same. intros H. apply andb_prop in H as [H1 H2]. apply String.eqb_eq in H1, H2. cbn in *. congruence. Qed.

(** what the rules give, instrument by instrument *)
Definition ruled {A} (f g : A -> string) (l : list A) : list (string * string) := map (fun a => (f a, g a)) l.
Definition AMI : list (string * N) := [("VI", 4); ("VI", 5); ("VI", 6); ("VI", 8); ("NR", 13); ("NR", 16); ("SW", 38); ("WV", 63); ("WV", 69); ("WV", 73);
      ("IR", 87); ("IR", 96); ("IR", 105); ("IR", 112); ("IR", 123); ("IR", 133)]%N.
Definition VII : list (N * N) := [(443, 4); (555, 8); (668, 12); (752, 15); (763, 16); (865, 17); (914, 20); (1240, 22); (1375, 23); (1630, 24);
      (2250, 25); (3740, 26); (3959, 28); (4050, 30); (6725, 33); (7325, 34); (8540, 35); (10690, 37); (12020, 39); (13345, 40)]%N.
Definition FCI_high : list (string * string * N) := [("vis_", "VIS", 6); ("nir_", "NIR", 22); ("ir_", "IR", 38); ("ir_", "IR", 105)]%N.
Definition rules (i : string) : list (string * string) :=
  if String.eqb i "abi" then ruled (fun n => "C" ++ two n) (fun n => "ch" ++ dec n) (upto 1 16)
  else if String.eqb i "agri" then ruled (fun n => "C" ++ two n) (fun n => "ch" ++ dec n) (upto 1 14)
  else if String.eqb i "ahi" then ruled (fun n => "B" ++ two n) (fun n => "ch" ++ dec n) (upto 1 16)
  else if String.eqb i "modis" then ruled dec dec (upto 1 36)
  else if String.eqb i "viirs" then app (ruled (fun n => "I" ++ two n) (fun n => "I" ++ dec n) (upto 1 5)) (ruled (fun n => "M" ++ two n) (fun n => "M" ++ dec n) (upto 1 9))
  else if String.eqb i "slstr" then app (ruled (fun n => "S" ++ dec n) (fun n => "ch" ++ dec n) (upto 1 9)) (ruled (fun n => "F" ++ dec n) (fun n => "ch" ++ dec (n + 6)) (upto 1 2))
  else if String.eqb i "avhrr-3" then ruled (fun n => n) (fun n => "ch" ++ n) ["1"; "2"; "3a"; "3b"; "4"; "5"]
  else if String.eqb i "seviri" then
    app (ruled (fun w => "VIS" ++ three w) (fun w => "VIS" ++ micrometres w) [6; 8]%N) (app (ruled (fun w => "IR_" ++ three w) (fun w => "NIR" ++ micrometres w) [16]%N)
     (app (ruled (fun w => "IR_" ++ three w) (fun w => "IR" ++ micrometres w) [39; 87; 97; 108; 120; 134]%N)
     (app (ruled (fun w => "WV_" ++ three w) (fun w => "IR" ++ micrometres w) [62; 73]%N) [("HRV", "HRV")])))
  else if String.eqb i "fci" then
    app (ruled (fun w => "vis_" ++ two w) (fun w => "VIS" ++ micrometres w) [4; 5; 8; 9]%N) (app (ruled (fun w => "nir_" ++ two w) (fun w => "NIR" ++ micrometres w) [13; 16]%N)
     (app (ruled (fun w => "ir_" ++ two w) (fun w => "IR" ++ micrometres w) [87; 97; 123; 133]%N) (app (ruled (fun w => "wv_" ++ two w) (fun w => "WV" ++ micrometres w) [63; 73]%N)
     (ruled (fun x => fst (fst x) ++ two (snd x)) (fun x => snd (fst x) ++ micrometres (snd x) ++ "_HR") FCI_high))))
  else if String.eqb i "ami" then
    map (fun x => (fst (snd x) ++ three (snd (snd x)), "ch" ++ dec (N.of_nat (fst x) + 1))) (combine (seq 0 16) AMI)
  else if String.eqb i "VII" then ruled (fun x => "vii_" ++ dec (fst x)) (fun x => "vii-" ++ dec (snd x)) VII
  else [].

Lemma by_in {A} (f g : A -> string) l a : In a l -> In (f a, g a) (ruled f g l).
Proof. intros H. unfold ruled. apply in_map_iff. eauto. Qed.
Lemma by_inv {A} (f g : A -> string) l k b : In (k, b) (ruled f g l) -> exists a, In a l /\ k = f a /\ b = g a.
Proof. unfold ruled. rewrite in_map_iff. intros (a & E & H). injection E as <- <-. eauto. Qed.
Lemma combine_nth {A} (l : list A) k n a : In (n, a) (combine (seq k (List.length l)) l) <-> (k <= n)%nat /\ nth_error l (n - k) = Some a.
Proof.
  revert k. induction l as [|x l IH]; intros k; cbn [List.length seq combine In].
  - split; [tauto|]. intros [_ H]. destruct (n - k)%nat; discriminate.
  - rewrite IH. split.
    + intros [H|[H1 H2]]; [injection H as <- <-; rewrite Nat.sub_diag; auto|]. split; [lia|]. replace (n - k)%nat with (S (n - S k)) by lia. exact H2.
    + intros [H1 H2]. destruct (Nat.eq_dec n k) as [->|D]; [left; rewrite Nat.sub_diag in H2; cbn in H2; congruence|right]. split; [lia|].
      replace (n - k)%nat with (S (n - S k)) in H2 by lia. exact H2.
Qed.

Lemma standard_rules i k b : standard i k b -> In (k, b) (rules i) /\ has_names i.
Proof.
  unfold has_names. intros H. split; [|destruct H; cbn; tauto].
  destruct H as [n H|n H|n H|n H|n H|n H|n H|n H|n H|w H|w H|w H|w H| |w H|w H|w H|w H|p q w H|n p w H|w n H]; unfold rules; cbn [String.eqb Ascii.eqb Bool.eqb];
    rewrite ?in_app_iff.
  - apply (by_in (fun n => "C" ++ two n) (fun n => "ch" ++ dec n)), upto_in. exact H.
  - apply (by_in (fun n => "C" ++ two n) (fun n => "ch" ++ dec n)), upto_in. exact H.
  - apply (by_in (fun n => "B" ++ two n) (fun n => "ch" ++ dec n)), upto_in. exact H.
  - apply (by_in dec dec), upto_in. exact H.
  - left; apply (by_in (fun n => "I" ++ two n) (fun n => "I" ++ dec n) _ n), upto_in; cbn; lia.
  - right; apply (by_in (fun n => "M" ++ two n) (fun n => "M" ++ dec n) _ n), upto_in; cbn; lia.
  - left; apply (by_in (fun n => "S" ++ dec n) (fun n => "ch" ++ dec n) _ n), upto_in; cbn; lia.
  - right; apply (by_in (fun n => "F" ++ dec n) (fun n => "ch" ++ dec (n + 6)) _ n), upto_in; cbn; lia.
  - apply (by_in (fun n => n) (fun n => "ch" ++ n)). exact H.
  - left. now apply (by_in (fun w => "VIS" ++ three w) (fun w => "VIS" ++ micrometres w)).
  - right; left. apply (by_in (fun w => "IR_" ++ three w) (fun w => "NIR" ++ micrometres w)). subst. now left.
  - right; right; left. now apply (by_in (fun w => "IR_" ++ three w) (fun w => "IR" ++ micrometres w)).
  - right; right; right; left. now apply (by_in (fun w => "WV_" ++ three w) (fun w => "IR" ++ micrometres w)).
  - right; right; right; right. now left.
  - left. now apply (by_in (fun w => "vis_" ++ two w) (fun w => "VIS" ++ micrometres w)).
  - right; left. now apply (by_in (fun w => "nir_" ++ two w) (fun w => "NIR" ++ micrometres w)).
  - right; right; left. now apply (by_in (fun w => "ir_" ++ two w) (fun w => "IR" ++ micrometres w)).
  - right; right; right; left. now apply (by_in (fun w => "wv_" ++ two w) (fun w => "WV" ++ micrometres w)).
  - right; right; right; right. exact (by_in (fun x => fst (fst x) ++ two (snd x)) (fun x => snd (fst x) ++ micrometres (snd x) ++ "_HR") FCI_high (p, q, w) H).
  - apply in_map_iff. exists (n, (p, w)). split; [reflexivity|]. apply (combine_nth AMI 0). split; [lia|]. now rewrite Nat.sub_0_r.
  - exact (by_in (fun x => "vii_" ++ dec (fst x)) (fun x => "vii-" ++ dec (snd x)) VII (w, n) H).
Qed.
Lemma rules_standard i k b : In (k, b) (rules i) -> standard i k b.
Proof.
  unfold rules. repeat match goal with |- In _ (if String.eqb i ?x then _ else _) -> _ => destruct (String.eqb_spec i x) as [->|_] end; rewrite ?in_app_iff; intros H; [..|destruct H].
  all: repeat match type of H with _ \/ _ => destruct H as [H|H] end.
  all: try (apply by_inv in H as (x & Hx & -> & ->)).
  all: try (apply upto_in in Hx).
  all: try (constructor; first [exact Hx|cbn in Hx; lia]).
  - destruct H as [H|[]]. injection H as <- <-. constructor.
  - destruct x as [[p q] w]. now apply nm_fci_high.
  - destruct x as [n [p w]]. apply (combine_nth AMI 0) in Hx as [_ Hn]. rewrite Nat.sub_0_r in Hn. cbn [fst snd]. now apply nm_ami.
  - destruct x as [w n]. now apply nm_vii.
Qed.

(** a table and a list of rules with the same entries *)
Definition agree (t r : list (string * string)) : bool := forallb (fun e => existsb (same e) r) t && forallb (fun e => existsb (same e) t) r.
Lemma agree_in t r : agree t r = true -> forall e, In e t <-> In e r.
Proof.
  unfold agree. intros H. apply andb_prop in H as [H1 H2]. rewrite forallb_forall in H1, H2. intros e. split; intros He.
  - apply H1, existsb_exists in He as (x & Hx & E). apply same_eq in E. now subst.
  - apply H2, existsb_exists in He as (x & Hx & E). apply same_eq in E. now subst.
Qed.
Fixpoint distinct (l : list string) : bool := match l with [] => true | a :: r => negb (existsb (String.eqb a) r) && distinct r end.
Lemma distinct_nodup l : distinct l = true -> NoDup l.
Proof.
  induction l as [|a r IH]; cbn [distinct]; intros H; constructor; apply andb_prop in H as [H1 H2]; [|auto]. intros Ha.
  apply negb_true_iff in H1. assert (existsb (String.eqb a) r = true) by (apply existsb_exists; exists a; split; [auto|apply String.eqb_refl]). congruence.
Qed.
Definition NAMED : list string := ["abi"; "agri"; "ahi"; "ami"; "avhrr-3"; "fci"; "modis"; "seviri"; "slstr"; "viirs"; "VII"].
Lemma named_tables i : has_names i -> exists t, dget i BANDNAMES = Some t /\ forall k b, dget k t = Some b <-> standard i k b.
Proof.
  intros Hi.
  assert (A : forallb (fun i => match dget i BANDNAMES with Some t => agree t (rules i) && distinct (map fst t) | None => false end) NAMED = true) by (vm_compute; reflexivity).
  rewrite forallb_forall in A. specialize (A i Hi). destruct (dget i BANDNAMES) as [t|]; [|discriminate]. apply andb_prop in A as [A D].
  exists t. split; [reflexivity|]. intros k b. split.
  - intros H. apply rules_standard, (agree_in _ _ A). now apply dget_Some_in.
  - intros H. apply standard_rules in H as [H _]. apply (agree_in _ _ A) in H. apply dget_in_nodup; [|exact H]. now apply distinct_nodup.
Qed.

Lemma has_names_dec i : {has_names i} + {~ has_names i}.
Proof. unfold has_names. apply in_dec, string_dec. Qed.
Lemma translate_names i k : has_names i ->
  (forall b, standard i k b -> translate_band i k = b) /\ ((forall b, ~ standard i k b) -> translate_band i k = k).
Proof.
  intros Hi. destruct (named_tables i Hi) as (t & E & H). unfold translate_band. rewrite E. split.
  - intros b Hb. apply H in Hb. now rewrite Hb.
  - intros N. destruct (dget k t) as [b|] eqn:D; [|reflexivity]. apply H in D. now apply N in D.
Qed.

(** the table for the others *)
Definition generic_rules : list (string * string) :=
  app (ruled dec (fun n => "ch" ++ dec n) (upto 1 36)) (app (rules "seviri") (app (rules "viirs") (rules "abi"))).
Lemma generic_table k b : dget k BN_generic = Some b <-> generic_name k b.
Proof.
  assert (A : agree BN_generic generic_rules && distinct (map fst BN_generic) = true) by (vm_compute; reflexivity).
  apply andb_prop in A as [A D].
  assert (R : In (k, b) generic_rules <-> generic_name k b).
  { unfold generic_rules. rewrite !in_app_iff. split.
    - intros [H|[H|[H|H]]].
      + apply by_inv in H as (n & Hn & -> & ->). apply upto_in in Hn. now constructor.
      + apply (gn_other "seviri"); [now left|now apply rules_standard].
      + apply (gn_other "viirs"); [right; now left|now apply rules_standard].
      + apply (gn_other "abi"); [right; right; now left|now apply rules_standard].
    - intros [n H|i k0 b0 Hi H]; [left; apply (by_in dec (fun n => "ch" ++ dec n)), upto_in; exact H|].
      apply standard_rules in H as [H _]. destruct Hi as [<-|[<-|[<-|[]]]]; auto. }
  rewrite <- R. split.
  - intros H. exact (proj1 (agree_in _ _ A (k, b)) (dget_Some_in _ _ _ H)).
  - intros H. exact (dget_in_nodup _ _ _ (distinct_nodup _ D) (proj2 (agree_in _ _ A (k, b)) H)).
Qed.
Lemma unnamed_table i : ~ has_names i -> match dget i BANDNAMES with Some t => t | None => BN_generic end = BN_generic.
Proof.
  intros Hi. destruct (dget i BANDNAMES) as [t|] eqn:E; [|reflexivity]. apply dget_Some_in in E.
  assert (A : map fst BANDNAMES = "generic" :: ["modis"; "seviri"; "viirs"; "avhrr-3"; "abi"; "agri"; "ahi"; "ami"; "fci"; "slstr"; "VII"]) by reflexivity.
  assert (K : In i (map fst BANDNAMES)) by (apply in_map_iff; exists (i, t); auto). rewrite A in K. destruct K as [K|K].
  - subst i. unfold BANDNAMES in E. destruct E as [E|E]; [congruence|]. cbn in E. repeat (destruct E as [E|E]; [discriminate|]). destruct E.
  - exfalso. apply Hi. unfold has_names. cbn in K |- *. tauto.
Qed.
Lemma translate_others i k : ~ has_names i ->
  (forall b, generic_name k b -> translate_band i k = b) /\ ((forall b, ~ generic_name k b) -> translate_band i k = k).
Proof.
  intros Hi. unfold translate_band. rewrite (unnamed_table i Hi). split.
  - intros b Hb. apply generic_table in Hb. now rewrite Hb.
  - intros N. destruct (dget k BN_generic) as [b|] eqn:D; [|reflexivity]. apply generic_table in D. now apply N in D.
Qed.

Lemma std_name_meant i key b : i <> "generic" -> std_name (Some (IOne i)) key b <-> meant i key b.
Proof.
  intros G. unfold std_name, meant. destruct (has_names_dec i) as [Hi|Hi].
  - destruct (named_tables i Hi) as (t & E & H). split.
    + intros [(n & t' & En & Et & Hk)|[Hn Hg]].
      * injection En as <-. rewrite E in Et. injection Et as <-. left. now apply H.
      * right. split; [|now apply generic_table]. intros b0 Hb. apply H in Hb. rewrite (Hn i t eq_refl E) in Hb. discriminate.
    + intros [Hs|[Hn Hg]].
      * left. exists i, t. repeat split; auto. now apply H.
      * right. split; [|now apply generic_table]. intros n t' En Et. injection En as <-. rewrite E in Et. injection Et as <-.
        destruct (dget key t) as [b0|] eqn:D; [|reflexivity]. apply H in D. now apply Hn in D.
  - assert (E : dget i BANDNAMES = None).
    { destruct (dget i BANDNAMES) as [t|] eqn:E; [|reflexivity]. apply dget_Some_in in E. exfalso.
      assert (K : In i (map fst BANDNAMES)) by (apply in_map_iff; exists (i, t); auto). cbn in K. destruct K as [K|K]; [congruence|]. apply Hi. unfold has_names. cbn. tauto. }
    split.
    + intros [(n & t' & En & Et & Hk)|[Hn Hg]]; [injection En as <-; congruence|]. right. split; [|now apply generic_table].
      intros b0 Hb. apply standard_rules in Hb as [_ Hb]. contradiction.
    + intros [Hs|[Hn Hg]]; [apply standard_rules in Hs as [_ Hs]; contradiction|]. right. split; [|now apply generic_table].
      intros n t' En Et. injection En as <-. congruence.
Qed.
Lemma indexing V i (d : dict V) key : i <> "generic" ->
  (forall v, RSRDict_getitem (Some (IOne i)) d key = Ok v <-> dget key d = Some v \/ (dget key d = None /\ exists b, meant i key b /\ dget b d = Some v)) /\
  (forall e, RSRDict_getitem (Some (IOne i)) d key = Err e -> e = KeyError).
Proof.
  intros G. destruct (getitem_spec V (Some (IOne i)) d key) as [A B]; [discriminate|]. split; [|exact B].
  intros v. rewrite A. split; (intros [H|(H & b & M & D)]; [now left|right; split; [exact H|exists b; split; [|exact D]]]); now apply (std_name_meant i key b G).
Qed.

(** no two names for a band *)
Definition onto (i : string) : bool :=
  forallb (fun x => forallb (fun y => negb (String.eqb (snd x) (snd y)) || String.eqb (fst x) (fst y) ||
    (String.eqb i "slstr" && (String.eqb (snd x) "ch7" || String.eqb (snd x) "ch8"))) (rules i)) (rules i).
Lemma one_band_each i k k' b : standard i k b -> standard i k' b -> k = k' \/ (i = "slstr" /\ (b = "ch7" \/ b = "ch8")).
Proof.
  intros H H'. apply standard_rules in H as [H Hi]. apply standard_rules in H' as [H' _].
  assert (A : forallb onto NAMED = true) by (vm_compute; reflexivity). rewrite forallb_forall in A. specialize (A i Hi). unfold onto in A. rewrite forallb_forall in A. specialize (A _ H). cbn [fst snd] in A.
  rewrite forallb_forall in A. specialize (A _ H'). cbn [fst snd] in A. rewrite String.eqb_refl in A. cbn [negb orb] in A.
  apply orb_prop in A as [A|A]; [left; now apply String.eqb_eq|]. apply andb_prop in A as [A1 A2]. apply String.eqb_eq in A1. right. split; [exact A1|].
  apply orb_prop in A2 as [A2|A2]; apply String.eqb_eq in A2; auto.
Qed.
Lemma name_once i k b b' : standard i k b -> standard i k b' -> b = b'.
Proof.
  intros H H'. destruct (standard_rules _ _ _ H) as [_ Hi]. destruct (named_tables i Hi) as (t & _ & T). apply T in H, H'. congruence.
Qed.
Lemma generic_agrees i k b b' : i <> "modis" -> standard i k b -> generic_name k b' -> b = b'.
Proof.
  intros M H G. apply standard_rules in H as [H Hi]. apply generic_table in G.
  assert (A : forallb (fun i => String.eqb i "modis" || forallb (fun e => match dget (fst e) BN_generic with Some b => String.eqb (snd e) b | None => true end) (rules i)) NAMED = true) by (vm_compute; reflexivity).
  rewrite forallb_forall in A. specialize (A i Hi). destruct (String.eqb_spec i "modis") as [E|_]; [contradiction|]. cbn [orb] in A. rewrite forallb_forall in A. specialize (A _ H). cbn [fst snd] in A.
  rewrite G in A. now apply String.eqb_eq.
Qed.
Lemma band_stays i k b : standard i k b -> translate_band i b = b.
Proof.
  intros H. apply standard_rules in H as [H Hi].
  assert (A : forallb (fun i => forallb (fun e => String.eqb (translate_band i (snd e)) (snd e)) (rules i)) NAMED = true) by (vm_compute; reflexivity).
  rewrite forallb_forall in A. specialize (A i Hi). rewrite forallb_forall in A. specialize (A _ H). now apply String.eqb_eq.
Qed.

(** ** Platforms *)
Definition FLEET : list (string * string) :=
  concat [
    ruled (fun n => "GOES-" ++ dec n) (fun _ => "abi") (upto 16 19); ruled (fun p => p) (fun _ => "agri") ["FY-4A"; "FY-4B"]; [("FY-4B", "ghi")];
    ruled (fun n => "Himawari-" ++ dec n) (fun _ => "ahi") (upto 8 9); [("GEO-KOMPSAT-2A", "ami"); ("GEO-KOMPSAT-2B", "goci-2"); ("TIROS-N", "avhrr/1")];
    ruled (fun n => "NOAA-" ++ dec n) (fun _ => "avhrr/1") [6; 8; 10]%N; ruled (fun n => "NOAA-" ++ dec n) (fun _ => "avhrr/2") [7; 9; 11; 12; 14]%N;
    ruled (fun n => "NOAA-" ++ dec n) (fun _ => "avhrr/3") (upto 15 19); ruled (fun x => "Metop-" ++ x) (fun _ => "avhrr/3") ["A"; "B"; "C"]; [("HY-1C", "cocts")];
    ruled (fun p => p) (fun _ => "fci") ["Meteosat-12"; "MTG-I1"]; [("Metop-SG-A1", "metimage")];
    ruled (fun x => fst x ++ snd x) (fun _ => "modis") (list_prod [""; "EOS-"] ["Aqua"; "Terra"]); ruled (fun x => "Sentinel-2" ++ x) (fun _ => "msi") ["A"; "B"; "C"];
    [("Arctica-M-N1", "msu-gsa"); ("Electro-L-N2", "msu-gs")]; ruled (fun x => "Sentinel-3" ++ fst x) snd (list_prod ["A"; "B"] ["olci"; "slstr"]);
    ruled (fun n => "Landsat-" ++ dec n) (fun _ => "oli_tirs") (upto 8 9); ruled (fun n => "Meteosat-" ++ dec n) (fun _ => "seviri") (upto 8 11);
    ruled (fun p => p) (fun _ => "viirs") ["NOAA-20"; "NOAA-21"; "Suomi-NPP"]; ruled (fun x => "FY-3" ++ fst x) snd (list_prod ["A"; "B"; "C"] ["virr"; "mersi-1"]);
    ruled (fun x => "FY-3" ++ fst x) (fun x => "mersi-" ++ snd x) [("D", "2"); ("F", "3"); ("G", "rm")]; [("DSCOVR", "epic"); ("Envisat", "aatsr")]].
Lemma in_concat_nth {A} (n : nat) (l : list A) ls a : nth_error ls n = Some l -> In a l -> In a (concat ls).
Proof. intros H Ha. apply in_concat. exists l. split; [now apply nth_error_In with n|exact Ha]. Qed.
Lemma fleet_in p i : fleet p i -> In (p, i) FLEET.
Proof.
  intros H. destruct H as [n H|p H| |n H| | | |n H|n H|n H|x H| |p H| |p q Hp Hq|x H| | |x i Hx Hi|n H|n H|p H|x i Hx Hi|x k H| |]; unfold FLEET.
  - eapply (in_concat_nth 0); [reflexivity|]. apply (by_in (fun n => "GOES-" ++ dec n) (fun _ => "abi")), upto_in. exact H.
  - eapply (in_concat_nth 1); [reflexivity|]. exact (by_in (fun p => p) (fun _ => "agri") _ p H).
  - eapply (in_concat_nth 2); [reflexivity|]. now left.
  - eapply (in_concat_nth 3); [reflexivity|]. apply (by_in (fun n => "Himawari-" ++ dec n) (fun _ => "ahi")), upto_in. exact H.
  - eapply (in_concat_nth 4); [reflexivity|]. now left.
  - eapply (in_concat_nth 4); [reflexivity|]. right; now left.
  - eapply (in_concat_nth 4); [reflexivity|]. right; right; now left.
  - eapply (in_concat_nth 5); [reflexivity|]. exact (by_in (fun n => "NOAA-" ++ dec n) (fun _ => "avhrr/1") _ n H).
  - eapply (in_concat_nth 6); [reflexivity|]. exact (by_in (fun n => "NOAA-" ++ dec n) (fun _ => "avhrr/2") _ n H).
  - eapply (in_concat_nth 7); [reflexivity|]. apply (by_in (fun n => "NOAA-" ++ dec n) (fun _ => "avhrr/3")), upto_in. exact H.
  - eapply (in_concat_nth 8); [reflexivity|]. exact (by_in (fun x => "Metop-" ++ x) (fun _ => "avhrr/3") _ x H).
  - eapply (in_concat_nth 9); [reflexivity|]. now left.
  - eapply (in_concat_nth 10); [reflexivity|]. exact (by_in (fun p => p) (fun _ => "fci") _ p H).
  - eapply (in_concat_nth 11); [reflexivity|]. now left.
  - eapply (in_concat_nth 12); [reflexivity|]. apply (by_in (fun x => fst x ++ snd x) (fun _ => "modis") _ (p, q)). now apply in_prod.
  - eapply (in_concat_nth 13); [reflexivity|]. exact (by_in (fun x => "Sentinel-2" ++ x) (fun _ => "msi") _ x H).
  - eapply (in_concat_nth 14); [reflexivity|]. now left.
  - eapply (in_concat_nth 14); [reflexivity|]. right; now left.
  - eapply (in_concat_nth 15); [reflexivity|]. apply (by_in (fun x => "Sentinel-3" ++ fst x) snd _ (x, i)). now apply in_prod.
  - eapply (in_concat_nth 16); [reflexivity|]. apply (by_in (fun n => "Landsat-" ++ dec n) (fun _ => "oli_tirs")), upto_in. exact H.
  - eapply (in_concat_nth 17); [reflexivity|]. apply (by_in (fun n => "Meteosat-" ++ dec n) (fun _ => "seviri")), upto_in. exact H.
  - eapply (in_concat_nth 18); [reflexivity|]. exact (by_in (fun p => p) (fun _ => "viirs") _ p H).
  - eapply (in_concat_nth 19); [reflexivity|]. apply (by_in (fun x => "FY-3" ++ fst x) snd _ (x, i)). now apply in_prod.
  - eapply (in_concat_nth 20); [reflexivity|]. exact (by_in (fun x => "FY-3" ++ fst x) (fun x => "mersi-" ++ snd x) _ (x, k) H).
  - eapply (in_concat_nth 21); [reflexivity|]. now left.
  - eapply (in_concat_nth 21); [reflexivity|]. right; now left.
Qed.
Lemma in_fleet p i : In (p, i) FLEET -> fleet p i.
Proof.
  unfold FLEET. cbn [concat]. rewrite !in_app_iff. intros H.
  repeat match type of H with _ \/ _ => destruct H as [H|H] end; [..|destruct H].
  all: try (apply by_inv in H as (x & Hx & -> & ->)).
  all: try (apply upto_in in Hx).
  all: try (constructor; exact Hx).
  all: try (match type of H with In _ _ => cbn in H; repeat match type of H with _ \/ _ => destruct H as [H|H] end; [..|destruct H]; injection H as <- <-; constructor end).
  - destruct x as [a c]. apply in_prod_iff in Hx as [Ha Hc]. cbn [fst snd]. now apply fl_modis.
  - destruct x as [a c]. apply in_prod_iff in Hx as [Ha Hc]. cbn [fst snd]. now apply fl_sentinel3.
  - destruct x as [a c]. apply in_prod_iff in Hx as [Ha Hc]. cbn [fst snd]. now apply fl_fy3.
  - destruct x as [a c]. now apply fl_mersi.
Qed.
Definition entries : list (string * string) :=
  flat_map (fun e => match snd e with IOne i => [(fst e, i)] | IList l => map (fun i => (fst e, i)) l end) INSTRUMENTS.
Lemma carries_entries p i : carries p i <-> In (p, i) entries.
Proof.
  assert (D : distinct (map fst INSTRUMENTS) = true) by (vm_compute; reflexivity). apply distinct_nodup in D.
  unfold carries, entries. rewrite in_flat_map. split.
  - intros [H|(l & H & Hi)]; apply dget_Some_in in H; eexists; (split; [exact H|]); cbn [fst snd]; [now left|]. apply in_map_iff. eauto.
  - intros ((q & [j|l]) & H & Hi); cbn [fst snd] in Hi.
    + destruct Hi as [E|[]]. injection E as <- <-. left. now apply dget_in_nodup.
    + apply in_map_iff in Hi as (j & E & Hj). injection E as <- <-. right. exists l. split; [now apply dget_in_nodup|exact Hj].
Qed.
Lemma carries_fleet p i : carries p i <-> fleet p i.
Proof.
  assert (A : agree entries FLEET = true) by (vm_compute; reflexivity).
  rewrite carries_entries, (agree_in _ _ A). split; [apply in_fleet|apply fleet_in].
Qed.

(** a table that no platform leads to *)
Lemma unreachable_table i : In i ["avhrr-3"; "VII"] -> has_names i /\ forall p, ~ carries p i.
Proof.
  intros Hi. split; [destruct Hi as [<-|[<-|[]]]; unfold has_names; cbn; tauto|]. intros p H. apply carries_entries in H.
  assert (A : forallb (fun e => negb (String.eqb (snd e) "avhrr-3") && negb (String.eqb (snd e) "VII")) entries = true) by (vm_compute; reflexivity).
  rewrite forallb_forall in A. specialize (A _ H). cbn [snd] in A. destruct Hi as [<-|[<-|[]]]; discriminate.
Qed.
Lemma reachable_table i : has_names i -> i <> "avhrr-3" -> i <> "VII" -> exists p, carries p i /\ check_and_adjust_instrument_name p i = Ok i.
Proof.
  intros Hi N1 N2.
  assert (A : forallb (fun i => String.eqb i "avhrr-3" || String.eqb i "VII" ||
     existsb (fun e => String.eqb (snd e) i && match check_and_adjust_instrument_name (fst e) i with Ok j => String.eqb j i | Err _ => false end) entries) NAMED = true) by (vm_compute; reflexivity).
  rewrite forallb_forall in A. specialize (A i Hi). destruct (String.eqb_spec i "avhrr-3"); [contradiction|]. destruct (String.eqb_spec i "VII"); [contradiction|]. cbn [orb] in A.
  apply existsb_exists in A as ([p j] & H & E). cbn [fst snd] in E. apply andb_prop in E as [E1 E2]. apply String.eqb_eq in E1. subst j. exists p. split; [now apply carries_entries|].
  destruct (check_and_adjust_instrument_name p i) as [j|]; [|discriminate]. apply String.eqb_eq in E2. now subst.
Qed.
Lemma lost_names : exists p given i (d : dict nat) name band, carries p "avhrr/3" /\ standard given name band /\
  check_and_adjust_instrument_name p given = Ok i /\ dget band d = Some 1%nat /\ RSRDict_getitem (Some (IOne i)) d name = Err KeyError.
Proof.
  exists "NOAA-19", "avhrr-3", "avhrr3", [("ch3b", 1%nat)], "3b", "ch3b". split; [left; reflexivity|]. split; [exact (nm_avhrr "3b" ltac:(cbn; tauto))|]. repeat split.
Qed.

(** ** Look-up tables *)
Lemma lut_tables t : In t AEROSOL_TYPES ->
  dget t ATM_CORRECTION_LUT_VERSION = Some ("v1.0.1", "PYSPECTRAL_ATM_CORR_LUT_" ++ initials t) /\
  dget t HTTPS_RAYLEIGH_LUTS = Some ("https://zenodo.org/record/1288441/files/pyspectral_atm_correction_luts_" ++ (if string_dec t "rayleigh_only" then "no_aerosol" else t) ++ ".tgz").
Proof.
  intros H. assert (A : forallb (fun t => match dget t ATM_CORRECTION_LUT_VERSION, dget t HTTPS_RAYLEIGH_LUTS with
    | Some (v, f), Some u => String.eqb v "v1.0.1" && String.eqb f ("PYSPECTRAL_ATM_CORR_LUT_" ++ initials t) &&
        String.eqb u ("https://zenodo.org/record/1288441/files/pyspectral_atm_correction_luts_" ++ (if string_dec t "rayleigh_only" then "no_aerosol" else t) ++ ".tgz")
    | _, _ => false end) AEROSOL_TYPES = true) by (vm_compute; reflexivity).
  rewrite forallb_forall in A. specialize (A t H). destruct (dget t ATM_CORRECTION_LUT_VERSION) as [[v f]|]; [|discriminate]. destruct (dget t HTTPS_RAYLEIGH_LUTS) as [u|]; [|discriminate].
  apply andb_prop in A as [A A3]. apply andb_prop in A as [A1 A2]. apply String.eqb_eq in A1, A2, A3. subst v f u. auto.
Qed.
Lemma other_types t : ~ In t AEROSOL_TYPES -> dget t ATM_CORRECTION_LUT_VERSION = None /\ dget t HTTPS_RAYLEIGH_LUTS = None.
Proof.
  intros H.
  assert (A : forallb (fun e => existsb (String.eqb (fst e)) AEROSOL_TYPES) ATM_CORRECTION_LUT_VERSION && forallb (fun e => existsb (String.eqb (fst e)) AEROSOL_TYPES) HTTPS_RAYLEIGH_LUTS = true) by (vm_compute; reflexivity).
  apply andb_prop in A as [A1 A2]. rewrite forallb_forall in A1, A2. split.
  - destruct (dget t ATM_CORRECTION_LUT_VERSION) as [x|] eqn:E; [|reflexivity]. apply dget_Some_in in E. apply A1, existsb_exists in E as (y & Hy & E). apply String.eqb_eq in E. cbn [fst] in E. subst y. contradiction.
  - destruct (dget t HTTPS_RAYLEIGH_LUTS) as [x|] eqn:E; [|reflexivity]. apply dget_Some_in in E. apply A2, existsb_exists in E as (y & Hy & E). apply String.eqb_eq in E. cbn [fst] in E. subst y. contradiction.
Qed.
Lemma version_files t t' v v' f : dget t ATM_CORRECTION_LUT_VERSION = Some (v, f) -> dget t' ATM_CORRECTION_LUT_VERSION = Some (v', f) -> t = t'.
Proof.
  intros H H'. apply dget_Some_in in H, H'.
  assert (A : forallb (fun x => forallb (fun y => negb (String.eqb (snd (snd x)) (snd (snd y))) || String.eqb (fst x) (fst y)) ATM_CORRECTION_LUT_VERSION) ATM_CORRECTION_LUT_VERSION = true) by (vm_compute; reflexivity).
  rewrite forallb_forall in A. specialize (A _ H). rewrite forallb_forall in A. specialize (A _ H'). cbn [fst snd] in A. rewrite String.eqb_refl in A. cbn [negb orb] in A. now apply String.eqb_eq.
Qed.
Lemma urls t t' u : dget t HTTPS_RAYLEIGH_LUTS = Some u -> dget t' HTTPS_RAYLEIGH_LUTS = Some u -> t = t'.
Proof.
  intros H H'. apply dget_Some_in in H, H'.
  assert (A : forallb (fun x => forallb (fun y => negb (String.eqb (snd x) (snd y)) || String.eqb (fst x) (fst y)) HTTPS_RAYLEIGH_LUTS) HTTPS_RAYLEIGH_LUTS = true) by (vm_compute; reflexivity).
  rewrite forallb_forall in A. specialize (A _ H). rewrite forallb_forall in A. specialize (A _ H'). cbn [fst snd] in A. rewrite String.eqb_refl in A. cbn [negb orb] in A. now apply String.eqb_eq.
Qed.
Lemma atmosphere_numbers a n : dget a ATMOSPHERES = Some n <-> (4 <= n)%nat /\ nth_error atmospheres (n - 4) = Some a.
Proof.
  assert (A : ATMOSPHERES = map (fun x => (snd x, fst x)) (combine (seq 4 6) atmospheres)) by reflexivity. rewrite <- (combine_nth atmospheres 4).
  assert (D : distinct (map fst ATMOSPHERES) = true) by reflexivity. split.
  - intros H. apply dget_Some_in in H. rewrite A in H. apply in_map_iff in H as ([m x] & E & H). cbn in E. injection E as <- <-. exact H.
  - intros H. apply dget_in_nodup; [now apply distinct_nodup|]. rewrite A. apply in_map_iff. exists (n, a). auto.
Qed.
Lemma types t : In t AEROSOL_TYPES <-> t = "rayleigh_only" \/ exists a, In a aerosol_kinds /\ t = a ++ "_aerosol".
Proof.
  split.
  - intros H. cbn in H. repeat (destruct H as [H|H]; [|]); try (left; congruence); try (right; subst t; unfold aerosol_kinds; eexists; split; [|]; [|match goal with |- ?x = _ => instantiate (1 := substring 0 (String.length x - 8) x); reflexivity end]; vm_compute; tauto). destruct H.
  - intros [->|(a & H & ->)]; [cbn; tauto|]. cbn in H. repeat (destruct H as [<-|H]; [cbn; tauto|]). destruct H.
Qed.
