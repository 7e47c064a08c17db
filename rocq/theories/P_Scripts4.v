(** Lemmas on the output file's name, on plots by wavelength and on the choice of
    sensors in composite_rsr_plot (C89). *)
From Coq Require Import String Ascii List Bool NArith ZArith Reals Lra Lia.
From Verif Require Import Base NumSig XR M_Tables M_Utils M_Rsr M_World M_Scripts S_Utils S_Scripts P_Central P_Utils2 P_Scripts2 P_Scripts3.
Import ListNotations.
Local Open Scope R_scope.

(** ** the file name *)
Definition upto (n : nat) : list Z := map Z.of_nat (seq 0 n).
Lemma pad4_all : forallb (fun z => String.eqb (pad4 z) (four_digits z)) (upto (100 * 100)) = true.
Proof. vm_compute. reflexivity. Qed.
Lemma pad4_spec z : (0 <= z < 10000)%Z -> pad4 z = four_digits z.
Proof.
  intros H. pose proof pad4_all as A. rewrite forallb_forall in A. apply String.eqb_eq, A.
  unfold upto. apply in_map_iff. exists (Z.to_nat z). split; [lia|]. apply in_seq. change (100 * 100)%nat with (Z.to_nat 10000). lia.
Qed.
Lemma hundredths_spec x n : (0 <= n < 10000)%Z -> IZR n <= 100 * x < IZR n + 1 -> hundredths (Fin x : XRN) = Ok (four_digits n).
Proof.
  intros Hn H. unfold hundredths. change (nmul XRN (nlit XRN 100 1) (Fin x)) with (Fin (100 / 1 * x) : XRN).
  cbn [ntrunc XRN xtrunc]. assert (E : Rtrunc (100 / 1 * x) = n).
  { unfold Rtrunc. replace (100 / 1 * x) with (100 * x) by lra. apply proj1, IZR_le in Hn. destruct (Rlt_dec (100 * x) 0); [lra|].
    now apply Int_part_unique. }
  rewrite E. now rewrite pad4_spec.
Qed.
Lemma given_fin x : x <> 0 -> number_given (Some (Fin x : XRN)) = Some (Fin x).
Proof.
  intros H. unfold number_given. change (neqb XRN (Fin x) (nlit XRN 0 1)) with (Reqb x (0 / 1)). unfold Reqb.
  destruct (Req_EM_T x (0 / 1)); [lra|reflexivity].
Qed.
Lemma text_some s : s <> ""%string -> text_given (Some s) = Some s.
Proof. destruct s; [congruence|reflexivity]. Qed.
Lemma file_names : forall (a : plot_args XRN) range,
  (forall f, ca_filename a = Some f -> f <> ""%string -> plot_filename a range = Ok f) /\
  (ca_filename a = None -> range = None -> forall b, ca_bandname a = Some b -> b <> ""%string ->
     plot_filename a range = Ok ("rsr_band_" ++ b ++ ".png")%string) /\
  (ca_filename a = None -> ca_bandname a = None -> forall x n, ca_wavelength a = Some (Fin x) -> x <> 0 ->
     (0 <= n < 10000)%Z -> IZR n <= 100 * x < IZR n + 1 ->
     plot_filename a range = Ok ("rsr_band_" ++ four_digits n ++ ".png")%string) /\
  (ca_filename a = None -> ca_wavelength a = None -> forall lo hi m n, range = Some (Fin lo, Fin hi) -> lo <> 0 -> hi <> 0 ->
     (0 <= m < 10000)%Z -> IZR m <= 100 * lo < IZR m + 1 -> (0 <= n < 10000)%Z -> IZR n <= 100 * hi < IZR n + 1 ->
     plot_filename a range = Ok ("rsr_band_" ++ four_digits m ++ "_" ++ four_digits n ++ ".png")%string).
Proof.
  intros a range. unfold plot_filename. repeat split.
  - intros f -> Hf. now rewrite text_some.
  - intros -> -> b -> Hb. rewrite text_some by exact Hb. reflexivity.
  - intros -> -> x n -> Hx Hn H. cbn [text_given]. rewrite given_fin by exact Hx. now rewrite (hundredths_spec x n Hn H).
  - intros -> -> lo hi m n -> Hl Hh Hm H1 Hn H2. cbn [text_given number_given].
    assert (E : forall x, x <> 0 -> neqb XRN (Fin x) (nlit XRN 0 1) = false).
    { intros x Hx. change (neqb XRN (Fin x) (nlit XRN 0 1)) with (Reqb x (0 / 1)). unfold Reqb. destruct (Req_EM_T x (0 / 1)); [lra|reflexivity]. }
    rewrite (E lo Hl), (E hi Hh), (hundredths_spec lo m Hm H1), (hundredths_spec hi n Hn H2). cbn [negb andb bind].
    destruct (text_given (ca_bandname a)); reflexivity.
Qed.

(** ** by wavelength *)
Lemma by_wavelength : forall fuel (a : plot_args XRN) range o minimum x,
  ca_bandname a = None -> ca_wavelength a = Some (Fin x) -> x <> 0 -> ca_minimum a = Fin minimum ->
  NoDup (dkeys (so_rsr o)) -> Forall (fun kb => first_cw (snd kb) <> None) (so_rsr o) ->
  (forall b, In b (dkeys (so_rsr o)) -> b <> ""%string /\ translate_band (so_instrument o) b = b /\ drawable o b) ->
  exists cs, curves_of fuel a range o = Done cs /\
    Forall2 (curve_of o minimum (negb (ca_no_name a))) (map fst (filter (near x (1 / 4)) (so_rsr o))) cs.
Proof.
  intros fuel a range o minimum x Hb Hw Hx Hm nd cws names. unfold curves_of. rewrite Hb, Hw, Hm. cbn [text_given]. rewrite given_fin by exact Hx.
  replace (nlit XRN 25 100) with (Fin (1 / 4) : num XRN) by (cbn; unfold xlit; f_equal; lra).
  rewrite (bandname_spec (so_instrument o) x (1 / 4) true (so_rsr o) nd cws).
  assert (E : map (fun kb => translate_band (so_instrument o) (fst kb)) (filter (near x (1 / 4)) (so_rsr o)) = map fst (filter (near x (1 / 4)) (so_rsr o))).
  { apply map_ext_in. intros kb H. apply names. apply filter_In in H as [H _]. exact (in_map fst _ _ H). }
  rewrite E. assert (K : forall b, In b (map fst (filter (near x (1 / 4)) (so_rsr o))) -> In b (dkeys (so_rsr o))).
  { intros b H. apply in_map_iff in H as ((k & v) & <- & H). apply filter_In in H as [H _]. exact (in_map fst _ _ H). }
  assert (M : forall l, (forall b, In b l -> In b (dkeys (so_rsr o))) -> exists cs, mapM (plot_band (Fin minimum) (negb (ca_no_name a)) o) l = Ok cs /\
     Forall2 (curve_of o minimum (negb (ca_no_name a))) l cs).
  { induction l as [|b l IH]; intros H; [exists []; split; [reflexivity|constructor]|]. cbn [mapM].
    destruct (plot_band_spec o minimum (negb (ca_no_name a)) b) as (c & Ec & C); [apply names, H; now left|].
    destruct IH as (cs & Es & F); [intros; apply H; now right|]. exists (c :: cs). split; [|now constructor]. rewrite Ec. cbn [bind]. now rewrite Es. }
  destruct (M _ K) as (cs & Es & F). exists cs. split; [|exact F]. clear E M F.
  destruct (map fst (filter (near x (1 / 4)) (so_rsr o))) as [|b [|b' l]].
  - cbn in Es. now injection Es as <-.
  - assert (Hne : b <> ""%string) by (apply names, K; now left). destruct b as [|c b]; [congruence|].
    cbn [mapM] in Es. destruct (plot_band _ _ o _); cbn in Es |- *; [now injection Es as <-|discriminate Es].
  - cbn [of_res]. now rewrite Es.
Qed.

(** ** which sensors are tried *)
Lemma prefix_iff s : forall t, prefix s t = true <-> exists b, t = (s ++ b)%string.
Proof.
  induction s as [|c s IH]; intros t; cbn [prefix String.append].
  - split; [intros _; now exists t|intros _; destruct t; reflexivity].
  - destruct t as [|d t]; [split; [discriminate|intros (b & H); discriminate H]|].
    cbn [prefix]. destruct (ascii_dec c d) as [->|Hn]; [rewrite IH|]; split.
    + intros (b & ->). now exists b.
    + intros (b & H). injection H as ->. now exists b.
    + discriminate.
    + intros (b & H). injection H as -> _. congruence.
Qed.
Lemma substring_iff s : forall t, substring_of s t = true <-> part_of s t.
Proof.
  unfold part_of. induction t as [|d t IH]; cbn [substring_of]; rewrite orb_true_iff, prefix_iff.
  - split; [intros [(b & ->)|H]; [now exists ""%string, b|discriminate H]|].
    intros (a & b & H). left. destruct a; [now exists b|discriminate H].
  - rewrite IH. split.
    + intros [(b & ->)|(a & b & ->)]; [now exists ""%string, b|now exists (String d a), b].
    + intros ([|c a] & b & H); [left; now exists b|]. injection H as -> ->. right. now exists a, b.
Qed.
Lemma tried_iff : forall p s, skipped p s = false <->
  match dget p INSTRUMENTS with None => True | Some (IOne i) => part_of s i | Some (IList l) => In s l end.
Proof.
  intros p s. unfold skipped. destruct (dget p INSTRUMENTS) as [[i|l]|]; [| |tauto].
  - rewrite negb_false_iff. apply substring_iff.
  - rewrite negb_false_iff. apply existsb_str_in.
Qed.
Lemma other_errors : forall make fuel (a : plot_args XRN) range p ps pre s post e, range_of a range -> ca_platforms a = p :: ps ->
  ca_sensors a = (pre ++ s :: post)%list ->
  (forall s', In s' pre -> skipped p s' = true \/ exists e', make p s' = Err e' /\ In e' [FileNotFoundError; OSError; HTTPError; NetworkError]) ->
  skipped p s = false -> make p s = Err e -> ~ In e [FileNotFoundError; OSError; HTTPError; NetworkError] ->
  composite make fuel a = Stop (Raise e).
Proof.
  intros make fuel a range p ps pre s post e Hr Hp Hs Hpre Hk He Hn. unfold composite, range_of in *. rewrite Hp.
  assert (E : forall v, pick make p (ca_sensors a) v = Err e).
  { rewrite Hs. clear Hs. induction pre as [|s' pre IH]; intros v; cbn [app pick].
    - rewrite Hk, He. destruct e; cbn in *; try reflexivity; exfalso; apply Hn; auto 6.
    - assert (IH' : forall v, pick make p (pre ++ s :: post) v = Err e) by (intros v'; apply IH; intros; apply Hpre; now right).
      destruct (Hpre s' (or_introl eq_refl)) as [->|(e' & Ee & Hi)]; [apply IH'|]. destruct (skipped p s'); [apply IH'|]. rewrite Ee.
      destruct Hi as [<-|[<-|[<-|[<-|[]]]]]; cbn [is_ioerror]; apply IH'. }
  destruct (ca_range a) as [[|lo [|hi [|? ?]]]|]; try contradiction; cbn [all_platforms]; rewrite E; reflexivity.
Qed.

(** ** a range *)
Lemma zero_not_given : number_given (Some (Fin 0 : XRN)) = None.
Proof.
  unfold number_given. change (neqb XRN (Fin 0) (nlit XRN 0 1)) with (Reqb 0 (0 / 1)). unfold Reqb. destruct (Req_EM_T 0 (0 / 1)); [reflexivity|lra].
Qed.
Lemma range_curves : forall (a : plot_args XRN) (o : robj XRN) minimum lo hi res,
  ca_bandname a = None -> ca_wavelength a = None \/ ca_wavelength a = Some (Fin 0) -> ca_minimum a = Fin minimum -> ca_resolution a = Fin res ->
  NoDup (dkeys (so_rsr o)) -> Forall (fun kb => first_cw (snd kb) <> None) (so_rsr o) ->
  (forall b, In b (dkeys (so_rsr o)) -> b <> ""%string /\ translate_band (so_instrument o) b = b /\ drawable o b) -> 0 < res ->
  exists bs cs n, (forall fuel, (n <= fuel)%nat -> curves_of fuel a (Some (Fin lo, Fin hi)) o = Done cs) /\
    NoDup bs /\ Forall2 (curve_of o minimum (negb (ca_no_name a))) bs cs /\
    forall b, In b bs <-> ~ In b (ca_exclude a) /\ exists bd cw, dget b (so_rsr o) = Some bd /\ first_cw bd = Some cw /\ sampled lo hi res cw.
Proof.
  intros a o minimum lo hi res Hb Hw Hm Hs nd cws names Hr.
  destruct (range_spec o minimum (negb (ca_no_name a)) (ca_exclude a) lo hi res nd cws names Hr) as (bs & cs & n & A & B).
  exists bs, cs, n. split; [|exact B]. intros fuel Hf. rewrite <- (A fuel Hf). unfold curves_of. rewrite Hb, Hm, Hs. cbn [text_given].
  destruct Hw as [-> | ->]; [reflexivity|].
  match goal with |- context [number_given ?z] => replace (number_given z) with (@None (num XRN)) by (symmetry; exact zero_not_given) end. reflexivity.
Qed.
Lemma range_forever : forall (a : plot_args XRN) (o : robj XRN) lo hi res,
  ca_bandname a = None -> ca_wavelength a = None -> ca_resolution a = Fin res -> NoDup (dkeys (so_rsr o)) ->
  Forall (fun kb => first_cw (snd kb) <> None) (so_rsr o) ->
  (forall b, In b (dkeys (so_rsr o)) -> b <> ""%string /\ translate_band (so_instrument o) b = b /\ drawable o b) ->
  (exists minimum, ca_minimum a = Fin minimum) -> res <= 0 -> lo < hi -> forall fuel,
  curves_of fuel a (Some (Fin lo, Fin hi)) o = Stop StillRunning.
Proof.
  intros a o lo hi res Hb Hw Hs nd cws names _ Hr Hl fuel. unfold curves_of. rewrite Hb, Hw, Hs. cbn [text_given number_given].
  now apply scan_forever.
Qed.
