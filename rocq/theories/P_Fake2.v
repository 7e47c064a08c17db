(** Lemmas about the fake data of pyspectral.testing: the fake responses. *)
From Coq Require Import Reals Lra Lia ZArith String Ascii List Bool Sorted.
From Verif Require Import Base NumSig XR M_Tables M_Utils M_Solar M_Nir M_Rayleigh M_World M_Download M_Rsr M_Fake
     S_Solar S_Nir S_Rayleigh S_Fake P_Solar P_Names P_Fake.
Import ListNotations.
Local Open Scope string_scope.
Local Open Scope R_scope.

Lemma linspace_any a b n : @linspace XRN (Fin a) (Fin b) (Z.of_nat n + 1) = Ok (map Fin (even_grid a b n)).
Proof.
  unfold linspace.
  destruct (Z.ltb_spec (Z.of_nat n + 1) 0); [lia|]. destruct (Z.eqb_spec (Z.of_nat n + 1) 0); [lia|].
  destruct n as [|n].
  - cbn [Z.of_nat Z.add Z.eqb Pos.eqb]. rewrite n0_fin. cbn. do 3 f_equal. lra.
  - destruct (Z.eqb_spec (Z.of_nat (S n) + 1) 1); [lia|].
    replace (Z.of_nat (S n) + 1 - 1)%Z with (Z.of_nat (S n)) by lia. rewrite Nat2Z.id.
    set (N := S n). cbv zeta. rewrite nZ_fin, <- INR_IZR_INZ.
    assert (HN : 0 < INR N) by (apply lt_0_INR; unfold N; lia).
    change (nsub XRN (Fin b) (Fin a)) with (Fin (b - a)). change (ndiv XRN) with xdiv.
    rewrite (xdiv_fin (b - a)) by lra. f_equal.
    assert (G : even_grid a b N = (map (fun i => a + INR i * ((b - a) / INR N)) (seq 0 N) ++ [b])%list).
    { unfold even_grid, N at 1. rewrite seq_S, map_app. f_equal. cbn [map]. f_equal.
      rewrite Nat.add_0_l. fold N. field. lra. }
    rewrite G, map_app, map_map. clear G. clearbody N. f_equal. apply map_ext. intros i.
    rewrite nZ_fin, <- INR_IZR_INZ, n0_fin.
    destruct (Reqb ((b - a) / INR N) 0) eqn:E.
    + change (neqb XRN) with xeqb. cbn [xeqb]. rewrite E. rewrite xdiv_fin by lra. cbn. f_equal. f_equal. field. lra.
    + change (neqb XRN) with xeqb. cbn [xeqb]. rewrite E. reflexivity.
Qed.
Lemma linspace_lit p q p' q' n a b : a = IZR p / IZR (Zpos q) -> b = IZR p' / IZR (Zpos q') ->
  @linspace XRN (nlit XRN p q) (nlit XRN p' q') (Z.of_nat n + 1) = Ok (map Fin (even_grid a b n)).
Proof. intros -> ->. apply linspace_any. Qed.

Lemma grid_shift a b c n : map (fun x => x + c) (even_grid a b n) = even_grid (a + c) (b + c) n.
Proof.
  destruct n as [|n]; [reflexivity|]. unfold even_grid. rewrite map_map. apply map_ext. intros i.
  replace (b + c - (a + c)) with (b - a) by lra. lra.
Qed.

(** the user's wavelengths *)
Definition std (t : dict string) (n : string) : string := match dget n t with Some s => s | None => n end.
Lemma central_get t (central : dict R) b : dget b (@central_wvl_map XRN t (dmap Fin central)) =
  option_map (fun e => Fin (snd e)) (find (fun e => String.eqb (std t (fst e)) b) (rev central)).
Proof.
  unfold central_wvl_map. rewrite <- (rev_involutive central). set (l := rev central). rewrite rev_involutive. clearbody l. clear central.
  unfold dmap. rewrite map_rev. induction l as [|[n c] l IH]; [reflexivity|].
  cbn [map rev]. rewrite fold_left_app. cbn [fold_left fst snd find]. fold (std t n). destruct (String.eqb_spec (std t n) b) as [<-|Hn].
  - cbn [option_map snd]. apply dget_dset_same.
  - rewrite dget_dset_other by congruence. exact IH.
Qed.

(** no standard name of a table is translated once more into another one *)
Definition no_alias (i : string) (t : dict string) : bool :=
  forallb (fun b => match (match dget i BANDNAMES with
                           | Some t' => match dget b t' with Some k => Some k | None => dget b BN_generic end
                           | None => dget b BN_generic end) with
                    | Some k => String.eqb k b | None => true end) (map snd t).
Lemma no_alias_ok i t : lower i = i -> has_char "/" i = false -> band_table i t -> no_alias (fake_instrument i) t = true.
Proof.
  intros Hl Hs T. unfold no_alias, fake_instrument. destruct (startswith i "avhrr") eqn:E.
  - assert (D : dget ("avhrr/" ++ last_char i) BANDNAMES = None).
    { cbn [dget BANDNAMES String.append String.eqb].
      repeat (match goal with |- context [if Ascii.eqb ?a ?b then _ else false] => let v := eval vm_compute in (Ascii.eqb a b) in change (Ascii.eqb a b) with v; cbv iota end).
      reflexivity. }
    rewrite D. apply prefix_iff in E. destruct T as [(_ & [[_ ->]|[_ ->]])|(T & _)]; [vm_compute; reflexivity|vm_compute; reflexivity|contradiction].
  - destruct T as [(T & _)|(_ & [T|[T ->]])]; [apply prefix_iff in T; congruence| |rewrite T; vm_compute; reflexivity].
    rewrite T. assert (In t (map snd BANDNAMES)).
    { clear - T. set (B := BANDNAMES) in *. clearbody B. induction B as [|[k v] B IH]; [discriminate|]. cbn in T. destruct (String.eqb i k); [injection T as <-; now left|right; auto]. }
    revert H. clear. intros H. assert (A : forallb (fun t => forallb (fun b => match (match dget b t with Some k => Some k | None => dget b BN_generic end) with Some k => String.eqb k b | None => true end) (map snd t)) (map snd BANDNAMES) = true) by (vm_compute; reflexivity).
    rewrite forallb_forall in A. exact (A t H).
Qed.

Lemma central_of i t (central : dict R) b : lower i = i -> has_char "/" i = false -> band_table i t -> In b (map snd t) ->
  @RSRDict_get (num XRN) (Some (IOne (fake_instrument i))) (central_wvl_map t (dmap Fin central)) b (nlit XRN 46 100) = Ok (Fin (wanted t central b)).
Proof.
  intros Hl Hs T Hb. pose proof (no_alias_ok i t Hl Hs T) as NA. unfold no_alias in NA. rewrite forallb_forall in NA. specialize (NA b Hb).
  unfold RSRDict_get, RSRDict_getitem. pose proof (central_get t central b) as G. unfold wanted. change (fun e : string * R => String.eqb (match dget (fst e) t with Some s => s | None => fst e end) b) with (fun e : string * R => String.eqb (std t (fst e)) b).
  destruct (find _ (rev central)) as [e|].
  - cbn [option_map] in G. rewrite G. reflexivity.
  - cbn [option_map] in G. rewrite G.
    assert (D : forall k, String.eqb k b = true -> dget k (@central_wvl_map XRN t (dmap Fin central)) = None) by (intros k K; apply String.eqb_eq in K; now subst).
    destruct (dget (fake_instrument i) BANDNAMES) as [t'|].
    + destruct (dget b t') as [k|]; [now rewrite (D k NA)|]. destruct (dget b BN_generic) as [k|]; [now rewrite (D k NA)|reflexivity].
    + destruct (dget b BN_generic) as [k|]; [now rewrite (D k NA)|reflexivity].
Qed.

Lemma fill_bands (cw : string -> XR) (mkb : XR -> band XRN) (get : string -> res XR) l :
  (forall b, In b l -> get b = Ok (cw b)) -> forall d,
  exists d', fold_left (fun acc b => a <- acc ;; c <- get b ;; Ok (dset b (mkb c) a)) l (Ok d) = Ok d' /\
    (NoDup (dkeys d) -> NoDup (dkeys d')) /\ (forall b, In b (dkeys d') <-> In b (dkeys d) \/ In b l) /\
    (forall b, In b l -> dget b d' = Some (mkb (cw b))) /\ (forall b, ~ In b l -> dget b d' = dget b d).
Proof.
  induction l as [|b l IH]; intros Hg d.
  - exists d. cbn. repeat split; auto; try tauto; intuition.
  - cbn [fold_left bind]. rewrite (Hg b (or_introl eq_refl)). cbn [bind].
    destruct (IH (fun b' H => Hg b' (or_intror H)) (dset b (mkb (cw b)) d)) as (d' & E & N & K & G & O).
    exists d'. split; [exact E|]. split; [intros H; apply N; now apply dset_nodup|]. split; [|split].
    + intros x. rewrite K, dset_keys_in. cbn. intuition.
    + intros x Hx. destruct (in_dec string_dec x l) as [I|I]; [now apply G|]. rewrite O by exact I. destruct Hx as [<-|Hx]; [apply dget_dset_same|contradiction].
    + intros x Hx. cbn in Hx. rewrite O by tauto. apply dget_dset_other. intuition.
Qed.

Lemma fake_info_ok dir (central : dict R) platform i t : lower i = i -> plain i -> plain platform -> band_table i t ->
  exists info, @create_fake_rsr_info XRN (dmap Fin central) (join dir (get_rsr_filename platform i)) = Ok info /\
    fi_platform_name info = platform /\ fi_instrument info = fake_instrument i /\ fi_band_names info = map snd t /\
    fi_description info = ("Relative Response for " ++ fake_instrument i)%string /\
    NoDup (dkeys (fi_rsr info)) /\ (forall b, In b (dkeys (fi_rsr info)) <-> In b (map snd t)) /\
    (forall b, In b (map snd t) -> dget b (fi_rsr info) = Some (saw_tooth (wanted t central b))).
Proof.
  intros Hl Hi Hp T. unfold create_fake_rsr_info. rewrite file_parts by assumption. cbn [idx nth_error of_option bind]. cbv zeta.
  rewrite (table_of i t Hl (proj2 Hi) T).
  change 1000%Z with (Z.of_nat 999 + 1)%Z.
  rewrite (linspace_lit 9 10000 1 1 999 (9 / 10000) 1) by lra. cbn [bind].
  rewrite (linspace_lit (-2) 100 2 100 999 (- (2 / 100)) (2 / 100)) by lra. cbn [bind].
  destruct (fill_bands (fun b => Fin (wanted t central b)) (fake_band (N := XRN) (map Fin (even_grid (- (2 / 100)) (2 / 100) 999)) (map Fin (even_grid (9 / 10000) 1 999)))
    (fun b => @RSRDict_get (num XRN) (Some (IOne (fake_instrument i))) (central_wvl_map t (dmap Fin central)) b (nlit XRN 46 100)) (map snd t)
    (fun b Hb => central_of i t central b Hl (proj2 Hi) T Hb) []) as (d & E & N & K & G & _).
  match goal with |- context [fold_left ?f ?l (Ok [])] => assert (E' : fold_left f l (Ok []) = Ok d) by exact E end.
  rewrite E'. cbn [bind]. eexists. split; [reflexivity|]. cbn [fi_platform_name fi_instrument fi_band_names fi_description fi_rsr].
  repeat split; auto.
  - apply N. constructor.
  - intros H. apply K in H. destruct H as [[]|H]. exact H.
  - intros H. apply K. now right.
  - intros b Hb. rewrite (G b Hb). unfold fake_band, saw_tooth. do 4 f_equal. f_equal.
    rewrite map_map. change (fun x : R => @nadd XRN (Fin x) (Fin (wanted t central b))) with (fun x : R => Fin (x + wanted t central b)).
    rewrite <- (map_map (fun x => x + wanted t central b) Fin), grid_shift. set (c := wanted t central b).
    replace (- (2 / 100) + c) with (c - 2 / 100) by lra. replace (2 / 100 + c) with (c + 2 / 100) by lra. reflexivity.
Qed.
