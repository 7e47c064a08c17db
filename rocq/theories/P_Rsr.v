(** Lemmas about response dictionaries: convert2wavenumber etc. *)
From Coq Require Import String Ascii List Bool Arith ZArith Lia.
From Verif Require Import Base NumSig M_Tables M_Utils M_Rsr S_Rsr.
Import ListNotations.
Local Open Scope string_scope.

Lemma fold_left_err {A B} (g : A -> B -> res A) l e :
  fold_left (fun acc k => bind acc (fun a => g a k)) l (Err e) = Err e.
Proof. induction l; simpl; auto. Qed.

Lemma dget_app {V} k (a b : dict V) :
  dget k (a ++ b)%list = match dget k a with Some v => Some v | None => dget k b end.
Proof.
  induction a as [|[k' v] a IH]; simpl; auto. destruct (String.eqb k k'); auto.
Qed.

Lemma dset_app_new {V} k (v : V) d : ~ In k (dkeys d) -> dset k v d = (d ++ [(k, v)])%list.
Proof.
  induction d as [|[k' v'] d IH]; simpl; intros H; auto.
  destruct (String.eqb_spec k k') as [->|Hne]; [exfalso; auto|]. f_equal. apply IH. auto.
Qed.

(** Filling a new dictionary key by key from an old one is a map. *)
Lemma fold_dict {V W} (f : V -> res W) (d : dict V) : NoDup (dkeys d) ->
  fold_left (fun acc k => bind acc (fun a =>
               v <- of_option KeyError (dget k d) ;; w <- f v ;; Ok (dset k w a)))
            (dkeys d) (Ok []) =
  mapM (fun kv => w <- f (snd kv) ;; Ok (fst kv, w)) d.
Proof.
  intros Hnd.
  enough (G : forall suf pre acc, d = (pre ++ suf)%list -> dkeys acc = dkeys pre ->
    fold_left (fun acc k => bind acc (fun a =>
               v <- of_option KeyError (dget k d) ;; w <- f v ;; Ok (dset k w a)))
            (dkeys suf) (Ok acc) =
    (r <- mapM (fun kv => w <- f (snd kv) ;; Ok (fst kv, w)) suf ;; Ok (acc ++ r)%list)).
  { etransitivity; [apply (G d [] []); auto|]. destruct (mapM _ d); reflexivity. }
  induction suf as [|[k v] suf IH]; intros pre acc Hd Hk; simpl.
  - now rewrite app_nil_r.
  - assert (Hk' : dget k d = Some v).
    { apply dget_in_nodup; auto. rewrite Hd. apply in_or_app. right. now left. }
    rewrite Hk'. simpl. destruct (f v) as [w|e]; simpl.
    + assert (Hnew : ~ In k (dkeys acc)).
      { rewrite Hk. intros Hin. rewrite Hd in Hnd. unfold dkeys in Hnd. rewrite map_app in Hnd.
        simpl in Hnd. apply NoDup_remove_2 in Hnd. apply Hnd. apply in_or_app. now left. }
      rewrite dset_app_new by auto.
      rewrite (IH (pre ++ [(k, v)])%list (acc ++ [(k, w)])%list).
      * destruct (mapM _ suf); simpl; auto. now rewrite <- app_assoc.
      * rewrite Hd, <- app_assoc. reflexivity.
      * unfold dkeys in *. rewrite !map_app, Hk. reflexivity.
    + apply (fold_left_err (fun a k => v <- of_option KeyError (dget k d) ;; w <- f v ;; Ok (dset k w a))).
Qed.

Lemma fold_left_ext {A B} (f g : A -> B -> A) l a : (forall x y, f x y = g x y) ->
  fold_left f l a = fold_left g l a.
Proof. intros H. revert a; induction l; simpl; intros; auto. now rewrite H. Qed.

Section N.
  Context {N : Num}.

  Definition det2wn (d : detector N) : res (detector N) :=
    if dhas "wavenumber" d then Ok d else detector2wavenumber d.

  Lemma band2wn_eq (b : band N) : NoDup (dkeys b) ->
    band2wavenumber b = mapM (fun kv => w <- det2wn (snd kv) ;; Ok (fst kv, w)) b.
  Proof.
    intros H. rewrite <- fold_dict by auto. unfold band2wavenumber.
    apply fold_left_ext. intros [a|e] k; simpl; auto.
    destruct (dget k b) as [d|]; simpl; auto. unfold det2wn. destruct (dhas "wavenumber" d); auto.
  Qed.

  Lemma convert_eq (d : rsrdata N) : NoDup (dkeys d) ->
    convert2wavenumber d =
    (r <- mapM (fun kv => w <- band2wavenumber (snd kv) ;; Ok (fst kv, w)) d ;;
     Ok (r, ("cm-1", nlit N 100 1))).
  Proof. intros H. unfold convert2wavenumber. now rewrite <- fold_dict. Qed.

  Definition reader_det2wn (d : detector N) : detector N :=
    match d with
    | [("response", VArr r); ("wavelength", VArr w); _] =>
        [("response", VArr (rev r)); ("wavenumber", VArr (rev (map wl2wn w)))]
    | _ => d
    end.

  Lemma det2wn_reader (d : detector N) : reader_det d -> det2wn d = Ok (reader_det2wn d).
  Proof. intros (r & w & c & ->). reflexivity. Qed.

  Lemma mapM_dmap {V W} (f : V -> res W) (g : V -> W) (d : dict V) :
    Forall (fun kv => f (snd kv) = Ok (g (snd kv))) d ->
    mapM (fun kv => w <- f (snd kv) ;; Ok (fst kv, w)) d = Ok (dmap g d).
  Proof.
    induction 1 as [|[k v] d H _ IH]; simpl in *; auto. now rewrite H, IH.
  Qed.

  Lemma convert_reader (d : rsrdata N) : reader_shaped d ->
    convert2wavenumber d = Ok (dmap (dmap reader_det2wn) d, ("cm-1", nlit N 100 1)).
  Proof.
    intros [H1 H2]. rewrite convert_eq by auto.
    rewrite (mapM_dmap _ (dmap reader_det2wn)); auto.
    apply Forall_forall. intros [k b] Hin. rewrite Forall_forall in H2.
    destruct (H2 _ Hin) as [H3 H4]. simpl in *. rewrite band2wn_eq by auto.
    apply mapM_dmap. apply Forall_forall. intros [k' v] Hin'. rewrite Forall_forall in H4.
    apply det2wn_reader. apply (H4 _ Hin').
  Qed.

  Lemma dget_reader_band (d : rsrdata N) b bd : reader_shaped d -> dget b d = Some bd ->
    NoDup (dkeys bd) /\ Forall (fun dv => reader_det (snd dv)) bd.
  Proof.
    intros [_ H] Hg. apply dget_Some_in in Hg. rewrite Forall_forall in H. apply (H _ Hg).
  Qed.
  Lemma dget_reader_det (bd : band N) k dd : Forall (fun dv => reader_det (snd dv)) bd ->
    dget k bd = Some dd -> reader_det dd.
  Proof. intros H Hg. apply dget_Some_in in Hg. rewrite Forall_forall in H. apply (H _ Hg). Qed.

  Lemma converted_no_cw (d : detector N) : reader_det d ->
    dget "central_wavelength" (reader_det2wn d) = None.
  Proof. intros (r & w & c & ->). reflexivity. Qed.

  (** In converted data no band can be found by wavelength. *)
  Lemma bandname_converted sensor x (d : rsrdata N) eps m : reader_shaped d ->
    get_bandname_from_wavelength sensor x (dmap (dmap reader_det2wn) d) eps m
    = match d with [] => Ok BNone | _ => Err KeyError end.
  Proof.
    intros H. destruct d as [|[k b] d]; [reflexivity|].
    unfold get_bandname_from_wavelength. set (g := dmap reader_det2wn). cbn [dmap map dkeys fst snd fold_left bind].
    cbn [dget]. rewrite String.eqb_refl. cbn [of_option bind].
    replace (dget "det-1" (g b)) with (option_map reader_det2wn (dget "det-1" b))
      by (symmetry; apply dget_dmap). destruct H as [_ H]. inversion H as [|? ? [_ H3] _]; subst. simpl in H3.
    match goal with |- bind (fold_left ?g ?l _) _ = _ => 
      assert (Hb : forall e, fold_left g l (Err e) = Err e) end.
    { intros e. match goal with |- fold_left _ ?l _ = _ => generalize l as l0 end.
      intros l0; induction l0; simpl; auto. }
    destruct (dget "det-1" b) eqn:E; cbn [option_map of_option bind].
    - pose proof (dget_reader_det _ _ _ H3 E) as Hd. unfold get_num.
      rewrite converted_no_cw by auto. cbn [bind]. now rewrite Hb.
    - now rewrite Hb.
  Qed.
End N.
