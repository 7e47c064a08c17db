(** Foundations shared by all model files: Python exceptions as values,
    insertion-ordered dictionaries, and the few string methods the code uses. *)
From Coq Require Import String Ascii List Bool Arith ZArith Lia.
Import ListNotations.
Open Scope string_scope.

(** Python exception classes that the modelled code can raise.  [IOError] and
    [OSError] are the same class in Python 3; [FileNotFoundError] is a subclass. *)
Inductive exn : Type :=
| KeyError | ValueError | AttributeError | NotImplementedError | IndexError
| TypeError | FileNotFoundError | OSError | HTTPError | UnicodeDecodeError
| TarReadError | NetworkError | OverflowError | ZeroDivisionError | RuntimeError
| BadZipFile | YAMLError.

Definition exn_eqb (a b : exn) : bool :=
  match a, b with
  | KeyError, KeyError | ValueError, ValueError | AttributeError, AttributeError
  | NotImplementedError, NotImplementedError | IndexError, IndexError
  | TypeError, TypeError | FileNotFoundError, FileNotFoundError | OSError, OSError
  | HTTPError, HTTPError | UnicodeDecodeError, UnicodeDecodeError
  | TarReadError, TarReadError | NetworkError, NetworkError
  | OverflowError, OverflowError | ZeroDivisionError, ZeroDivisionError
  | RuntimeError, RuntimeError | BadZipFile, BadZipFile | YAMLError, YAMLError => true
  | _, _ => false
  end.

(** A Python computation: a value or a raised exception. *)
Inductive res (A : Type) : Type :=
| Ok (a : A)
| Err (e : exn).
Arguments Ok {A} a.
Arguments Err {A} e.

Definition bind {A B} (x : res A) (f : A -> res B) : res B :=
  match x with Ok a => f a | Err e => Err e end.
Notation "x <- e1 ;; e2" := (bind e1 (fun x => e2))
  (at level 61, e1 at next level, right associativity).
Notation "' p <- e1 ;; e2" := (bind e1 (fun p => e2))
  (at level 61, p pattern, e1 at next level, right associativity).

Definition is_ok {A} (x : res A) : bool := match x with Ok _ => true | Err _ => false end.

(** Lift a partial lookup to a Python exception. *)
Definition of_option {A} (e : exn) (o : option A) : res A :=
  match o with Some a => Ok a | None => Err e end.

Fixpoint mapM {A B} (f : A -> res B) (l : list A) : res (list B) :=
  match l with
  | [] => Ok []
  | a :: t => b <- f a ;; bs <- mapM f t ;; Ok (b :: bs)
  end.

(** ** Python [dict]: association list in insertion order. *)
Notation dict V := (list (string * V)%type).

Fixpoint dget {V} (k : string) (d : dict V) : option V :=
  match d with
  | [] => None
  | (k', v) :: t => if String.eqb k k' then Some v else dget k t
  end.

Definition dhas {V} (k : string) (d : dict V) : bool :=
  match dget k d with Some _ => true | None => false end.

(** [d[k] = v]: replaces in place, else appends. *)
Fixpoint dset {V} (k : string) (v : V) (d : dict V) : dict V :=
  match d with
  | [] => [(k, v)]
  | (k', v') :: t => if String.eqb k k' then (k', v) :: t else (k', v') :: dset k v t
  end.

Fixpoint ddel {V} (k : string) (d : dict V) : dict V :=
  match d with
  | [] => []
  | (k', v') :: t => if String.eqb k k' then t else (k', v') :: ddel k t
  end.

(** [d.update(other)] *)
Definition dupdate {V} (d other : dict V) : dict V :=
  fold_left (fun acc kv => dset (fst kv) (snd kv) acc) other d.

Definition dkeys {V} (d : dict V) : list string := map fst d.

Definition dmap {V W} (f : V -> W) (d : dict V) : dict W :=
  map (fun kv => (fst kv, f (snd kv))) d.

(** ** Strings (byte strings; Python [str] restricted to its UTF-8 bytes). *)
Definition lower_ascii (c : ascii) : ascii :=
  let n := nat_of_ascii c in
  if (65 <=? n)%nat && (n <=? 90)%nat then ascii_of_nat (n + 32) else c.

Fixpoint smap (f : ascii -> ascii) (s : string) : string :=
  match s with EmptyString => EmptyString | String c t => String (f c) (smap f t) end.

(** [s.lower()] on ASCII letters. *)
Definition lower (s : string) : string := smap lower_ascii s.

(** [s.replace(c, "")] for a one-character [c]. *)
Fixpoint remove_char (c : ascii) (s : string) : string :=
  match s with
  | EmptyString => EmptyString
  | String c' t => if Ascii.eqb c c' then remove_char c t else String c' (remove_char c t)
  end.

(** [s.replace(c, d)] for one-character [c] and [d]. *)
Definition replace_char (c d : ascii) (s : string) : string :=
  smap (fun x => if Ascii.eqb c x then d else x) s.

Fixpoint has_char (c : ascii) (s : string) : bool :=
  match s with
  | EmptyString => false
  | String c' t => Ascii.eqb c c' || has_char c t
  end.

(** [s.endswith(suf)] *)
Definition endswith (s suf : string) : bool :=
  (String.length suf <=? String.length s)%nat &&
  String.eqb (substring (String.length s - String.length suf) (String.length suf) s) suf.

(** [s.startswith(p)] *)
Definition startswith (s p : string) : bool := String.prefix p s.

Definition existsb_str (s : string) (l : list string) : bool := existsb (String.eqb s) l.

(** ** Lemmas *)
Lemma dget_dset_same {V} k (v : V) d : dget k (dset k v d) = Some v.
Proof.
  induction d as [|[k' v'] t IH]; simpl.
  - now rewrite String.eqb_refl.
  - destruct (String.eqb k k') eqn:E; simpl; rewrite E; auto.
Qed.

Lemma dget_dset_other {V} k k' (v : V) d : k <> k' -> dget k' (dset k v d) = dget k' d.
Proof.
  intros Hne. induction d as [|[k2 v2] t IH]; simpl.
  - destruct (String.eqb k' k) eqn:E; auto. apply String.eqb_eq in E. congruence.
  - destruct (String.eqb k k2) eqn:E; simpl.
    + apply String.eqb_eq in E; subst k2.
      destruct (String.eqb k' k) eqn:E2; auto. apply String.eqb_eq in E2; congruence.
    + destruct (String.eqb k' k2); auto.
Qed.

Lemma dget_dset {V} k k' (v : V) d :
  dget k' (dset k v d) = if String.eqb k' k then Some v else dget k' d.
Proof.
  destruct (String.eqb k' k) eqn:E.
  - apply String.eqb_eq in E; subst. apply dget_dset_same.
  - apply dget_dset_other. intros ->. rewrite String.eqb_refl in E. discriminate.
Qed.

Lemma dget_ddel_other {V} k k' (d : dict V) : k <> k' -> dget k' (ddel k d) = dget k' d.
Proof.
  intros Hne. induction d as [|[k2 v2] t IH]; simpl; auto.
  destruct (String.eqb k k2) eqn:E; simpl.
  - apply String.eqb_eq in E; subst k2.
    destruct (String.eqb k' k) eqn:E2; auto. apply String.eqb_eq in E2; congruence.
  - destruct (String.eqb k' k2); auto.
Qed.

Lemma dget_None_notin {V} k (d : dict V) : dget k d = None <-> ~ In k (dkeys d).
Proof.
  induction d as [|[k2 v2] t IH]; simpl.
  - tauto.
  - destruct (String.eqb k k2) eqn:E.
    + apply String.eqb_eq in E; subst. split; [discriminate | intros H; exfalso; tauto].
    + apply String.eqb_neq in E. rewrite IH. split.
      * intros H [H1|H1]; congruence.
      * tauto.
Qed.

Lemma dget_Some_in {V} k (v : V) d : dget k d = Some v -> In (k, v) d.
Proof.
  induction d as [|[k2 v2] t IH]; simpl; [discriminate|].
  destruct (String.eqb k k2) eqn:E.
  - apply String.eqb_eq in E; subst. intros [= ->]; auto.
  - auto.
Qed.

Lemma dget_in_nodup {V} k (v : V) d : NoDup (dkeys d) -> In (k, v) d -> dget k d = Some v.
Proof.
  induction d as [|[k2 v2] t IH]; simpl; [tauto|].
  intros Hnd [H|H].
  - injection H as -> ->. now rewrite String.eqb_refl.
  - inversion Hnd; subst. destruct (String.eqb k k2) eqn:E.
    + apply String.eqb_eq in E; subst. exfalso. apply H2.
      apply (in_map fst) in H. exact H.
    + auto.
Qed.

Lemma dget_dmap {V W} (f : V -> W) k d : dget k (dmap f d) = option_map f (dget k d).
Proof.
  induction d as [|[k2 v2] t IH]; simpl; auto.
  destruct (String.eqb k k2); auto.
Qed.

Lemma dkeys_dmap {V W} (f : V -> W) d : dkeys (dmap f d) = dkeys d.
Proof. unfold dkeys, dmap. rewrite map_map. apply map_ext. auto. Qed.

Lemma dset_keys_in {V} k (v : V) d k' : In k' (dkeys (dset k v d)) <-> k' = k \/ In k' (dkeys d).
Proof.
  induction d as [|[k2 v2] t IH]; simpl.
  - intuition.
  - destruct (String.eqb k k2) eqn:E; simpl.
    + apply String.eqb_eq in E; subst. intuition congruence.
    + rewrite IH. intuition congruence.
Qed.

Lemma dset_nodup {V} k (v : V) d : NoDup (dkeys d) -> NoDup (dkeys (dset k v d)).
Proof.
  induction d as [|[k2 v2] t IH]; simpl; intros Hnd.
  - repeat constructor. auto.
  - inversion Hnd; subst. destruct (String.eqb k k2) eqn:E; simpl.
    + constructor; auto.
    + constructor; auto. rewrite dset_keys_in. intros [->|H]; auto.
      now rewrite String.eqb_refl in E.
Qed.

Lemma has_char_remove_same c s : has_char c (remove_char c s) = false.
Proof.
  induction s as [|c' t IH]; simpl; auto.
  destruct (Ascii.eqb c c') eqn:E; simpl; auto. now rewrite E.
Qed.

Lemma has_char_remove_other c d s : has_char c s = false -> has_char c (remove_char d s) = false.
Proof.
  induction s as [|c' t IH]; simpl; auto.
  rewrite orb_false_iff. intros [H1 H2].
  destruct (Ascii.eqb d c'); simpl; auto. rewrite H1. simpl. auto.
Qed.

Lemma remove_char_id c s : has_char c s = false -> remove_char c s = s.
Proof.
  induction s as [|c' t IH]; simpl; auto.
  rewrite orb_false_iff. intros [H1 H2]. rewrite H1. now rewrite IH.
Qed.

Lemma mapM_length {A B} (f : A -> res B) l r : mapM f l = Ok r -> length r = length l.
Proof.
  revert r; induction l as [|a t IH]; simpl; intros r H.
  - now injection H as <-.
  - destruct (f a); simpl in H; [|discriminate].
    destruct (mapM f t) eqn:E; simpl in H; [|discriminate].
    injection H as <-. simpl. now rewrite (IH a1).
Qed.

Lemma mapM_ok {A B} (f : A -> B) l : mapM (fun a => Ok (f a)) l = Ok (map f l).
Proof. induction l; simpl; auto. now rewrite IHl. Qed.
