(** Specification vocabulary: several processes on one directory. *)
From Coq Require Import String List.
From Verif Require Import Base M_World M_Procs.
Import ListNotations.
Local Open Scope string_scope.

(** what a name shows *)
Definition shows (fs : fsys) (p : string) : option string :=
  match dget p (fs_names fs) with Some i => nth_error (fs_bytes fs) i | None => None end.
(** every name stands for an existing file, and no two for the same one *)
Definition proper (fs : fsys) : Prop :=
  (forall p i, dget p (fs_names fs) = Some i -> i < List.length (fs_bytes fs)) /\
  (forall p q i, dget p (fs_names fs) = Some i -> dget q (fs_names fs) = Some i -> p = q).
(** ended normally *)
Definition fine (p : proc) : Prop := p = Ret (Ok tt).

(** does not open or remove [local] *)
Definition spares (local : string) (c : call) : Prop :=
  match c with COpenW p | COpenR p | CUnlink p => p <> local | _ => True end.
Inductive leaves_alone (local : string) : proc -> Prop :=
| la_ret r : leaves_alone local (Ret r)
| la_do c k : spares local c -> (forall r, leaves_alone local (k r)) -> leaves_alone local (Do c k).

(** opens and removes only [paths] and writes only to files it has opened so *)
Inductive keeps_to (paths : string -> Prop) : list nat -> proc -> Prop :=
| kt_ret own r : keeps_to paths own (Ret r)
| kt_openw own p k : paths p -> (forall i, keeps_to paths (i :: own) (k (RFile i))) ->
    (forall r, (forall i, r <> RFile i) -> keeps_to paths own (k r)) -> keeps_to paths own (Do (COpenW p) k)
| kt_write own i pos s k : In i own -> (forall r, keeps_to paths own (k r)) -> keeps_to paths own (Do (CWrite i pos s) k)
| kt_openr own p k : (forall r, keeps_to paths own (k r)) -> keeps_to paths own (Do (COpenR p) k)
| kt_read own i pos len k : (forall r, keeps_to paths own (k r)) -> keeps_to paths own (Do (CRead i pos len) k)
| kt_unlink own p k : paths p -> (forall r, keeps_to paths own (k r)) -> keeps_to paths own (Do (CUnlink p) k).
