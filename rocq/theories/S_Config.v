(** Specification vocabulary: paths in configuration trees. *)
From Coq Require Import String List Bool.
From Verif Require Import Base M_World.
Import ListNotations.
Local Open Scope string_scope.

(** the subtree at a path *)
Fixpoint at_path (p : list string) (c : cfg) : option cfg :=
  match p with
  | [] => Some c
  | k :: q => match c with
              | CMap m => match dget k m with Some c' => at_path q c' | None => None end
              | Leaf _ => None
              end
  end.

(** dictionaries have each key once, at every level *)
Fixpoint well_formed (c : cfg) : Prop :=
  match c with
  | Leaf _ => True
  | CMap m => NoDup (dkeys m) /\
              (fix all (m : list (string * cfg)) : Prop :=
                 match m with [] => True | (_, v) :: t => well_formed v /\ all t end) m
  end.

(** [u] says nothing about the path [p]: at some point along [p] there is a
    mapping in [u] without the next key *)
Definition untouched (p : list string) (u : cfg) : Prop :=
  exists q k r m, p = (q ++ k :: r)%list /\ at_path q u = Some (CMap m) /\ dget k m = None.

(** a non-empty mapping of [u] meets a non-mapping of [d] *)
Definition conflict_at (p : list string) (d u : cfg) : Prop :=
  exists l k v t, at_path p d = Some (Leaf l) /\ at_path p u = Some (CMap ((k, v) :: t)).
