(** Vocabulary for C63. *)
From Coq Require Import ZArith String List.
From Verif Require Import Base M_Logging.

(** how often a record of level [lv] logged on [name] is printed by the console
    handler of logging_on *)
Definition printed (s : lstate) (name : string) (lv : Z) : nat :=
  List.length (filter (fun k => match k with Console => true | _ => false end) (emit s name lv)).

Import ListNotations.
Local Open Scope Z_scope.
(** a new interpreter; an application with a handler of its own *)
Definition log0 : lstate := {| root_level := 30; root_handlers := []; named := []; is_on := false |}.
Definition log1 : lstate := {| root_level := 30; root_handlers := [{| h_kind := Other 7; h_level := 0 |}]; named := []; is_on := false |}.
