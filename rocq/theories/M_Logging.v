(** Logging set-up of pyspectral: utils.py:472-516, on a model of the standard
    library's logging package (root logger, loggers by dotted name, handlers).
    Not modelled: levels, filters and propagate flags set by hand on named
    loggers, logging.disable, message formatting. *)
From Coq Require Import ZArith String Ascii List Bool.
From Verif Require Import Base.
Import ListNotations.
Local Open Scope Z_scope.

(** [Console]: the StreamHandler made by logging_on; [Null]: utils.py:499-503;
    [Other n]: a handler installed by someone else; [LastResort]: the handler the
    logging package falls back to. *)
Inductive hkind := Console | Null | Other (n : nat) | LastResort.
Record handler := { h_kind : hkind; h_level : Z }.

(** the process-wide state: root logger, other loggers (their handlers, by
    name), and utils.py:477 *)
Record lstate := { root_level : Z; root_handlers : list handler; named : list (string * list handler); is_on : bool }.

(** the level argument of utils.py:480, 489, 494 *)
Inductive level := Level (z : Z) | BadLevel.        (* an unknown level name raises ValueError *)
(** utils.py:474, 480 *)
Definition DEBUG := 10. Definition WARNING := 30.

(** getLogger("") and getLogger("root") are the root logger *)
(** getLogger, utils.py:490, 493, 508, 513 *)
Definition is_root (name : string) : bool := (String.eqb name "" || String.eqb name "root")%bool.

(** getLogger, utils.py:490, 493, 508, 513 *)
Definition handlers_of (s : lstate) (name : string) : list handler :=
  if is_root name then root_handlers s else match dget name (named s) with Some l => l | None => [] end.
Definition with_handlers (s : lstate) (name : string) (l : list handler) : lstate :=
  if is_root name then {| root_level := root_level s; root_handlers := l; named := named s; is_on := is_on s |}
  else {| root_level := root_level s; root_handlers := root_handlers s; named := dset name l (named s); is_on := is_on s |}.

(** utils.py:480-496.  A bad level fails at console.setLevel or log.setLevel,
    before anything is changed. *)
Definition logging_on (lv : level) (s : lstate) : lstate * res unit :=
  match lv with
  | BadLevel => (s, Err ValueError)
  | Level z =>
      let hs := if is_on s then root_handlers s else (root_handlers s ++ [{| h_kind := Console; h_level := z |}])%list in
      ({| root_level := z; root_handlers := map (fun h => {| h_kind := h_kind h; h_level := z |}) hs; named := named s; is_on := true |}, Ok tt)
  end.
(** utils.py:472-474 *)
Definition debug_on (s : lstate) : lstate * res unit := logging_on (Level DEBUG) s.
(** utils.py:506-508 *)
Definition logging_off (s : lstate) : lstate * res unit :=
  ({| root_level := root_level s; root_handlers := [{| h_kind := Null; h_level := 0 |}]; named := named s; is_on := is_on s |}, Ok tt).
(** utils.py:511-516 *)
Definition get_logger (name : string) (s : lstate) : lstate * res unit :=
  match handlers_of s name with
  | [] => (with_handlers s name [{| h_kind := Null; h_level := 0 |}], Ok tt)
  | _ => (s, Ok tt)
  end.

(** what the library's user can do; the last two stand for other code *)
(** calls of utils.py:472-516 in any order *)
Inductive op := On (lv : level) | DebugOn | Off | GetLogger (name : string)
  | AddHandler (name : string) (n : nat) (lv : Z) | SetRootLevel (lv : Z).
Definition run (o : op) (s : lstate) : lstate * res unit :=
  match o with
  | On lv => logging_on lv s | DebugOn => debug_on s | Off => logging_off s | GetLogger name => get_logger name s
  | AddHandler name n lv => (with_handlers s name (handlers_of s name ++ [{| h_kind := Other n; h_level := lv |}])%list, Ok tt)
  | SetRootLevel lv => ({| root_level := lv; root_handlers := root_handlers s; named := named s; is_on := is_on s |}, Ok tt)
  end.
(** a history; the user may catch the ValueErrors *)
(** calls of utils.py:472-516 in any order *)
Definition history (ops : list op) (s : lstate) : lstate := fold_left (fun s o => fst (run o s)) ops s.

(** logging.Logger.callHandlers: the loggers from [name] up to the root: name,
    then what is left of its last dot, ... *)
(** logging.Logger, the library behind utils.py:490-516 *)
Fixpoint ancestors_aux (acc rest : string) : list string :=
  match rest with
  | EmptyString => [acc]
  | String c t => if Ascii.eqb c "." then (ancestors_aux (acc ++ String c "") t ++ [acc])%list else ancestors_aux (acc ++ String c "") t
  end.
Definition chain (s : lstate) (name : string) : list handler :=
  if is_root name then root_handlers s
  else (flat_map (fun n => match dget n (named s) with Some l => l | None => [] end) (ancestors_aux "" name) ++ root_handlers s)%list.
(** the handlers that handle a record of level [lv] logged on [name] *)
(** logging.Logger, the library behind utils.py:490-516 *)
Definition emit (s : lstate) (name : string) (lv : Z) : list hkind :=
  if lv <? root_level s then []
  else match chain s name with
       | [] => if WARNING <=? lv then [LastResort] else []
       | hs => map h_kind (filter (fun h => h_level h <=? lv) hs)
       end.
(** the interpreter before pyspectral is used: no handler of pyspectral's *)
(** the state when utils.py:477 has been executed *)
Definition fresh (s : lstate) : Prop :=
  is_on s = false /\ Forall (fun h => h_kind h <> Console) (root_handlers s) /\
  forall n l, In (n, l) (named s) -> Forall (fun h => h_kind h <> Console) l.
