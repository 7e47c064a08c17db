(** Logging: property C63. *)
From Coq Require Import ZArith String List Bool Lia.
From Verif Require Import Base M_Logging S_Logging P_Logging.
Import ListNotations.
Local Open Scope Z_scope.

(** Along any history of calls, with other code adding handlers in between, no
    record is printed twice by pyspectral's console. *)
Theorem C63_printed_at_most_once : forall s ops name lv, fresh s -> (printed (history ops s) name lv <= 1)%nat.
Proof. exact at_most_once. Qed.
Print Assumptions C63_printed_at_most_once.

(** If logging was never switched off, then after logging_on(z) a record is
    printed exactly once if its level is at least z, else not. *)
Theorem C63_on : forall s ops z name lv, fresh s -> ~ In Off ops ->
  printed (history (ops ++ [On (Level z)]) s) name lv = (if (z <=? lv)%Z then 1 else 0)%nat.
Proof. exact on_prints. Qed.
Print Assumptions C63_on.

(** debug_on is logging_on with the level of debug records, 10. *)
Theorem C63_debug_on : forall s ops name lv, fresh s -> ~ In Off ops ->
  printed (history (ops ++ [DebugOn]) s) name lv = (if (10 <=? lv)%Z then 1 else 0)%nat.
Proof. exact debug_prints. Qed.
Print Assumptions C63_debug_on.

(** After logging_off a record reaches only null handlers, and handlers that
    someone attached to a named logger.  (Handlers that others attached to the
    root logger are gone.) *)
Theorem C63_off : forall s ops name lv k, fresh s -> In k (emit (history (ops ++ [Off]) s) name lv) ->
  k = Null \/ (is_root name = false /\ exists n l h, In (n, l) (named (history ops s)) /\ In h l /\ h_kind h = k /\ k <> Console).
Proof. exact off_emit. Qed.
Print Assumptions C63_off.

(** Once switched on and later off, nothing is ever printed again, whatever
    follows -- also logging_on or debug_on. *)
Theorem C63_on_after_off_is_silent : forall s a o b c name lv, fresh s -> (o = DebugOn \/ exists z, o = On (Level z)) ->
  printed (history (a ++ o :: b ++ Off :: c) s) name lv = 0%nat.
Proof. exact on_off_silent. Qed.
Print Assumptions C63_on_after_off_is_silent.

(** get_logger(name) leaves the logger with a handler for ever (so the logging
    package's fallback to stderr is not used), and asking again changes nothing. *)
Theorem C63_get_logger : forall s a name b,
  fst (get_logger name (history (a ++ GetLogger name :: b) s)) = history (a ++ GetLogger name :: b) s /\
  chain (history (a ++ GetLogger name :: b) s) name <> [].
Proof. exact library_logger. Qed.
Print Assumptions C63_get_logger.

(** a new interpreter; an application with a handler of its own (S_Logging) *)
Example C63_case0 : fresh log0. Proof. repeat split; [constructor|intros n l []]. Qed.
Example C63_case1 : fresh log1. Proof. repeat split; [repeat constructor; discriminate|intros n l []]. Qed.
Example C63_case3 :
  emit (history [GetLogger "pyspectral.utils"; On (Level 40); DebugOn] log1) "pyspectral.utils" 10 = [Null; Other 7; Console] /\
  emit (history [GetLogger "pyspectral.utils"; On (Level 40); DebugOn] log1) "pyspectral.utils" 9 = [].
Proof. repeat split; vm_compute; reflexivity. Qed.
Example C63_case2 :
  emit log0 "pyspectral.utils" 40 = [LastResort] /\
  emit (history [GetLogger "pyspectral.utils"] log0) "pyspectral.utils" 40 = [Null] /\
  emit (history [GetLogger "pyspectral.utils"; On (Level 20)] log1) "pyspectral.utils" 20 = [Null; Other 7; Console] /\
  emit (history [GetLogger "pyspectral.utils"; On (Level 20)] log1) "pyspectral.utils" 10 = [] /\
  emit (history [GetLogger "pyspectral.utils"; On (Level 20); Off] log1) "pyspectral.utils" 20 = [Null; Null] /\
  emit (history [GetLogger "pyspectral.utils"; On (Level 20); Off; DebugOn] log1) "pyspectral.utils" 20 = [Null; Null].
Proof. repeat split; vm_compute; reflexivity. Qed.
