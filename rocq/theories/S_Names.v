(** Specification vocabulary: band and instrument names, text values. *)
From Coq Require Import String Ascii List.
From Verif Require Import Base M_Tables M_Utils M_Rsr.
Import ListNotations.
Local Open Scope string_scope.

(** The standard name of a band alias: from the instrument's own table if that
    table lists the alias, otherwise from the generic table. *)
Definition std_name (i : instr) (key k' : string) : Prop :=
  (exists n t, i = Some (IOne n) /\ dget n BANDNAMES = Some t /\ dget key t = Some k') \/
  ((forall n t, i = Some (IOne n) -> dget n BANDNAMES = Some t -> dget key t = None) /\
   dget key BN_generic = Some k').

(** The instruments of a platform *)
Definition carries (platform inst : string) : Prop :=
  dget platform INSTRUMENTS = Some (IOne inst) \/
  exists l, dget platform INSTRUMENTS = Some (IList l) /\ In inst l.

(** Characters *)
Definition lower_case (s : string) : Prop :=
  forall n c, String.get n s = Some c -> ~ (65 <= nat_of_ascii c <= 90).
Definition without (c : ascii) (s : string) : Prop := has_char c s = false.

(** A name with case, dashes and slashes removed *)
Definition normal_form (s : string) : string := remove_char "-" (remove_char "/" (lower s)).

(** [holds_text v s]: [v] is (or wraps exactly one piece of) text [s]. *)
Inductive holds_text : textval -> string -> Prop :=
| ht_str s : holds_text (TStr s) s
| ht_bytes s : utf8_valid s = true -> holds_text (TBytes s) s
| ht_str1 s : holds_text (TStrArray [s]) s
| ht_bytes1 s : utf8_valid s = true -> holds_text (TBytesArray [s]) s
| ht_obj_str s : holds_text (TObjArray [TStr s]) s
| ht_obj_bytes s : utf8_valid s = true -> holds_text (TObjArray [TBytes s]) s.

(** wraps one byte string that is not UTF-8 *)
Inductive bad_bytes : textval -> Prop :=
| bb_bytes s : utf8_valid s = false -> bad_bytes (TBytes s)
| bb_bytes1 s : utf8_valid s = false -> bad_bytes (TBytesArray [s])
| bb_obj s : utf8_valid s = false -> bad_bytes (TObjArray [TBytes s]).

(** a one-element object array holding something other than text *)
Definition boxed_nontext (v : textval) : Prop :=
  exists x, v = TObjArray [x] /\ (forall s, x <> TStr s) /\ (forall s, x <> TBytes s).

(** a string of decimal digits *)
Fixpoint all_digits (s : string) : bool :=
  match s with EmptyString => true | String c t => andb (byte_in 48 57 c) (all_digits t) end.
