(** Specification vocabulary: UTF-8 as a way of writing Unicode code points. *)
From Coq Require Import NArith String Ascii List.
Import ListNotations.
Local Open Scope N_scope.

(** what a Python string can hold and UTF-8 can write: no surrogates *)
Definition scalar_value (n : N) : Prop := n < 0xD800 \/ 0xE000 <= n < 0x110000.

(** The bytes of a code point: the shortest form with 7, 11, 16 or 21 bits. *)
Definition utf8_bytes (n : N) : list N :=
  if n <? 0x80 then [n]
  else if n <? 0x800 then [0xC0 + n / 64; 0x80 + n mod 64]
  else if n <? 0x10000 then [0xE0 + n / 4096; 0x80 + (n / 64) mod 64; 0x80 + n mod 64]
  else [0xF0 + n / 262144; 0x80 + (n / 4096) mod 64; 0x80 + (n / 64) mod 64; 0x80 + n mod 64].

Definition of_bytes (l : list N) : string := fold_right (fun b s => String (ascii_of_N b) s) EmptyString l.

(** [s] is the UTF-8 form of some text *)
Definition utf8_text (s : string) : Prop :=
  exists l, Forall scalar_value l /\ s = of_bytes (concat (map utf8_bytes l)).
