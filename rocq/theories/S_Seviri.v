(** Specification: which SEVIRI satellites and band names have coefficients. *)
From Coq Require Import Reals String List.
Import ListNotations.
Local Open Scope string_scope.

Definition seviri_satellites : list string := ["Meteosat-8"; "Meteosat-9"].
Definition seviri_internal : list string :=
  ["IR3.9"; "WV6.2"; "WV7.3"; "IR8.7"; "IR9.7"; "IR10.8"; "IR12.0"; "IR13.4"].
Definition seviri_aliases : list string :=
  ["IR_039"; "IR_087"; "IR_097"; "IR_108"; "IR_120"; "IR_134"].
Definition seviri_supported (platform band : string) : Prop :=
  In platform seviri_satellites /\ (In band seviri_internal \/ In band seviri_aliases).

(** The wavelength (um) a channel is named after. *)
Definition seviri_nominal (band : string) (l : R) : Prop :=
  (In (band, l)
    [("IR3.9", 39 / 10); ("WV6.2", 62 / 10); ("WV7.3", 73 / 10); ("IR8.7", 87 / 10); ("IR9.7", 97 / 10);
     ("IR10.8", 108 / 10); ("IR12.0", 12); ("IR13.4", 134 / 10);
     ("IR_039", 39 / 10); ("IR_087", 87 / 10); ("IR_097", 97 / 10); ("IR_108", 108 / 10); ("IR_120", 12); ("IR_134", 134 / 10)])%R.
