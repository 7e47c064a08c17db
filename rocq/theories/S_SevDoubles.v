(** Specification: the coefficients of the SEVIRI channels of Meteosat-8 and
    Meteosat-9, as published by EUMETSAT. *)
From Coq Require Import Reals String List.
Import ListNotations.
Local Open Scope R_scope.

(** short name, standard name, then for each satellite the central wavenumber
    (cm^-1), alpha and beta (K) *)
Definition seviri_channels : list (string * string * (R * R * R) * (R * R * R)) :=
  [ ("IR3.9"%string, "IR_039"%string, (2567330 / 1000, 9956 / 10000, 3410 / 1000), (2568832 / 1000, 9954 / 10000, 3438 / 1000));
    ("WV6.2"%string, "WV6.2"%string, (1598103 / 1000, 9962 / 10000, 2218 / 1000), (1600548 / 1000, 9963 / 10000, 2185 / 1000));
    ("WV7.3"%string, "WV7.3"%string, (1362081 / 1000, 9991 / 10000, 478 / 1000), (1360330 / 1000, 9991 / 10000, 470 / 1000));
    ("IR8.7"%string, "IR_087"%string, (1149069 / 1000, 9996 / 10000, 179 / 1000), (1148620 / 1000, 9996 / 10000, 179 / 1000));
    ("IR9.7"%string, "IR_097"%string, (1034343 / 1000, 9999 / 10000, 60 / 1000), (1035289 / 1000, 9999 / 10000, 56 / 1000));
    ("IR10.8"%string, "IR_108"%string, (930647 / 1000, 9983 / 10000, 625 / 1000), (931700 / 1000, 9983 / 10000, 640 / 1000));
    ("IR12.0"%string, "IR_120"%string, (839660 / 1000, 9988 / 10000, 397 / 1000), (836445 / 1000, 9988 / 10000, 408 / 1000));
    ("IR13.4"%string, "IR_134"%string, (752387 / 1000, 9981 / 10000, 578 / 1000), (751792 / 1000, 9981 / 10000, 561 / 1000)) ].

(** the channel called [band], by its short or standard name, of a satellite *)
Definition seviri_published (platform band : string) (vc alpha beta : R) : Prop :=
  exists short standard m8 m9, In (short, standard, m8, m9) seviri_channels /\ (band = short \/ band = standard) /\
  (platform = "Meteosat-8"%string /\ m8 = (vc, alpha, beta) \/ platform = "Meteosat-9"%string /\ m9 = (vc, alpha, beta)).
