(** Specification vocabulary for the fake data of pyspectral.testing. *)
From Coq Require Import Reals String Ascii List Bool.
From Verif Require Import Base NumSig XR M_Tables M_Utils M_Rsr S_Solar S_Effective.
Import ListNotations.
Local Open Scope string_scope.
Local Open Scope R_scope.

(** the correction, in percent, at [w] nanometres: a straight line from 66.8 at
    400 nm to 11.5 at 800 nm *)
Definition fake_correction (w : R) : R := 668 / 10 - 553 / 10 * ((w - 400) / 400).

(** the band names that go with an instrument name as found in a file name *)
Definition is_avhrr (i : string) : Prop := exists r, i = "avhrr" ++ r.
Definition ends_in_3 (i : string) : Prop := exists p, i = p ++ "3".
Definition band_table (i : string) (t : dict string) : Prop :=
  (is_avhrr i /\ ((ends_in_3 i /\ t = BN_avhrr_3) \/ (~ ends_in_3 i /\ t = BN_generic))) \/
  (~ is_avhrr i /\ (dget i BANDNAMES = Some t \/ (dget i BANDNAMES = None /\ t = BN_generic))).

(** the wavelength asked for: the last entry whose name, translated, is [b] *)
Definition wanted (t : dict string) (central : dict R) (b : string) : R :=
  match find (fun e => String.eqb (match dget (fst e) t with Some s => s | None => fst e end) b) (rev central) with
  | Some e => snd e
  | None => 46 / 100
  end.

(** a band with one detector: a thousand wavelengths from 0.02 below to 0.02
    above [c], responses rising from 0.0009 to 1 *)
Definition saw_tooth (c : R) : band XRN :=
  [("det-1", [("wavelength", VArr (map Fin (even_grid (c - 2 / 100) (c + 2 / 100) 999)));
              ("central_wavelength", VNum (Fin c));
              ("response", VArr (map Fin (even_grid (9 / 10000) 1 999)))])].

(** a name as part of a file name *)
Definition plain (s : string) : Prop := has_char "_" s = false /\ has_char "/" s = false.

(** its effective wavelength for Rayleigh scattering, in micrometres *)
Definition saw_wavelength (c : R) : R :=
  rayleigh_wavelength (even_grid (c - 2 / 100) (c + 2 / 100) 999) (even_grid (9 / 10000) 1 999).
