(** Concrete RSR files for the Examples. *)
From Coq Require Import String List Bool ZArith Reals.
From Verif Require Import Base NumSig XR M_Tables M_Utils M_Hdf5.
Import ListNotations.
Local Open Scope string_scope.

Definition no_data : h5data XRN := {| hd_response := None; hd_wavelength := None; hd_central := None |}.
Definition band1 : h5band XRN :=
  {| hb_count := Some 2%Z;
     hb_dets := [("det-1", {| hd_response := Some [Fin 1; Fin 2];
                              hd_wavelength := Some {| wv_data := [Fin 3; Fin 4]; wv_scale := None |}; hd_central := Some (Fin 5) |});
                 ("det-2", {| hd_response := None;
                              hd_wavelength := Some {| wv_data := [Fin 7; Fin 8]; wv_scale := Some (Fin (1/10000)) |}; hd_central := None |})];
     hb_shared := {| hd_response := Some [Fin 8; Fin 9];
                     hd_wavelength := Some {| wv_data := [Fin 5; Fin 6]; wv_scale := Some (Fin (1/10000)) |}; hd_central := Some (Fin 6) |} |}.
Definition file1 : h5file XRN :=
  {| h_band_names := Some [TBytes "ch1"]; h_description := Some (TStrArray ["test"]); h_platform_name := Some (TStr "Metop-B");
     h_platform := None; h_sat_number := None; h_sensor := Some (TStr "avhrr/3"); h_bands := [("ch1", band1)] |}.
(** a band without data *)
Definition file2 : h5file XRN :=
  {| h_band_names := Some [TBytes "ch1"]; h_description := Some (TStr "test"); h_platform_name := Some (TStr "Metop-B");
     h_platform := None; h_sat_number := None; h_sensor := None;
     h_bands := [("ch1", {| hb_count := None; hb_dets := []; hb_shared := no_data |})] |}.
Definition file3 : h5file XRN :=
  {| h_band_names := Some []; h_description := Some (TStr "test"); h_platform_name := None;
     h_platform := Some (TBytes "meteosat"); h_sat_number := Some "8"; h_sensor := None; h_bands := [] |}.
(** platform_name is a number *)
Definition file4 : h5file XRN :=
  {| h_band_names := Some []; h_description := Some (TStr "test"); h_platform_name := Some TOther;
     h_platform := Some (TBytes "meteosat"); h_sat_number := Some "8"; h_sensor := None; h_bands := [] |}.

Definition raw1 : raw XRN := {| rw_wavelength := [Fin (1/2); Fin (3/5); NaN; Fin (7/10)]; rw_response := [Fin 0; Fin 1; Fin 3; Fin 0] |}.
Definition raw2 : raw XRN := {| rw_wavelength := [Fin (1/2); Fin (3/5); Fin (7/10)]; rw_response := [Fin 0; Fin (1/2); Fin 0] |}.
Definition load1 (b : string) : res (sensor XRN) := Ok {| sn_instrument := "abi"; sn_rsr := RSingle raw1 |}.
Definition load2 (b : string) : res (sensor XRN) :=
  Ok {| sn_instrument := "abi"; sn_rsr := RMulti [("det-0", raw1); ("det-1", raw1); ("det-2", raw2)] |}.
