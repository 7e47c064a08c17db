(** Sample data for C97: two processes downloading the same three-chunk archive. *)
From Coq Require Import String Ascii List.
From Verif Require Import Base M_Tables M_Utils M_World M_Download M_Procs Samples2.
Import ListNotations.
Local Open Scope string_scope.

Definition race_members : list (string * string) := [("rsr_modis_EOS-Aqua.h5", "MODIS"); (RSR_DATA_VERSION_FILENAME, RSR_DATA_VERSION)].
(** a damaged archive that still begins properly creates its first member *)
Definition race_untar (s : string) : list (string * string) * res unit :=
  if String.eqb s "abc" then (race_members, Ok tt)
  else match s with
       | String "a" _ => ([("rsr_modis_EOS-Aqua.h5", "")], Err TarReadError)
       | _ => ([], Err TarReadError)
       end.
Definition race_ext : extern := {|
  x_yaml := x_yaml dl_ext; x_expanduser := x_expanduser dl_ext; x_user_data_dir := x_user_data_dir dl_ext; x_builtin_config := x_builtin_config dl_ext;
  x_mkdir_ok := x_mkdir_ok dl_ext; x_net := x_net dl_ext; x_untar := race_untar |}.
Definition race_reply : response := {| rs_ok := true; rs_chunks := ["a"; "b"; "c"]; rs_end := Ok tt |}.
Definition race_proc : proc := download race_reply (join "/rsr" rsr_tarball) (unpack_all race_ext "/rsr").
Definition race_fs : fsys := {| fs_names := [("/rsr/keep.txt", 0)]; fs_bytes := ["mine"] |}.
(** both have the archive open when the first one removes it *)
Definition race_removed : list nat := repeat 0 4 ++ repeat 1 4 ++ repeat 0 20 ++ repeat 1 20.
(** the first one reads the archive while the second one writes it anew, and
    unpacks what it has read when the second one has finished *)
Definition race_damaged : list nat := repeat 0 3 ++ [1; 0; 1] ++ [0; 0] ++ repeat 1 20 ++ repeat 0 20.
