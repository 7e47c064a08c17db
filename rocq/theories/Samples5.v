(** A concrete machine for the Examples on pyspectral.testing. *)
From Coq Require Import String Ascii List Bool.
From Verif Require Import Base M_Tables M_Utils M_World M_Config M_Download S_Config S_Download M_Testing S_Testing Samples2.
Import ListNotations.
Local Open Scope string_scope.

Definition st_options : dict cfg :=
  [("rayleigh_dir", Leaf (LStr "/lut")); ("rsr_dir", Leaf (LStr "/rsr")); ("download_from_internet", Leaf (LBool true))].
Definition st_off : dict cfg :=
  [("rayleigh_dir", Leaf (LStr "/lut")); ("rsr_dir", Leaf (LStr "/rsr")); ("download_from_internet", Leaf (LBool false))].
Definition st_rsr (b : bool) : dict cfg := [("rsr_dir", Leaf (LStr "/rsr")); ("download_from_internet", Leaf (LBool b))].
Definition st_fake : dict cfg := fake_options "/t" [("download_from_internet", Leaf (LBool true))].
(** a dumper for these four *)
Definition st_dump (o : dict cfg) : string :=
  if dhas "tb2rad_dir" o then "fake" else if dhas "rayleigh_dir" o then (if download_enabled o then "on" else "off")
  else if download_enabled o then "rsr on" else "rsr off".
Definition st_yaml (s : string) : res cfg :=
  Ok (CMap (if String.eqb s "fake" then rev st_fake else if String.eqb s "on" then st_options else if String.eqb s "off" then st_off
            else st_rsr (String.eqb s "rsr on"))).
Definition st_ext : extern :=
  {| x_yaml := st_yaml; x_expanduser := fun s => s; x_user_data_dir := "/data"; x_builtin_config := "/etc/psp.yaml";
     x_mkdir_ok := fun _ => true; x_net := x_net dl_ext; x_untar := x_untar dl_ext |}.
Definition st_tools : tools := {| t_mkdtemp := fun _ => Ok "/tmp/cfg"; t_dump := st_dump; t_fake_lut := "HDF5" |}.
Definition st_world (env : dict string) : world :=
  {| w_env := env; w_files := [("/home/u/notes", "mine")]; w_dirs := ["/tmp"; "/home/u"]; w_requests := [] |}.

Lemma st_reads_back o : o = st_fake \/ o = st_options \/ o = st_off \/ o = st_rsr true -> reads_back st_ext st_tools o.
Proof.
  intros [->|[->|[->| ->]]].
  - exists (rev st_fake). split; [reflexivity|]. split.
    + repeat split; repeat constructor; cbn; intuition discriminate.
    + intros k. cbn. repeat match goal with |- context [String.eqb k ?s] => destruct (String.eqb_spec k s) as [->|]; cbn end; reflexivity.
  - exists st_options. split; [reflexivity|]. split; [|reflexivity]. repeat split; repeat constructor; cbn; intuition discriminate.
  - exists st_off. split; [reflexivity|]. split; [|reflexivity]. repeat split; repeat constructor; cbn; intuition discriminate.
  - exists (st_rsr true). split; [reflexivity|]. split; [|reflexivity]. repeat split; repeat constructor; cbn; intuition discriminate.
Qed.

(** a machine that reads the options of a plain mock *)
Definition st_ext_plain : extern :=
  {| x_yaml := fun _ => Ok (CMap (fake_options "/t" [])); x_expanduser := fun s => s; x_user_data_dir := "/data"; x_builtin_config := "/etc/psp.yaml";
     x_mkdir_ok := fun _ => true; x_net := x_net dl_ext; x_untar := x_untar dl_ext |}.
Lemma st_plain_reads : reads_back st_ext_plain st_tools (fake_options "/t" []).
Proof. exists (fake_options "/t" []). split; [reflexivity|]. split; [|reflexivity]. repeat split; repeat constructor; cbn; intuition discriminate. Qed.
