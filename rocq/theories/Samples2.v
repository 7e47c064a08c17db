(** A concrete machine for the Examples of T_Download. *)
From Coq Require Import String Ascii List Bool.
From Verif Require Import Base M_Tables M_Utils M_World M_Config M_Download S_Download P_Config P_Lut.
Import ListNotations.
Local Open Scope string_scope.

Definition dl_rsr_members : list (string * string) :=
  [("rsr_modis_EOS-Aqua.h5", "MODIS"); ("PYSPECTRAL_RSR_VERSION", "v1.6.1" ++ String "010" "")].
Definition dl_members (t : string) : list (string * string) :=
  match dget t ATM_CORRECTION_LUT_VERSION with
  | Some (v, f) => [("rayleigh_lut_us-standard.h5", "LUT " ++ t); (f, v)]
  | None => []
  end.
(** the server sends the URL as the archive, in three pieces, one of them empty *)
Definition dl_net (_ : list string) (url : string) : res response :=
  Ok {| rs_ok := true; rs_chunks := [substring 0 5 url; ""; substring 5 200 url]; rs_end := Ok tt |}.
Definition dl_untar (s : string) : list (string * string) * res unit :=
  if String.eqb s HTTP_PYSPECTRAL_RSR then (dl_rsr_members, Ok tt)
  else match find (fun t => String.eqb s (lut_url t)) AEROSOL_TYPES with
       | Some t => (dl_members t, Ok tt)
       | None => ([], Err TarReadError)
       end.
Definition dl_yaml (s : string) : res cfg :=
  Ok (CMap [("rsr_dir", Leaf (LStr "/rsr")); ("rayleigh_dir", Leaf (LStr "/lut"));
            ("download_from_internet", Leaf (LBool (String.eqb s "on")))]).
Definition dl_ext : extern :=
  {| x_yaml := dl_yaml; x_expanduser := fun s => s; x_user_data_dir := "/data"; x_builtin_config := "/etc/psp.yaml";
     x_mkdir_ok := fun _ => true; x_net := dl_net; x_untar := dl_untar |}.
(** an empty disk but for the configuration and an old version file *)
Definition dl_world (setting : string) : world :=
  {| w_env := []; w_files := [("/etc/psp.yaml", setting); ("/rsr/PYSPECTRAL_RSR_VERSION", "v1.2.0"); ("/rsr/keep.txt", "mine")];
     w_dirs := ["/rsr"; "/lut"]; w_requests := [] |}.
(** the same server, with the version file first in the archive *)
Definition dl_untar_early (s : string) : list (string * string) * res unit :=
  if String.eqb s HTTP_PYSPECTRAL_RSR then (rev dl_rsr_members, Ok tt) else dl_untar s.
Definition dl_ext_early : extern :=
  {| x_yaml := dl_yaml; x_expanduser := fun s => s; x_user_data_dir := "/data"; x_builtin_config := "/etc/psp.yaml";
     x_mkdir_ok := fun _ => true; x_net := dl_net; x_untar := dl_untar_early |}.

Lemma dl_serves : serves dl_ext HTTP_PYSPECTRAL_RSR dl_rsr_members.
Proof. intros reqs r [= <-] _ _. vm_compute. reflexivity. Qed.
Definition pair_dec (a b : string * string) : {a = b} + {a <> b}.
Proof. decide equality; apply string_dec. Defined.
Lemma dl_serves_lut t : In t AEROSOL_TYPES -> serves dl_ext (lut_url t) (dl_members t).
Proof.
  intros Ht reqs r [= <-] _ _. cbn [x_untar dl_ext rs_chunks].
  assert (H : forallb (fun t => match dl_untar (String.concat "" [substring 0 5 (lut_url t); ""; substring 5 200 (lut_url t)]) with
     | (ms, Ok _) => if list_eq_dec pair_dec ms (dl_members t) then true else false | _ => false end) AEROSOL_TYPES = true).
  { vm_compute. reflexivity. }
  rewrite forallb_forall in H. specialize (H t Ht). destruct (dl_untar _) as [ms [u|e]]; [|discriminate].
  now destruct (list_eq_dec pair_dec ms (dl_members t)).
Qed.

Lemma version_line_simple v rest : strip (first_line rest) = v -> version_line rest v.
Proof. apply P_Strings.version_line_iff. Qed.
