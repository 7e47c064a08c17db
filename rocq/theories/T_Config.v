(** Property theorems C64, C65 (config.py). *)
From Coq Require Import String List Bool.
From Verif Require Import Base M_World M_Config S_Config P_Config.
Import ListNotations.
Local Open Scope string_scope.

Theorem C64_leaves_set : forall p m d d' v, well_formed (CMap m) ->
  recursive_dict_update (CMap m) d = (d', Ok tt) ->
  at_path p (CMap m) = Some (Leaf v) -> at_path p d' = Some (Leaf v).
Proof. exact upd_sets. Qed.
Print Assumptions C64_leaves_set.

Theorem C64_rest_kept : forall p m d d', well_formed (CMap m) ->
  recursive_dict_update (CMap m) d = (d', Ok tt) -> untouched p (CMap m) -> at_path p d' = at_path p d.
Proof. exact upd_keeps. Qed.
Print Assumptions C64_rest_kept.

Theorem C64_idempotent : forall u d d', well_formed u ->
  recursive_dict_update u d = (d', Ok tt) -> recursive_dict_update u d' = (d', Ok tt).
Proof. exact upd_idempotent. Qed.
Print Assumptions C64_idempotent.

Theorem C64_into_empty : forall m, well_formed (CMap m) ->
  recursive_dict_update (CMap m) (CMap []) = (CMap m, Ok tt).
Proof. exact upd_empty. Qed.
Print Assumptions C64_into_empty.

(** A non-empty mapping over a non-mapping always fails ... *)
Theorem C64_conflict_fails : forall p m d d' o, well_formed (CMap m) -> conflict_at p d (CMap m) ->
  recursive_dict_update (CMap m) d = (d', o) -> exists e, o = Err e.
Proof. exact upd_conflict. Qed.
Print Assumptions C64_conflict_fails.

(** ... and it is the only way to fail: TypeError if the first item of the
    mapping is a leaf, AttributeError if it is itself a mapping. *)
Theorem C64_only_conflicts_fail : forall u d d' e, well_formed u -> (exists m, u = CMap m) ->
  recursive_dict_update u d = (d', Err e) ->
  exists p l k v t, at_path p d = Some (Leaf l) /\ at_path p u = Some (CMap ((k, v) :: t)) /\
    e = (match v with CMap _ => AttributeError | Leaf _ => TypeError end).
Proof. exact upd_error. Qed.
Print Assumptions C64_only_conflicts_fail.

Example C64_case :
  let d := CMap [("a", CMap [("x", Leaf (LInt 1)); ("y", Leaf (LInt 2))]); ("b", Leaf (LStr "s"))] in
  let u := CMap [("a", CMap [("y", Leaf (LInt 9)); ("z", CMap [("q", Leaf LNull)])]); ("c", Leaf (LBool true))] in
  well_formed u /\
  recursive_dict_update u d =
    (CMap [("a", CMap [("x", Leaf (LInt 1)); ("y", Leaf (LInt 9)); ("z", CMap [("q", Leaf LNull)])]);
           ("b", Leaf (LStr "s")); ("c", Leaf (LBool true))], Ok tt) /\
  untouched ["a"; "x"] u /\
  snd (recursive_dict_update (CMap [("b", CMap [("k", Leaf LNull)])]) d) = Err TypeError /\
  snd (recursive_dict_update (CMap [("b", CMap [("k", CMap [])])]) d) = Err AttributeError /\
  conflict_at ["b"] d (CMap [("b", CMap [("k", Leaf LNull)])]).
Proof.
  cbv zeta. split; [|split; [vm_compute; reflexivity|split; [|split; [vm_compute; reflexivity|split; [vm_compute; reflexivity|]]]]].
  - repeat split; repeat constructor; cbn; intuition discriminate.
  - exists ["a"], "x", [], [("y", Leaf (LInt 9)); ("z", CMap [("q", Leaf LNull)])]. repeat split; reflexivity.
  - exists (LStr "s"), "k", (Leaf LNull), []. split; reflexivity.
Qed.

(** C65: which file is read. *)
Theorem C65_environment_then_builtin : forall x w,
  (dget "PSP_CONFIG_FILE" (w_env w) = None -> get_config x None w = get_config x (Some (x_builtin_config x)) w) /\
  (forall f, dget "PSP_CONFIG_FILE" (w_env w) = Some f -> is_file w f = true -> get_config x None w = get_config x (Some f) w) /\
  (forall f, dget "PSP_CONFIG_FILE" (w_env w) = Some f -> is_file w f = false -> get_config x None w = (w, Err OSError)).
Proof. exact config_selection. Qed.
Print Assumptions C65_environment_then_builtin.

Theorem C65_explicit_file_wins : forall x f w env,
  snd (get_config x (Some f) (set_env env w)) = snd (get_config x (Some f) w).
Proof. exact explicit_wins. Qed.
Print Assumptions C65_explicit_file_wins.

(** C65: the result. *)
Theorem C65_result : forall x f w w' c, get_config x (Some f) w = (w', Ok c) ->
  exists text m rsr ray, dget f (w_files w) = Some text /\ x_yaml x text = Ok (CMap m) /\
    (well_formed (CMap m) ->
      expanduser x (match dget "rsr_dir" m with Some v => v | None => Leaf (LStr (x_user_data_dir x)) end) = Ok rsr /\
      expanduser x (match dget "rayleigh_dir" m with Some v => v | None => Leaf (LStr (x_user_data_dir x)) end) = Ok ray /\
      (forall k, k <> "rsr_dir" -> k <> "rayleigh_dir" -> dget k c = dget k m)) /\
    dget "rsr_dir" c = Some (Leaf (LStr rsr)) /\ dget "rayleigh_dir" c = Some (Leaf (LStr ray)) /\
    is_dir w' rsr = true /\ is_dir w' ray = true /\
    w_env w' = w_env w /\ w_files w' = w_files w /\ w_requests w' = w_requests w /\
    exists l, w_dirs w' = (l ++ w_dirs w)%list /\ (forall d, In d l -> d = rsr \/ d = ray).
Proof. exact get_config_shape. Qed.
Print Assumptions C65_result.

(** C65: files, environment and network are untouched whatever the outcome. *)
Theorem C65_only_directories_appear : forall x f w, let w' := fst (get_config x f w) in
  w_env w' = w_env w /\ w_files w' = w_files w /\ w_requests w' = w_requests w.
Proof. exact get_config_frame. Qed.
Print Assumptions C65_only_directories_appear.

Theorem C65_empty_file_raises : forall x f w text v, is_dir w f = false -> dget f (w_files w) = Some text ->
  x_yaml x text = Ok (Leaf v) -> get_config x (Some f) w = (w, Err AttributeError).
Proof. exact empty_config. Qed.
Print Assumptions C65_empty_file_raises.

Theorem C65_missing_file_raises : forall x f w, is_dir w f = false -> is_file w f = false ->
  get_config x (Some f) w = (w, Err FileNotFoundError).
Proof. exact missing_config. Qed.
Print Assumptions C65_missing_file_raises.

Example C65_case :
  let env f := sample_world [("PSP_CONFIG_FILE", f)] in
  snd (get_config sample_ext None (env "/a.yaml")) =
    Ok [("rsr_dir", Leaf (LStr "/home/u/rsr")); ("download_from_internet", Leaf (LBool true)); ("rayleigh_dir", Leaf (LStr "/data"))] /\
  w_dirs (fst (get_config sample_ext None (env "/a.yaml"))) = ["/data"; "/home/u/rsr"; "/lut"] /\
  snd (get_config sample_ext (Some "/b.yaml") (env "/a.yaml")) =
    Ok [("rayleigh_dir", Leaf (LStr "/lut")); ("rsr_dir", Leaf (LStr "/data"))] /\
  snd (get_config sample_ext None (sample_world [])) = Ok [("rayleigh_dir", Leaf (LStr "/lut")); ("rsr_dir", Leaf (LStr "/data"))] /\
  snd (get_config sample_ext None (env "/nowhere")) = Err OSError /\
  snd (get_config sample_ext None (env "/empty.yaml")) = Err AttributeError /\
  snd (get_config sample_ext (Some "/nowhere") (env "/a.yaml")) = Err FileNotFoundError.
Proof. repeat split; vm_compute; reflexivity. Qed.
