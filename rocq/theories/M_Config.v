(** Model of pyspectral/config.py. *)
From Coq Require Import String List Bool.
From Verif Require Import Base M_World.
Import ListNotations.
Local Open Scope string_scope.

(** config.py:24-38, [recursive_dict_update(d, u)].  Returns the object [d]
    after the call (it is changed in place) and the outcome; the returned value
    is [d] itself.  A [u] without [items] raises AttributeError; a [d] without
    [get] raises AttributeError when the item is a mapping, TypeError
    (item assignment) when it is not. *)
Fixpoint recursive_dict_update (u : cfg) : cfg -> cfg * res unit :=
  match u with
  | Leaf _ => fun d => (d, Err AttributeError)
  | CMap m =>
      (fix items (m : list (string * cfg)) (d : cfg) {struct m} : cfg * res unit :=
         match m with
         | [] => (d, Ok tt)
         | (k, v) :: rest =>
             match d with
             | Leaf _ => (d, Err (match v with CMap _ => AttributeError | Leaf _ => TypeError end))
             | CMap dm =>
                 match v with
                 | CMap _ =>
                     let sub := match dget k dm with Some c => c | None => CMap [] end in
                     let (r, o) := recursive_dict_update v sub in
                     match o with
                     | Ok _ => items rest (CMap (dset k r dm))
                     | Err e => (CMap (if dhas k dm then dset k r dm else dm), Err e)
                     end
                 | Leaf _ => items rest (CMap (dset k v dm))
                 end
             end
         end) m
  end.

(** config.py:61-68 *)
Definition get_env_or_builtin_config_path (x : extern) (w : world) : res string :=
  match dget "PSP_CONFIG_FILE" (w_env w) with
  | Some f => if is_file w f then Ok f else Err OSError
  | None => Ok (x_builtin_config x)
  end.

(** [expanduser(v)]: only strings are paths *)
(** os.path.expanduser, config.py:53-54 *)
Definition expanduser (x : extern) (c : cfg) : res string :=
  match c with Leaf (LStr s) => Ok (x_expanduser x s) | _ => Err TypeError end.

(** config.py:46-54: the tree with the two directory options *)
Definition config_tree (x : extern) (w : world) (config_file : string) : res (dict cfg * string * string) :=
  text <- read_file w config_file ;;
  content <- x_yaml x text ;;
  let (d, o) := recursive_dict_update content (CMap []) in
  _ <- o ;;
  match d with
  | Leaf _ => Err AttributeError                     (* not reached *)
  | CMap config =>
      let deflt := Leaf (LStr (x_user_data_dir x)) in
      let get k c := match dget k c with Some v => v | None => deflt end in
      rsr <- expanduser x (get "rsr_dir" config) ;;
      let config := dset "rsr_dir" (Leaf (LStr rsr)) config in
      ray <- expanduser x (get "rayleigh_dir" config) ;;
      let config := dset "rayleigh_dir" (Leaf (LStr ray)) config in
      Ok (config, rsr, ray)
  end.

(** config.py:41-58 *)
Definition get_config (x : extern) (config_file : option string) (w : world) : world * res (dict cfg) :=
  match (f <- (match config_file with Some f => Ok f | None => get_env_or_builtin_config_path x w end) ;;
         config_tree x w f) with
  | Err e => (w, Err e)
  | Ok (config, rsr, ray) =>
      let (w, o) := makedirs x rsr w in
      match o with
      | Err e => (w, Err e)
      | Ok _ =>
          let (w, o) := makedirs x ray w in
          (w, _ <- o ;; Ok config)
      end
  end.
