(** Services of the web interface for configurations and coordinates
    (webapi/websocket.py 97-109, 119-125, 160-179).  Definitions only. *)
From Coq Require Import Ascii String List Bool Arith Reals.
From Verif Require Import Common Dict FsModel WsModel ConfModel FigModel.
Import ListNotations.
Open Scope string_scope.
Open Scope list_scope.

(** [sorted(names, key=str.lower)]: stable. *)
Fixpoint insert_lower (x : string) (l : list string) : list string :=
  match l with
  | [] => [x]
  | y :: r => if (lower x <=? lower y)%string then x :: l else y :: insert_lower x r
  end.
Fixpoint sort_lower (l : list string) : list string :=
  match l with [] => [] | x :: r => insert_lower x (sort_lower r) end.

Section Web.
Variable W : path.
(** [json.dumps(document, indent=4, separators=(',', ': '), sort_keys=True)] *)
Variable dumps : json -> string.
(** [json.load(file, object_pairs_hook=OrderedDict)] *)
Variable loads : string -> option json.

(** [get_config_json] (ui/workspace_manager.py 261-265, 365-369).  A document
    that is a list or a text is treated like one that cannot be iterated. *)
Definition get_config_json (w c key : string) : M (json * list string) :=
  s <- look (FsModel.read_file (config_file W w c key)) ;;
  s <- need EOs s ;;
  j <- need EValue (loads s) ;;
  match j with
  | JObj d => ret (j, sort_lower (keys d))
  | _ => fail FsModel.EType
  end.

(** [get_configs] (websocket.py 97-109): documents and orders for chd, cnf, cst *)
Definition get_configs (w c : string) : M (list (json * list string)) :=
  a <- get_config_json w c "CHD" ;;
  b <- get_config_json w c "CNF" ;;
  d <- get_config_json w c "CST" ;;
  ret [a; b; d].

(** One file of [save_configs]: [configurations.get(name)] is [None] for a
    missing name.  [write_config_file] (ui/workspace_manager.py 267-272). *)
Definition save_one (w c key name : string) (conf : dict json) : M unit :=
  fs EOs (rewrite_file (config_file W w c key)
            (dumps (match dget name conf with Some j => j | None => JNull end))).
(** [save_configs] (websocket.py 119-125) *)
Definition save_configs (w c : string) (conf : dict json) : M unit :=
  save_one w c "CHD" "chd" conf ;;;
  save_one w c "CNF" "cnf" conf ;;;
  save_one w c "CST" "cst" conf.
End Web.

(** * Coordinates (websocket.py 160-179) *)

(** Variables [lat_l1a_echo_sar_ku] and [lon_l1a_echo_sar_ku], if present,
    without masked entries. *)
Record coords := { v_lat : option (list R); v_lon : option (list R) }.
Definition values (o : option (list R)) : list R := match o with Some l => l | None => [] end.
(** 160-168 *)
Definition get_lat_lon (f : coords) : list R * list R := (values (v_lat f), values (v_lon f)).
(** [l[0]], [l[-1]]: [None] is an [IndexError]. *)
Definition ends (l : list R) : option (R * R) :=
  match l with [] => None | x :: _ => Some (x, last l x) end.
(** 171-179 *)
Definition get_max_min_coordinates (f : coords) : option ((R * R) * (R * R)) :=
  match ends (values (v_lat f)), ends (values (v_lon f)) with
  | Some a, Some b => Some (a, b)
  | _, _ => None
  end.
