(** What a product says of itself: the attributes copied from the L1A file and added
    at the end of a run (dedop/data/input/l1a/l1a_dataset.py 15-82 and 276-277,
    dedop/data/input/netcdf_reader.py 80-84, dedop/proc/sar/processor.py 278-347,
    dedop/data/output/netcdf_writer.py 335-339 and 377-388).  Definitions only. *)
From Coq Require Import String List ZArith QArith Bool Ascii.
From Verif Require Import Common Dict ConfModel ConfData IsoModel NoteModel DerModel.
Import ListNotations.
Local Open Scope string_scope.
Local Open Scope list_scope.

(** The value of an attribute: a text or a number. *)
Inductive aval := AText (s : string) | ANum (q : Q).
(** [TypeError] (an attribute called self), an error of the time texts, of the
    constants, [AttributeError] (no product name to replace in). *)
Inductive gerr := GSelf | GTime (e : iso_err) | GConst (e : derr) | GName.

(** [L1AGlobals] of all attributes (38-76): the attribute, or None.  The other attributes of
    the file are dropped. *)
Definition slots : list string :=
  ["mission_name"; "altimeter_sensor_name"; "gnss_sensor_name"; "doris_sensor_name"; "references"; "acq_station_name";
   "xref_altimeter_level0"; "xref_navatt_level0"; "xref_altimeter_orbit"; "xref_doris_uso"; "xref_altimeter_ltm_lrm_cal1";
   "xref_altimeter_ltm_sar_cal1"; "xref_altimeter_ltm_ku_cal2"; "xref_altimeter_ltm_c_cal2"; "xref_altimeter_characterisation";
   "xref_time_correlation"; "xref_platform"; "history"; "product_name"].
Definition new_globals (attrs : dict aval) : res gerr (dict (option aval)) :=
  match dget "self" attrs with
  | Some _ => Err GSelf
  | None => Ok (map (fun x => (x, dget x attrs)) slots)
  end.
Definition slot (g : dict (option aval)) (x : string) : option aval := match dget x g with Some v => v | None => None end.
(** 78-82. *)
Definition renamed (new : string) (g : dict (option aval)) : res gerr aval :=
  match slot g "product_name" with
  | Some (AText s) => Ok (AText (replace "_A__" new s))
  | _ => Err GName
  end.

(** A file being written: its global attributes, and whether it has been closed. *)
Record out_file := mk_out { a_attrs : string -> option aval; a_closed : bool }.
(** netcdf_writer.py 384-388 *)
Definition write_global (f : out_file) (x : string) (v : option aval) : out_file :=
  let v := match v with None => AText "Not available" | Some v => v end in
  mk_out (fun y => if y =? x then Some v else a_attrs f y) (a_closed f).
(** 377-382 *)
Definition write_globals (f : out_file) (l : list (string * option aval)) : out_file :=
  fold_left (fun f p => write_global f (fst p) (snd p)) l f.
(** 335-339 *)
Definition close (f : out_file) : out_file := mk_out (a_attrs f) true.

Section Finish.
(** [float(text)], [getlibversion()] and the clock: any. *)
Variable text : string -> option Q.
Variable lib : string.
Variable now : Z * Z.

Definition times := (list ascii * list ascii * list ascii)%type.
Definition said (l : list ascii) : option aval := Some (AText (string_of_list_ascii l)).
Definition say (s : string) : option aval := Some (AText s).
(** The arguments of the two calls (284-313, 316-346), evaluated in their order: the
    title, the attributes taken over, then the rest. *)
Definition arguments (cst : dict json) (title : string) (over : list string) (new : string) (g : dict (option aval)) (t : times)
  : res gerr (list (string * option aval)) :=
  let '(c, f, l) := t in
  match number text cst_class cst "semi_major_axis_cst" with
  | Err e => Err (GConst e)
  | Ok a =>
  match number text cst_class cst "flat_coeff_cst" with
  | Err e => Err (GConst e)
  | Ok b =>
  match renamed new g with
  | Err e => Err e
  | Ok n =>
      Ok ([("title", say title)] ++ map (fun x => (x, slot g x)) over ++
          [("semi_major_ellipsoid_axis", Some (ANum a)); ("ellipsoid_flattening", Some (ANum b)); ("netcdf_version", say lib);
           ("product_name", Some n); ("institution", say "isardSAT"); ("source", say "DeDop 1.5.1.dev1"); ("history", slot g "history");
           ("contact", say "http://www.dedop.org/"); ("creation_time", said c); ("first_meas_time", said f); ("last_meas_time", said l)])
  end end end.
Definition over_l1b : list string :=
  ["mission_name"; "altimeter_sensor_name"; "gnss_sensor_name"; "doris_sensor_name"; "references"; "acq_station_name";
   "xref_altimeter_level0"; "xref_navatt_level0"; "xref_altimeter_orbit"; "xref_doris_uso"; "xref_altimeter_ltm_lrm_cal1";
   "xref_altimeter_ltm_sar_cal1"; "xref_altimeter_ltm_ku_cal2"; "xref_altimeter_ltm_c_cal2"; "xref_altimeter_characterisation";
   "xref_time_correlation"].
Definition over_l1bs : list string :=
  ["mission_name"; "altimeter_sensor_name"; "gnss_sensor_name"; "doris_sensor_name"; "references"; "acq_station_name";
   "xref_altimeter_level0"; "xref_navatt_level0"; "xref_altimeter_orbit"; "xref_doris_uso"; "xref_altimeter_ltm_lrm_cal1";
   "xref_altimeter_ltm_sar_cal1"; "xref_altimeter_ltm_ku_cal2"; "xref_altimeter_ltm_c_cal2"; "xref_altimeter_characterisation";
   "xref_platform"; "xref_time_correlation"].

(** processor.py 278-347: from the end of the loop to the return.  [first] and [last]:
    the times of the first and last burst within the region. *)
Definition finish (cst : dict json) (attrs : dict aval) (first last : num) (st : out_file * option out_file) : (out_file * option out_file) * option gerr :=
  match new_globals attrs with
  | Err e => (st, Some e)
  | Ok g =>
  match product_times now first last with
  | Err e => (st, Some (GTime e))
  | Ok t =>
  match arguments cst "DeDop SRAL Level 1 Measurement" over_l1b "____" g t with
  | Err e => (st, Some e)
  | Ok l =>
      let b := close (write_globals (fst st) l) in
      match snd st with
      | None => ((b, None), None)
      | Some s =>
          match arguments cst "DeDop SRAL Level 1BS Measurement" over_l1bs "_BS_" g t with
          | Err e => ((b, Some s), Some e)
          | Ok l => ((b, Some (close (write_globals s l))), None)
          end
      end
  end end end.
End Finish.
