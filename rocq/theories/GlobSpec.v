(** What the products should say of themselves, independent of the model. *)
From Coq Require Import String List ZArith QArith Bool Ascii.
From Verif Require Import Common Dict GlobModel.
Import ListNotations.
Local Open Scope string_scope.

(** The text of the level occurs in the name. *)
Definition occurs (t s : string) : Prop := exists a b, s = a ++ t ++ b.
(** Names of attributes a product takes over from the L1A file as they are. *)
Definition taken : list string :=
  ["mission_name"; "altimeter_sensor_name"; "gnss_sensor_name"; "doris_sensor_name"; "references"; "acq_station_name";
   "xref_altimeter_level0"; "xref_navatt_level0"; "xref_altimeter_orbit"; "xref_doris_uso"; "xref_altimeter_ltm_lrm_cal1";
   "xref_altimeter_ltm_sar_cal1"; "xref_altimeter_ltm_ku_cal2"; "xref_altimeter_ltm_c_cal2"; "xref_altimeter_characterisation";
   "xref_time_correlation"; "history"].
(** Those that it states by itself. *)
Definition stated : list string :=
  ["title"; "semi_major_ellipsoid_axis"; "ellipsoid_flattening"; "netcdf_version"; "product_name"; "institution"; "source"; "contact";
   "creation_time"; "first_meas_time"; "last_meas_time"].
(** The value of an attribute taken over. *)
Definition as_in (attrs : dict aval) (x : string) : option aval :=
  match dget x attrs with Some v => Some v | None => Some (AText "Not available") end.
