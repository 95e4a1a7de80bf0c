(** Specification of configured wind directions (C97). *)
From Verif Require Import Base Geo Graph Cell Loaders Builder Env Spec MeshSpec DataSpec ConstructSpec ImportSpec ReprojectSpec Reproject Config ConfigSpec Params ParamSpec
  PyStr Dates DateSpec FilesSpec PipeSpec SourcesSpec.
Open Scope string_scope.
Open Scope Z_scope.

(** The direction a wind with the components u and v comes from, in degrees from 0 to 360,
    where [bearing v u] is the one it blows to; unknown unless both are known. *)
Definition from_where (bearing : Q -> Q -> Q) (l m : list (option Q)) : Prop :=
  match l with
  | [Some u; Some v] => exists a n, m = [Some a] /\ (0 <= a < 360)%Q /\ (a == bearing v u + 180 + 360 * inject_Z n)%Q
  | _ => m = [None]
  end.
(** The feed of the files of the period, with the longitudes from -180 to 180. *)
Definition wind_dir_feed (glob : string -> list string) (open_nc : string -> list string -> res (list string * xrds)) (bearing : Q -> Q -> Q) (b : boundary) (min_dp : Z)
    (src : string * params) (f : feed) : Prop :=
  exists files kept vars ds convert, same_name (fst src) "era5_wind_dir" /\ settled (snd src) min_dp "wind_dir" f /\ lists_files glob (snd src) files /\ in_period b files kept /\
    open_nc "ERA5WindDirDataLoader" kept = Ok (vars, ds) /\ decreasing (x_lat ds) /\ dated b ds /\
    (forall l, from_where bearing l (convert l)) /\ taken convert ds (f_data f) /\ f_xr f = true.
(** A configuration names a loader. *)
Definition asks_for (cfg : json) (name : string) : Prop :=
  exists sources src n p, jget cfg "data_sources" = Ok (JArr sources) /\ In src sources /\
    jget src "loader" = Ok (JStr n) /\ same_name n name /\ jget src "params" = Ok (JObj p) /\ dict_ok p.
(** A direction less than 20 degrees off. *)
Definition close_to (d a : Q) : Prop := exists n, (-20 < a - d - 360 * inject_Z n < 20)%Q.
