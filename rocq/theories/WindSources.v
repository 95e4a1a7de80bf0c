(** Model of the wind directions of ERA5 and of MODIS as sources, from the configuration to
    the object the mesh uses: [__init__] of abstract_scalar.py 53-95 with [import_data] of
    scalar/era5_wind_dir.py 9-50 and scalar/modis.py 7-32; the steps are those of Files.v,
    Import.v and Sources.v.  No proofs here. *)
From Verif Require Import Base Geo Graph Cell Loaders AddLoader VecLoader Builder Env Construct Names PyStr Dates Config Params Downsample Files Import Forecast Reproject Sources VecSources Shapes ShapeSources Grf
  Lut LutFiles LutSources AllSources GrfSources IceSources.
Open Scope string_scope.
Open Scope Z_scope.

(** era5_wind_dir.py 42, for the components 'u10' and 'v10'; [bearing v u] is
    [(180/np.pi)*np.arctan2(v, u)]. *)
Definition wind_dir (bearing : Q -> Q -> Q) (l : list (option Q)) : list (option Q) :=
  match l with [Some u; Some v] => [Some (qmod (180 + bearing v u) 360)] | _ => [None] end.

Section WindSources.
  Variable sqrt : Q -> Q.
  Variable proj : string -> string -> Q -> Q -> Q * Q.
  Variable bearing : Q -> Q -> Q.
  (** As in Sources.v; for the wind directions, the variables are the two components. *)
  Variable open_nc : string -> list string -> res (list string * xrds).

  (** era5_wind_dir.py 21-50 *)
  Definition construct_wind_dir (k : nat) (p : params) (b : boundary) : res (loader * data) :=
    files <- attr_files p ;;
    files <- by_date b files ;;
    nd <- open_nc "ERA5WindDirDataLoader" files ;;
    ds <- import_era5 (wind_dir bearing) b (snd nd) ;;
    construct_dataset sqrt proj k p b (["wind_dir"], ds).
  (** modis.py 20-32: [self.file] is asked for before any file is opened. *)
  Definition construct_modis (k : nat) (p : params) (b : boundary) : res (loader * data) :=
    _ <- attr p "file" ;;
    files <- attr_files p ;;
    nd <- open_nc "MODISDataLoader" files ;;
    ds <- import_modis p b (snd nd) ;;
    construct_dataset sqrt proj k p b (fst nd, ds).

  (** Any source at all, these included. *)
  Variable open_amsr : string -> res amsr_ds.
  Variable open_icenet : string -> res icenet_ds.
  Variable open_ice : string -> res xrds.
  Variables cos sin : Q -> Q.
  Variable noise : nat -> nat -> json -> Z -> json -> res (list Q).
  Variable o : planar.
  Variable edge : geom o -> geom o -> bool.
  Variables dsin dcos : Q -> Q.
  Variable read_csv : string -> res dframe.
  Variable read_table : string -> res (csv o).
  Variable read_shapes : string -> res (list (geom o)).
  Definition construct_wind (k : nat) (cls : string) (p : params) (b : boundary) : res (loader * data) :=
    if String.eqb cls "ERA5WindDirDataLoader" then construct_wind_dir k p b
    else if String.eqb cls "MODISDataLoader" then construct_modis k p b
    else construct_ice sqrt proj open_amsr open_icenet open_ice cos sin noise o edge dsin dcos read_csv open_nc read_table read_shapes k cls p b.
End WindSources.
