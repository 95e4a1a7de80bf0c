(** Specification of whole data sources: what a configured source and its files say (C79). *)
From Verif Require Import Base Geo Graph Cell Loaders Builder Env Spec MeshSpec DataSpec ConstructSpec ImportSpec ReprojectSpec Reproject Config ConfigSpec Params ParamSpec
  PyStr Dates DateSpec FilesSpec PipeSpec.
Open Scope string_scope.
Open Scope Z_scope.

(** ** Parameters *)
(** A text, or the default when there is none. *)
Definition text_or (p : params) (k default s : string) : Prop :=
  match sget p k with None => s = default | Some v => v = JStr s end.
(** The files: the one given by 'file', all in the 'folder', or those listed. *)
Definition lists_files (glob : string -> list string) (p : params) (files : list string) : Prop :=
  match sget p "file", sget p "folder" with
  | Some v, _ => exists f, v = JStr f /\ files = [f]
  | None, Some v => exists s dir, v = JStr s /\ files = glob (dir ++ "*") /\
      ((dir = s /\ (s = "" \/ exists s', s = s' ++ "/")) \/ (dir = s ++ "/" /\ s <> "" /\ ~ exists s', s = s' ++ "/"))
  | None, None => sget p "files" = Some (JArr (map JStr files))
  end.
(** The name of the values: that of the column unless another one is given. *)
Definition names (p : params) (col name : string) : Prop :=
  match sget p "data_name" with
  | None | Some JNull => name = col
  | Some v => v = JStr name /\ ~ In name ["lat"; "long"; "time"]
  end.
(** What the parameters say about a feed whose values are in the column [col]; they ask
    neither for a reprojection nor for downsampling. *)
Record settled (p : params) (min_dp : Z) (col : string) (f : feed) : Prop := {
  st_dict : dict_ok p;
  st_name : names p col (f_name f);
  st_agg : text_or p "aggregate_type" "MEAN" (f_agg f);
  st_known : In (f_agg f) df_aggs;
  st_min : f_min f = min_dp;
  st_proj : exists s, text_or p "in_proj" "EPSG:4326" s /\ text_or p "out_proj" "EPSG:4326" s;
  st_columns : (exists s, text_or p "x_col" "lat" s) /\ exists s, text_or p "y_col" "long" s;
  st_factors : sget p "downsample_factors" = None \/ sget p "downsample_factors" = Some (JArr [JInt 1; JInt 1]);
  st_conds : conditions_say p (f_name f) (f_conds f);
  st_fill : fill_says p (f_fill f) }.

(** ** csv files *)
(** The rows of a table, each with its place, its day if there is such a column, and its
    value, in the column [col]. *)
Definition holds (dated : bool) (col : string) (t : dframe) (d : data) : Prop :=
  well_formed (List.length d) t /\
  (forall c, In c (map fst t) <-> c = "lat" \/ c = "long" \/ c = col \/ (dated = true /\ c = "time")) /\
  forall k p, nth_error d k = Some p ->
    entry_at t k "lat" (ENum (Some (p_lat p))) /\ entry_at t k "long" (ENum (Some (p_long p))) /\
    (if dated then exists day, p_time p = Some day /\ entry_at t k "time" (EDay day) else p_time p = None) /\
    exists v, p_vals p = [v] /\ entry_at t k col (ENum v).
Definition csv_feed (glob : string -> list string) (read_csv : string -> res dframe) (min_dp : Z) (src : string * params) (f : feed) : Prop :=
  exists col dated files ds, same_name (fst src) "scalar_csv" /\ settled (snd src) min_dp col f /\ ~ In col ["lat"; "long"; "time"] /\
    lists_files glob (snd src) files /\ files <> [] /\
    Forall2 (fun file d => exists t, read_csv file = Ok t /\ holds dated col t d) files ds /\
    f_xr f = false /\ f_data f = List.concat ds.

(** ** netCDF files *)
(** The rows of a Dataset at the usual longitudes with their values converted, in some
    order. *)
Definition taken (convert : list (option Q) -> list (option Q)) (ds : xrds) (d : data) : Prop :=
  exists all, Forall2 (fun p q => ImportSpec.moved p q /\ p_vals q = convert (p_vals p)) (xr_points ds) all /\ Permutation d all.
Definition each (f : Q -> Q) : list (option Q) -> list (option Q) := map (option_map f).
(** Percentages unless fractions are asked for. *)
Definition ice_units (p : params) (convert : list (option Q) -> list (option Q)) : Prop :=
  match sget p "units" with
  | None => convert = each (fun x => x * 100)%Q
  | Some v => (v = JStr "percentage" /\ convert = each (fun x => x * 100)%Q) \/ (v = JStr "fraction" /\ convert = fun l => l)
  end.
Definition day_number (d : Z * Z * Z) : Z := let '(y, m, d) := d in ymd2ord y m d.
(** The files of the period, by the dates in their names. *)
Definition in_period (b : boundary) (files kept : list string) : Prop :=
  exists first last, calendar_date first /\ calendar_date last /\ time_range b = [day_number first; day_number last] /\
    (forall f, In f files -> exists date, name_era5 f date /\ a_date date) /\ kept <> [] /\
    picked (fun f => exists date, name_era5 f date /\ a_date date /\ date_le first date /\ date_le date last) files kept.
(** The magnitude of two components. *)
Definition magnitude (sqrt : Q -> Q) (l m : list (option Q)) : Prop :=
  match l with [Some u; Some v] => m = [Some (sqrt (u * u + v * v)%Q)] | _ => m = [None] end.

(** The loaders by name, with their classes: the order of the latitudes in the files, and
    the data of the files. *)
Inductive grid_loader (sqrt : Q -> Q) (b : boundary) (p : params) (files : list string) : string -> string -> list string -> xrds -> data -> Prop :=
| gl_gebco ds d : increasing (x_lat ds) -> increasing (x_long ds) -> Permutation d (xr_points ds) ->
    grid_loader sqrt b p files "gebco" "GEBCODataLoader" files ds d
| gl_baltic ds d : decreasing (x_lat ds) -> increasing (x_long ds) -> Permutation d (xr_points ds) ->
    grid_loader sqrt b p files "baltic_sic" "BalticSeaIceDataLoader" files ds d
| gl_depth ds d : increasing (x_lat ds) -> taken (each (fun x => -1 * x)%Q) ds d ->
    grid_loader sqrt b p files "bsose_depth" "BSOSEDepthDataLoader" files ds d
| gl_ice convert ds d : increasing (x_lat ds) -> ice_units p convert -> taken convert ds d ->
    grid_loader sqrt b p files "bsose_sic" "BSOSESeaIceDataLoader" files ds d
| gl_wave name cls kept ds d :
    In (name, cls) [("era5_sig_wave_height", "ERA5SigWaveHeightDataLoader"); ("era5_max_wave_height", "ERA5MaxWaveHeightDataLoader");
                    ("era5_wave_dir", "ERA5MeanWaveDirDataLoader"); ("era5_wave_period", "ERA5WavePeriodDataLoader")] ->
    in_period b files kept -> decreasing (x_lat ds) -> taken (fun l => l) ds d -> grid_loader sqrt b p files name cls kept ds d
| gl_wind convert kept ds d : in_period b files kept -> decreasing (x_lat ds) -> (forall l, magnitude sqrt l (convert l)) -> taken convert ds d ->
    grid_loader sqrt b p files "era5_wind_mag" "ERA5WindMagDataLoader" kept ds d.
(** The variable read: of the wind magnitude, it is made from two. *)
Definition variable (name : string) (vars : list string) (col : string) : Prop :=
  if String.eqb name "era5_wind_mag" then col = "wind_mag" else vars = [col].
Definition grid_feed (glob : string -> list string) (open_nc : string -> list string -> res (list string * xrds)) (sqrt : Q -> Q) (b : boundary) (min_dp : Z)
    (src : string * params) (f : feed) : Prop :=
  exists name cls col vars files kept ds, same_name (fst src) name /\ settled (snd src) min_dp col f /\ lists_files glob (snd src) files /\
    open_nc cls kept = Ok (vars, ds) /\ variable name vars col /\ ~ In col ["lat"; "long"; "time"] /\ dated b ds /\
    grid_loader sqrt b (snd src) files name cls kept ds (f_data f) /\ f_xr f = true.

(** A source and its files describe a feed. *)
Definition describes (glob : string -> list string) (read_csv : string -> res dframe) (open_nc : string -> list string -> res (list string * xrds))
    (sqrt : Q -> Q) (b : boundary) (min_dp : Z) (src : string * params) (f : feed) : Prop :=
  csv_feed glob read_csv min_dp src f \/ grid_feed glob open_nc sqrt b min_dp src f.
