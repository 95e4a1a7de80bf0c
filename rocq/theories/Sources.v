(** Model of whole data sources, from the files to the object the mesh uses: [__init__]
    of abstract_scalar.py 53-95 with [import_data] of scalar_csv.py, gebco.py,
    baltic_sea_ice.py, bsose_depth.py, bsose_sea_ice.py, era5_sig_wave_height.py,
    era5_max_wave_height.py, era5_mean_wave_direction.py, era5_wave_period.py and
    era5_wind_mag.py; the steps are those of Files.v, Import.v, Downsample.v, Reproject.v,
    Names.v and Construct.v.  No proofs here. *)
From Verif Require Import Base Geo Graph Cell Loaders Builder Env Construct Names PyStr Dates Config Params Downsample Files Import Reproject.
Open Scope string_scope.
Open Scope Z_scope.

(** [self.k]: attributes are the parameters.  Simplification: values of unexpected types
    raise TypeError at once. *)
Definition attr (p : params) (k : string) : res json := match sget p k with Some v => Ok v | None => Err AttributeError end.
Definition attr_text (p : params) (k : string) : res string :=
  v <- attr p k ;; match v with JStr s => Ok s | _ => Err TypeError end.
Definition attr_int (p : params) (k : string) : res Z :=
  v <- attr p k ;; match v with JInt z => Ok z | _ => Err TypeError end.
Definition attr_name (p : params) : res (option string) :=
  v <- attr p "data_name" ;; match v with JStr s => Ok (Some s) | JNull => Ok None | _ => Err TypeError end.
Definition attr_factors (p : params) : res (Z * Z) :=
  v <- attr p "downsample_factors" ;; match v with JArr [JInt a; JInt b] => Ok (a, b) | _ => Err TypeError end.
Definition attr_files (p : params) : res (list string) :=
  v <- attr p "files" ;;
  match v with JArr l => mapM (fun j => match j with JStr s => Ok s | _ => Err TypeError end) l | _ => Err TypeError end.

(** [pd.concat(df_list)]: the columns of all tables, in the order they first occur; NaN
    where a table has no such column. *)
Fixpoint distinct (l : list string) : list string :=
  match l with [] => [] | c :: l' => c :: filter (fun x => negb (String.eqb x c)) (distinct l') end.
Definition part_of_column (c : string) (t : dframe) : list entry :=
  match sget t c with Some l => l | None => repeat (ENum None) (n_rows t) end.
Definition concat_tables (ts : list dframe) : res dframe :=
  match ts with
  | [] => Err ValueError
  | _ => Ok (map (fun c => (c, List.concat (map (part_of_column c) ts))) (distinct (List.concat (map (map fst) ts))))
  end.

Section Sources.
  (** The square root; pyproj's transformation between two projections; the table of a
      csv file; the Dataset of netCDF files as a class reads them, with the names of
      its variables: opened, coordinates renamed to 'lat' and 'long', and (but for
      GEBCO and the BSOSE sea ice) limited to the variable of the class (for the wind
      magnitude: the two components). *)
  Variable sqrt : Q -> Q.
  Variable proj : string -> string -> Q -> Q -> Q * Q.
  Variable read_csv : string -> res dframe.
  Variable open_nc : string -> list string -> res (list string * xrds).

  (** scalar_csv.py 20-28; abstract_scalar.py 53-95 ([downsample] of a DataFrame changes
      nothing, 785-795) *)
  Definition construct_csv (k : nat) (p : params) (b : boundary) : res (loader * data) :=
    files <- attr_files p ;;
    ts <- mapM read_csv files ;;
    t <- concat_tables ts ;;
    t <- trim_table b t ;;
    in_proj <- attr_text p "in_proj" ;; out_proj <- attr_text p "out_proj" ;;
    x_col <- attr_text p "x_col" ;; y_col <- attr_text p "y_col" ;;
    t <- reproject (proj in_proj out_proj) in_proj out_proj x_col y_col t ;;
    name <- attr_name p ;;
    nt <- name_source_df name t ;;
    d <- construct_df b (table_points (snd nt)) ;;
    agg <- attr_text p "aggregate_type" ;; min_dp <- attr_int p "min_dp" ;;
    Ok (scalar_df (Z.of_nat k) (fst nt) agg min_dp sqrt, d).

  (** bsose_sea_ice.py 44-55 *)
  Definition attr_units (p : params) : res (option string) :=
    match sget p "units" with None => Ok None | Some (JStr s) => Ok (Some s) | Some _ => Err ValueError end.
  (** The wave loaders: era5_sig_wave_height.py 22-31 and alike choose their files by date. *)
  Definition era5_waves : list string :=
    ["ERA5SigWaveHeightDataLoader"; "ERA5MaxWaveHeightDataLoader"; "ERA5MeanWaveDirDataLoader"; "ERA5WavePeriodDataLoader"].
  Definition by_date (b : boundary) (files : list string) : res (list string) :=
    match time_range b with t0 :: t1 :: _ => era5_files t0 t1 files | _ => Err IndexError end.
  (** [import_data] of the class: the names of the variables and the Dataset. *)
  Definition import_grid (cls : string) (p : params) (b : boundary) (files : list string) : res (list string * xrds) :=
    let opened files f := nd <- open_nc cls files ;; ds <- f b (snd nd) ;; Ok (fst nd, ds) in
    if String.eqb cls "GEBCODataLoader" then opened files import_plain
    else if String.eqb cls "BalticSeaIceDataLoader" then opened files import_reversed
    else if String.eqb cls "BSOSEDepthDataLoader" then opened files import_bsose_depth
    else if String.eqb cls "BSOSESeaIceDataLoader" then u <- attr_units p ;; opened files (import_bsose_ice u)
    else if existsb (String.eqb cls) era5_waves then files <- by_date b files ;; opened files (import_era5 (fun l => l))
    else if String.eqb cls "ERA5WindMagDataLoader" then
      files <- by_date b files ;; nd <- opened files (import_era5 (wind_mag sqrt)) ;; Ok (["wind_mag"], snd nd)
    else Err NotImplementedError.

  (** abstract_scalar.py 68-75 for Datasets *)
  Definition coords_of (ds : xrds) : list string := "lat" :: "long" :: match x_time ds with Some _ => ["time"] | None => [] end.
  Definition name_source_xr (data_name : option string) (names : list string) (ds : xrds) : res string :=
    let t := map (fun n => (n, tt)) names in
    match data_name with
    | None => get_name_xr t
    | Some n => _ <- set_name_xr n (coords_of ds) t ;; Ok n
    end.

  (** abstract_scalar.py 53-95 for Datasets, after [import_data]; the reprojected ones are
      DataFrames (705-708); the fast reprojection is not modelled. *)
  Definition construct_dataset (k : nat) (p : params) (b : boundary) (nd : list string * xrds) : res (loader * data) :=
    factors <- attr_factors p ;;
    agg <- attr_text p "aggregate_type" ;; min_dp <- attr_int p "min_dp" ;;
    ds <- downsample sqrt agg factors (snd nd) ;;
    in_proj <- attr_text p "in_proj" ;; out_proj <- attr_text p "out_proj" ;;
    name <- attr_name p ;;
    if String.eqb in_proj out_proj then
      n <- name_source_xr name (fst nd) ds ;;
      ds <- construct_xr b ds ;;
      Ok (scalar_xr (Z.of_nat k) n agg min_dp sqrt, xr_points ds)
    else
      fast <- attr p "fast_reprojection" ;;
      if py_true fast then Err NotImplementedError
      else
        x_col <- attr_text p "x_col" ;; y_col <- attr_text p "y_col" ;;
        t <- reproject_xr (proj in_proj out_proj) x_col y_col (mkGridded "long" "lat" (fst nd) ds) ;;
        nt <- name_source_df name t ;;
        d <- construct_df b (table_points (snd nt)) ;;
        Ok (scalar_df (Z.of_nat k) (fst nt) agg min_dp sqrt, d).
  Definition construct_grid (k : nat) (cls : string) (p : params) (b : boundary) : res (loader * data) :=
    files <- attr_files p ;;
    nd <- import_grid cls p b files ;;
    construct_dataset k p b nd.

  (** Calling the class [cls]; the other classes are not modelled. *)
  Definition construct_source (k : nat) (cls : string) (p : params) (b : boundary) : res (loader * data) :=
    if String.eqb cls "ScalarCSVDataLoader" then construct_csv k p b else construct_grid k cls p b.
End Sources.
