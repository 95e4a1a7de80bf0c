(** Model of whole vector sources, from the files to the object the mesh uses: [__init__]
    of abstract_vector.py 47-100 with [import_data] of vector_csv.py, sose.py,
    baltic_current.py, duacs_current.py, north_sea_current.py, era5_wind.py and
    era5_wave_direction_vector.py; the steps are those of Sources.v, Import.v and Names.v.  [trim_datapoints], [downsample] and [reproject] of
    abstract_vector.py are those of abstract_scalar.py.  No proofs here. *)
From Verif Require Import Base Geo Graph Cell Loaders AddLoader VecLoader Builder Env Construct Names PyStr Dates Config Params Downsample Files Import Reproject Sources.
Open Scope string_scope.
Open Scope Z_scope.

(** abstract_vector.py 168-230 [add_mag_dir]: [x, y = names].  The columns it adds are
    those Loaders.v and AddLoader.v compute when they are asked for.  Simplification: the
    variables of a Dataset have its dimensions in its order (for others see [relabel] of
    VecAgg.v). *)
Definition add_mag_dir (names : list string) : res unit := match names with [_; _] => Ok tt | _ => Err ValueError end.
(** era5_wave_direction_vector.py 50-55; [dsin] and [dcos] are of degrees. *)
Definition wave_vector (dsin dcos : Q -> Q) (l : list (option Q)) : list (option Q) :=
  match l with [Some d] => [Some (-1 * dsin d)%Q; Some (-1 * dcos d)%Q] | _ => [None; None] end.
(** abstract_vector.py 65-74, 837-862, 864-903 for Datasets *)
Definition name_vector_xr (data_name : option string) (vars : list string) (ds : xrds) : res (list string) :=
  let old_names := split "," (join "," vars) in
  match data_name with
  | None => Ok old_names
  | Some n =>
      let new_names := split "," n in
      if Nat.eqb (List.length old_names) (List.length new_names) then
        _ <- rename_xr (name_dict old_names new_names) (coords_of ds) (map (fun v => (v, tt)) vars) ;; Ok new_names
      else Err AssertionError
  end.

Section VecSources.
  (** As in Sources.v; and the sine and cosine of degrees. *)
  Variables sqrt dsin dcos : Q -> Q.
  Variable proj : string -> string -> Q -> Q -> Q * Q.
  Variable read_csv : string -> res dframe.
  Variable open_nc : string -> list string -> res (list string * xrds).

  (** abstract_vector.py 47-100 for DataFrames, from the trimming at the end of
      [import_data] *)
  Definition construct_frame (k : nat) (p : params) (b : boundary) (t : dframe) : res (loader * data) :=
    t <- trim_table b t ;;
    in_proj <- attr_text p "in_proj" ;; out_proj <- attr_text p "out_proj" ;;
    x_col <- attr_text p "x_col" ;; y_col <- attr_text p "y_col" ;;
    t <- reproject (proj in_proj out_proj) in_proj out_proj x_col y_col t ;;
    name <- attr_name p ;;
    nt <- name_vector_df name t ;;
    _ <- add_mag_dir (fst nt) ;;
    d <- construct_df b (table_points (snd nt)) ;;
    agg <- attr_text p "aggregate_type" ;; min_dp <- attr_int p "min_dp" ;;
    Ok (vector_df (Z.of_nat k) (fst nt) agg min_dp d sqrt, d).
  (** vector_csv.py 20-28.  Simplification: rows keep labels of their own (with several
      files they do not: VecAgg.v). *)
  Definition construct_vector_csv (k : nat) (p : params) (b : boundary) : res (loader * data) :=
    files <- attr_files p ;;
    ts <- mapM read_csv files ;;
    t <- concat_tables ts ;;
    construct_frame k p b t.
  (** sose.py 22-32: the Dataset as a DataFrame, without the times.  Simplification: its
      rows are in the order of [xr_points]. *)
  Definition sose_frame (vars : list string) (ds : xrds) : res dframe :=
    if existsb (String.eqb "uC") vars && existsb (String.eqb "vC") vars then
      let rows := xr_points ds in
      let values c := map (fun p => ENum (match sget (combine vars (p_vals p)) c with Some v => v | None => None end)) rows in
      Ok [("lat", map (fun p => ENum (Some (p_lat p))) rows); ("long", map (fun p => ENum (Some (sose_long (p_long p)))) rows); ("uC", values "uC"); ("vC", values "vC")]
    else Err KeyError.
  Definition construct_sose (k : nat) (p : params) (b : boundary) : res (loader * data) :=
    files <- attr_files p ;;
    nd <- open_nc "SOSEDataLoader" files ;;
    t <- sose_frame (fst nd) (snd nd) ;;
    construct_frame k p b t.

  Definition import_vector_grid (cls : string) (b : boundary) (files : list string) : res (list string * xrds) :=
    let opened files f := nd <- open_nc cls files ;; ds <- f b (snd nd) ;; Ok (fst nd, ds) in
    if String.eqb cls "NorthSeaCurrentDataLoader" then opened files import_plain
    else if String.eqb cls "BalticCurrentDataLoader" then opened files import_baltic_current
    else if String.eqb cls "DuacsCurrentDataLoader" then files <- by_date b files ;; opened files import_plain
    else if String.eqb cls "ERA5WindDataLoader" then files <- by_date b files ;; opened files import_reversed
    else if String.eqb cls "ERA5WaveDirectionLoader" then
      files <- by_date b files ;; nd <- opened files (import_era5 (wave_vector dsin dcos)) ;; Ok (["uW"; "vW"], snd nd)
    else Err NotImplementedError.

  (** abstract_vector.py 47-100 for Datasets, after [import_data]; reprojecting them is not
      modelled here. *)
  Definition construct_vector_dataset (k : nat) (p : params) (b : boundary) (nd : list string * xrds) : res (loader * data) :=
    factors <- attr_factors p ;;
    agg <- attr_text p "aggregate_type" ;; min_dp <- attr_int p "min_dp" ;;
    ds <- downsample sqrt agg factors (snd nd) ;;
    in_proj <- attr_text p "in_proj" ;; out_proj <- attr_text p "out_proj" ;;
    name <- attr_name p ;;
    if String.eqb in_proj out_proj then
      ns <- name_vector_xr name (fst nd) ds ;;
      _ <- add_mag_dir ns ;;
      ds <- construct_xr b ds ;;
      Ok (vector_xr (Z.of_nat k) ns agg sqrt, xr_points ds)
    else Err NotImplementedError.
  Definition construct_vector_grid (k : nat) (cls : string) (p : params) (b : boundary) : res (loader * data) :=
    files <- attr_files p ;;
    nd <- import_vector_grid cls b files ;;
    construct_vector_dataset k p b nd.

  Definition vector_classes : list string :=
    ["VectorCSVDataLoader"; "SOSEDataLoader"; "NorthSeaCurrentDataLoader"; "BalticCurrentDataLoader"; "DuacsCurrentDataLoader"; "ERA5WindDataLoader"; "ERA5WaveDirectionLoader"].
  (** Calling the class [cls], scalar or vector. *)
  Definition construct_any (k : nat) (cls : string) (p : params) (b : boundary) : res (loader * data) :=
    if String.eqb cls "VectorCSVDataLoader" then construct_vector_csv k p b
    else if String.eqb cls "SOSEDataLoader" then construct_sose k p b
    else if existsb (String.eqb cls) vector_classes then construct_vector_grid k cls p b
    else construct_source sqrt proj read_csv open_nc k cls p b.
End VecSources.
