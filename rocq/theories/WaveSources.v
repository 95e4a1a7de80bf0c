(** Model of the wave heights of ECMWF and the currents of ORAS5 as sources, from the
    configuration to the object the mesh uses: [__init__] of abstract_scalar.py 53-95 and
    abstract_vector.py 47-100 with [import_data] of scalar/ecmwf_sig_wave_height.py 9-97
    and vector/oras5_current.py 10-39; the steps are those of Files.v, Forecast.v and
    VecSources.v.  No proofs here.

    Not modelled: ECMWF files on different grids, which [xr.concat] would join; their
    reprojection. *)
From Verif Require Import Base Geo Graph Cell Loaders AddLoader VecLoader Builder Env Construct Names PyStr Dates Config Params Downsample Files Import Forecast Reproject Sources VecSources Shapes ShapeSources Grf
  Lut LutFiles LutSources AllSources GrfSources IceSources WindSources.
Open Scope string_scope.
Open Scope Z_scope.

(** The cells select whole days, so that of a time in hours only its day matters. *)
Definition by_day (p : point) : point := mkP (p_lat p) (p_long p) (option_map (fun h => h / 24) (p_time p)) (p_vals p).
Definition same_axes (a c : xrds) : bool := same_axis (x_lat a) (x_lat c) && same_axis (x_long a) (x_long c).
Definition opened_or_empty (open : string -> res xrds) (f : string) : xrds := match open f with Ok ds => ds | Err _ => mkXr [] [] None (fun _ _ _ => []) end.

Section WaveSources.
  Variable sqrt : Q -> Q.
  Variable proj : string -> string -> Q -> Q -> Q * Q.
  (** [strict]: as in Forecast.v.  An ECMWF file; the files of ORAS5. *)
  Variable strict : bool.
  Variable open_wave : string -> res xrds.
  Variable open_oras : list string -> res oras5_file.

  (** abstract_scalar.py 53-95 for a Dataset with times in hours *)
  Definition construct_hours (k : nat) (p : params) (b : boundary) (vars : list string) (ds : xrds) : res (loader * data) :=
    factors <- attr_factors p ;;
    agg <- attr_text p "aggregate_type" ;; min_dp <- attr_int p "min_dp" ;;
    ds <- downsample sqrt agg factors ds ;;
    in_proj <- attr_text p "in_proj" ;; out_proj <- attr_text p "out_proj" ;;
    name <- attr_name p ;;
    if String.eqb in_proj out_proj then
      n <- name_source_xr name vars ds ;;
      coverage <- coverage_xr b ds ;;
      ds <- (if qeqb coverage 0 then Ok ds else trim_hours strict b ds) ;;
      Ok (scalar_xr (Z.of_nat k) n agg min_dp sqrt, map by_day (xr_points ds))
    else Err NotImplementedError.
  (** ecmwf_sig_wave_height.py 53-97 *)
  Definition construct_ecmwf (k : nat) (p : params) (b : boundary) : res (loader * data) :=
    files <- attr_files p ;;
    match time_range b with
    | t0 :: t1 :: _ =>
        fs <- ecmwf t0 t1 files ;;
        opened <- mapM open_wave fs ;;
        if forallb (same_axes (hd (opened_or_empty open_wave "") opened)) opened then
          ds <- import_ecmwf (opened_or_empty open_wave) t0 t1 files ;;
          construct_hours k p b ["swh"] ds
        else Err NotImplementedError
    | _ => Err IndexError
    end.
  (** oras5_current.py 24-39 *)
  Definition construct_oras5 (k : nat) (p : params) (b : boundary) : res (loader * data) :=
    files <- attr_files p ;;
    f <- open_oras files ;;
    ds <- import_oras5 b f ;;
    construct_vector_dataset sqrt k p b (["uC"; "vC"], ds).

  (** Any source at all, these included. *)
  Variable bearing : Q -> Q -> Q.
  Variable open_nc : string -> list string -> res (list string * xrds).
  Variable open_amsr : string -> res amsr_ds.
  Variable open_icenet : string -> res icenet_ds.
  Variable open_ice : string -> res xrds.
  Variables cos sin : Q -> Q.
  Variable noise : nat -> nat -> json -> Z -> json -> res (list Q).
  Variable o : planar.
  Variable edge : geom o -> geom o -> bool.
  Variables dsin dcos : Q -> Q.
  Variable read_csv : string -> res dframe.
  Variable read_table : string -> res (csv o).
  Variable read_shapes : string -> res (list (geom o)).
  Definition construct_wave (k : nat) (cls : string) (p : params) (b : boundary) : res (loader * data) :=
    if String.eqb cls "ECMWFSigWaveHeightDataLoader" then construct_ecmwf k p b
    else if String.eqb cls "ORAS5CurrentDataLoader" then construct_oras5 k p b
    else construct_wind sqrt proj bearing open_nc open_amsr open_icenet open_ice cos sin noise o edge dsin dcos read_csv read_table read_shapes k cls p b.
End WaveSources.
