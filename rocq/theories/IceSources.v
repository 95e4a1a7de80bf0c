(** Model of the sea ice of AMSR, IceNet and Visual_Ice as sources, from the configuration
    to the object the mesh uses: [__init__] of abstract_scalar.py 53-95 with [import_data]
    of scalar/amsr.py 43-102, scalar/icenet.py 13-104 and scalar/visual_iced.py 9-83; the
    steps are those of Files.v, Forecast.v, Reproject.v, Names.v and Construct.v.  No proofs
    here.

    Not modelled: AMSR files on different grids, which [xr.concat] would join; the fast
    reprojection. *)
From Verif Require Import Base Geo Graph Cell Loaders AddLoader VecLoader Builder Env Construct Names PyStr Dates Config Params Downsample Files Import Forecast Reproject Sources VecSources Shapes ShapeSources Grf
  Lut LutFiles LutSources AllSources GrfSources.
Open Scope string_scope.
Open Scope Z_scope.

(** An AMSR file: its coordinates 'y' and 'x', and 'z'. *)
Definition amsr_ds := (list (Q * nat) * list (Q * nat) * (nat -> nat -> option Q))%type.
Definition same_axis (l m : list (Q * nat)) : bool :=
  (List.length l =? List.length m)%nat && forallb (fun c => qeqb (fst (fst c)) (fst (snd c)) && (snd (fst c) =? snd (snd c))%nat) (combine l m).
Definition same_grid (a c : amsr_ds) : bool := same_axis (fst (fst a)) (fst (fst c)) && same_axis (snd (fst a)) (snd (fst c)).

Section IceSources.
  Variable sqrt : Q -> Q.
  Variable proj : string -> string -> Q -> Q -> Q * Q.
  Variable open_amsr : string -> res amsr_ds.
  Variable open_icenet : string -> res icenet_ds.
  (** A Visual_Ice file, netCDF or tiff. *)
  Variable open_ice : string -> res xrds.

  (** abstract_scalar.py 53-95 for a Dataset with dimensions 'x' and 'y'; without a
      reprojection it raises ValueError (157-190, as in Reproject.v) *)
  Definition construct_gridded (k : nat) (p : params) (b : boundary) (ds : gridded) : res (loader * data) :=
    factors <- attr_factors p ;;
    agg <- attr_text p "aggregate_type" ;; min_dp <- attr_int p "min_dp" ;;
    ds <- downsample_gridded factors agg ds ;;
    in_proj <- attr_text p "in_proj" ;; out_proj <- attr_text p "out_proj" ;;
    name <- attr_name p ;;
    if String.eqb in_proj out_proj then Err ValueError
    else
      fast <- attr p "fast_reprojection" ;;
      if py_true fast then Err NotImplementedError
      else
        x_col <- attr_text p "x_col" ;; y_col <- attr_text p "y_col" ;;
        t <- reproject_xr (proj in_proj out_proj) x_col y_col ds ;;
        nt <- name_source_df name t ;;
        d <- construct_df b (table_points (snd nt)) ;;
        Ok (scalar_df (Z.of_nat k) (fst nt) agg min_dp sqrt, d).

  (** amsr.py 73-102 *)
  Definition construct_amsr (k : nat) (p : params) (b : boundary) : res (loader * data) :=
    files <- attr_files p ;;
    match time_range b with
    | t0 :: t1 :: _ =>
        fs <- amsr_files t0 t1 files ;;
        opened <- mapM (fun f => day <- amsr_date f ;; g <- open_amsr f ;; Ok (day, g)) fs ;;
        match opened with
        | [] => Err FileNotFoundError
        | first :: _ =>
            if forallb (fun o => same_grid (snd first) (snd o)) opened then
              ds <- import_amsr t0 t1 (fst (fst (snd first))) (snd (fst (snd first))) (map (fun o => (fst o, snd (snd o))) opened) ;;
              construct_gridded k p b ds
            else Err NotImplementedError
        end
    | _ => Err IndexError
    end.
  (** visual_iced.py 22-38 *)
  Definition construct_visual_iced (k : nat) (p : params) (b : boundary) : res (loader * data) :=
    files <- attr_files p ;;
    ds <- (match files with [f] => open_ice f | _ => Err ValueError end) ;;
    ods <- import_visual_iced files ds ;;
    match ods with None => Err TypeError | Some g => construct_gridded k p b g end.
  (** icenet.py 38-104; the DataFrame has the columns 'time', 'lat', 'long' and 'SIC' *)
  Definition construct_icenet (k : nat) (p : params) (b : boundary) : res (loader * data) :=
    files <- attr_files p ;;
    match time_range b with
    | t0 :: t1 :: _ =>
        cf <- icenet_file t0 files ;;
        ds <- open_icenet (snd cf) ;;
        d <- import_icenet (fun _ => ds) b t0 t1 files ;;
        in_proj <- attr_text p "in_proj" ;; out_proj <- attr_text p "out_proj" ;;
        x_col <- attr_text p "x_col" ;; y_col <- attr_text p "y_col" ;;
        t <- reproject (proj in_proj out_proj) in_proj out_proj x_col y_col (table_of "long" "lat" true ["SIC"] d) ;;
        name <- attr_name p ;;
        nt <- name_source_df name t ;;
        d <- construct_df b (table_points (snd nt)) ;;
        agg <- attr_text p "aggregate_type" ;; min_dp <- attr_int p "min_dp" ;;
        Ok (scalar_df (Z.of_nat k) (fst nt) agg min_dp sqrt, d)
    | _ => Err IndexError
    end.

  (** Any source at all, these included. *)
  Variables cos sin : Q -> Q.
  Variable noise : nat -> nat -> json -> Z -> json -> res (list Q).
  Variable o : planar.
  Variable edge : geom o -> geom o -> bool.
  Variables dsin dcos : Q -> Q.
  Variable read_csv : string -> res dframe.
  Variable open_nc : string -> list string -> res (list string * xrds).
  Variable read_table : string -> res (csv o).
  Variable read_shapes : string -> res (list (geom o)).
  Definition construct_ice (k : nat) (cls : string) (p : params) (b : boundary) : res (loader * data) :=
    if String.eqb cls "AMSRDataLoader" then construct_amsr k p b
    else if String.eqb cls "IceNetDataLoader" then construct_icenet k p b
    else if String.eqb cls "VisualIcedDataLoader" then construct_visual_iced k p b
    else construct_every sqrt cos sin proj noise o edge dsin dcos read_csv open_nc read_table read_shapes k cls p b.
End IceSources.
