(** Model of reprojection: [reproject] of abstract_scalar.py 602-721 and abstract_vector.py
    602-721 (the accurate method; the fast one is a call of rioxarray), its place in
    [__init__] (abstract_scalar.py 53-95), and the sources it serves: scalar/amsr.py 66-102,
    scalar/visual_iced.py 9-83; csv files (scalar_csv.py 20-28).  No proofs here.

    A DataFrame is the list of its columns.  The projection is any function of x and y;
    places outside its domain, which pyproj gives as infinite, are not modelled. *)
From Verif Require Import Base Geo Cell Loaders Builder Env Construct Names PyStr.
Open Scope Q_scope.

(** The entries of columns: numbers (None for NaN) and days. *)
(** A file of AMSR data: its day and its values. *)
Notation amsr_file := (Z * (nat -> nat -> option Q))%type (only parsing).
Inductive entry := ENum (v : option Q) | EDay (t : Z).
Definition dframe := table (list entry).

Definition column_of (t : dframe) (c : string) : res (list entry) :=
  match sget t c with Some l => Ok l | None => Err KeyError end.
(** [data.drop(c, axis=1)] *)
Definition drop_column (c : string) (t : dframe) : res dframe :=
  match sget t c with Some _ => Ok (filter (fun x => negb (String.eqb (fst x) c)) t) | None => Err KeyError end.

Section Projection.
  Variable proj : Q -> Q -> Q * Q.
  (** [Transformer.transform(x, y)] *)
  Definition transform (x y : entry) : entry * entry :=
    match x, y with
    | ENum (Some x), ENum (Some y) => (ENum (Some (fst (proj x y))), ENum (Some (snd (proj x y))))
    | _, _ => (ENum None, ENum None)
    end.
  (** abstract_scalar.py 626-662 [reproject_df] *)
  Definition reproject_df (x_col y_col : string) (t : dframe) : res dframe :=
    xs <- column_of t x_col ;;
    ys <- column_of t y_col ;;
    let xy := map (fun p => transform (fst p) (snd p)) (combine xs ys) in
    t <- (if String.eqb x_col "long" then Ok t else drop_column x_col t) ;;
    t <- (if String.eqb y_col "lat" then Ok t else drop_column y_col t) ;;
    Ok (sset (sset t "lat" (map snd xy)) "long" (map fst xy)).

  (** A Dataset whose dimensions have other names: [n_ds] gives the coordinates along
      dimension [n_y] as its latitudes and those along [n_x] as its longitudes. *)
  Record gridded := mkGridded { n_x : string; n_y : string; n_vars : list string; n_ds : xrds }.
  (** The table of rows [d]: columns of the coordinates, then of the variables. *)
  Definition table_of (x_name y_name : string) (timed : bool) (vars : list string) (d : data) : dframe :=
    ((if timed then [("time"%string, map (fun p => match p_time p with Some t => EDay t | None => ENum None end) d)] else []) ++
    [(y_name, map (fun p => ENum (Some (p_lat p))) d); (x_name, map (fun p => ENum (Some (p_long p))) d)] ++
    map (fun v => (snd v, map (fun p => ENum (nth (fst v) (p_vals p) None)) d)) (combine (seq 0 (List.length vars)) vars))%list.
  Definition timed (ds : xrds) : bool := match x_time ds with Some _ => true | None => false end.
  (** abstract_scalar.py 705-708: [data.to_dataframe().reset_index().dropna()]; the order of
      the rows is immaterial. *)
  Definition reproject_xr (x_col y_col : string) (ds : gridded) : res dframe :=
    reproject_df x_col y_col (table_of (n_x ds) (n_y ds) (timed (n_ds ds)) (n_vars ds) (filter complete (xr_points (n_ds ds)))).

  (** abstract_scalar.py 710-721, a DataFrame *)
  Definition reproject (in_proj out_proj x_col y_col : string) (t : dframe) : res dframe :=
    if String.eqb in_proj out_proj then Ok t else reproject_df x_col y_col t.

  (** The rows of a table as data points; the loaders read 'lat', 'long', 'time' and the
      data columns.  Coordinates that are not numbers do not occur here. *)
  Definition num (e : entry) : option Q := match e with ENum v => v | EDay _ => None end.
  Definition row_point (t : dframe) (k : nat) : point :=
    let get c := match sget t c with Some l => nth k l (ENum None) | None => ENum None end in
    mkP (match num (get "lat"%string) with Some q => q | None => 0 end)
        (match num (get "long"%string) with Some q => q | None => 0 end)
        (match get "time"%string with EDay d => Some d | ENum _ => None end)
        (map (fun n => num (get n)) (data_names t)).
  Definition n_rows (t : dframe) : nat := match t with [] => 0%nat | c :: _ => List.length (snd c) end.
  Definition table_points (t : dframe) : data := map (row_point t) (seq 0 (n_rows t)).

  (** amsr.py 66-102: the files within the time range, one day each, on one grid. *)

  Definition import_amsr (t0 t1 : Z) (ys xs : list (Q * nat)) (files : list amsr_file) : res gridded :=
    match filter (fun f => ((t0 <=? fst f) && (fst f <=? t1))%Z) files with
    | [] => Err FileNotFoundError
    | fs => Ok (mkGridded "x" "y" ["SIC"%string]
                  (mkXr ys xs (Some (combine (map fst fs) (seq 0 (List.length fs)))) (fun i j k => [snd (nth k fs (0%Z, fun _ _ => None)) i j])))
    end.
  (** abstract_scalar.py 739-786, 792-804: [coarsen] and [thin] of a Dataset without a
      dimension 'lat' raise ValueError; other types of aggregation change nothing. *)
  Definition downsample_gridded (factors : Z * Z) (agg_type : string) (ds : gridded) : res gridded :=
    if ((fst factors =? 1) && (snd factors =? 1))%Z then Ok ds
    else if existsb (String.eqb agg_type) ["MIN"; "MAX"; "MEAN"; "MEDIAN"; "STD"; "COUNT"]%string then Err ValueError
    else Ok ds.
  (** abstract_scalar.py 53-95 for AMSR, whose default columns are 'x' and 'y' *)
  Definition load_amsr (factors : Z * Z) (agg_type : string) (data_name : option string) (b : boundary) (t0 t1 : Z)
      (ys xs : list (Q * nat)) (files : list amsr_file) : res data :=
    ds <- import_amsr t0 t1 ys xs files ;;
    ds <- downsample_gridded factors agg_type ds ;;
    t <- reproject_xr "x" "y" ds ;;
    nt <- name_source_df data_name t ;;
    construct_df b (table_points (snd nt)).

  (** visual_iced.py 9-83: the file by its ending; [None] is the Python None.  The rows
      of a tiff are the same as those of its Dataset. *)
  Definition percentage (l : list (option Q)) : list (option Q) := map (option_map (fun x => x * 100)) l.
  Definition import_visual_iced (files : list string) (ds : xrds) : res (option gridded) :=
    match files with
    | [f] =>
        let e := last (split "." f) ""%string in
        if String.eqb e "tiff" || String.eqb e "nc" then
          Ok (Some (mkGridded "x" "y" ["SIC"%string] (mkXr (x_lat ds) (x_long ds) (x_time ds) (fun i j k => percentage (x_val ds i j k)))))
        else Ok None
    | _ => Err ValueError
    end.
  (** abstract_scalar.py 157-190 [calculate_coverage] of a Dataset without dimension 'lat':
      [dropna(dim="lat")] raises ValueError; of None: [None*100] raises TypeError. *)
  Definition load_visual_iced (in_proj out_proj x_col y_col : string) (data_name : option string) (b : boundary)
      (files : list string) (ds : xrds) : res data :=
    ods <- import_visual_iced files ds ;;
    match ods with
    | None => Err TypeError
    | Some ds =>
        if String.eqb in_proj out_proj then Err ValueError
        else
          t <- reproject_xr x_col y_col ds ;;
          nt <- name_source_df data_name t ;;
          construct_df b (table_points (snd nt))
    end.

  (** scalar_csv.py 20-28 then abstract_scalar.py 53-66: a csv file is trimmed by its
      columns 'lat' and 'long' before it is reprojected. *)
  Definition keep_rows (mask : list bool) (t : dframe) : dframe :=
    map (fun c => (fst c, map snd (filter fst (combine mask (snd c))))) t.
  (** Under a column 'time', a missing entry passes no comparison. *)
  Definition stamped (t : dframe) (p : point) : bool :=
    match sget t "time"%string, p_time p with Some _, None => false | _, _ => true end.
  Definition trim_table (b : boundary) (t : dframe) : res dframe :=
    _ <- column_of t "lat" ;;
    _ <- column_of t "long" ;;
    Ok (keep_rows (map (fun p => df_spatial b p && (in_time b p && stamped t p)) (table_points t)) t).
  Definition load_csv (in_proj out_proj x_col y_col : string) (data_name : option string) (b : boundary) (t : dframe) : res data :=
    t <- trim_table b t ;;
    t <- reproject in_proj out_proj x_col y_col t ;;
    nt <- name_source_df data_name t ;;
    construct_df b (table_points (snd nt)).
End Projection.
