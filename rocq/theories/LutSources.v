(** Model of look-up tables as sources of a mesh: abstract_lut.py 42-86 with [import_data]
    of thickness.py, density.py, lut_csv.py, lut_geojson.py, lut_shapefile.py and
    scotland_ncmpa.py; [trim_datapoints], [get_value] and [get_hom_condition]
    (abstract_lut.py 206-348) as a mesh calls them.  No proofs here.

    The mesh's data is a list of points (Cell.v); that of a table is the list of the
    numbers of its rows.  Simplification: true and false count as 1 and 0 in a cell (the
    mesh file has true and false for them with MIN and MAX). *)
From Verif Require Import Base Geo Cell Loaders AddLoader Builder Env PyStr Config Params Names Lut LutFiles Sources.
Open Scope string_scope.
Open Scope Z_scope.

Section Tables.
  Variable o : planar.
  (** [p.boundary.intersects(q)] *)
  Variable edge : geom o -> geom o -> bool.
  Variable sqrt : Q -> Q.
  Definition ltable := list (geom o * lval).

  (** ** Rows and their numbers *)
  Definition row_point (i : nat) : point := mkP (inject_Z (Z.of_nat i)) 0%Q None [].
  Definition all_rows (t : ltable) : data := map row_point (seq 0 (List.length t)).
  Definition row_of (t : ltable) (p : point) : option (geom o * lval) := nth_error t (Z.to_nat (Qfloor (p_lat p))).
  Definition rows_of (t : ltable) (d : data) : ltable :=
    flat_map (fun p => match row_of t p with Some r => [r] | None => [] end) d.
  (** abstract_lut.py 206-229: [data.iloc[intersections]] *)
  Definition table_trim (t : ltable) (b : boundary) (d : data) : data :=
    filter (fun p => match row_of t p with Some r => g_intersects o (fst r) (g_shape o (Rect b)) | None => false end) d.

  (** ** abstract_lut.py 231-309 [get_value] of rows with their values in [column] *)
  Definition lval_value (v : lval) : option Q := match v with LNan => None | _ => Some (lval_num v) end.
  Definition table_std (b : boundary) (t : ltable) : res (option Q) :=
    let ps := val_trim o b t in
    let w := lut_coverage o b (map fst ps) in
    let vs := map (fun p => lval_num (snd p)) ps in
    let ws := map (fun _ => w) ps in
    avg <- np_average vs ws ;;
    var <- np_average (map (fun v => (v - avg) * (v - avg))%Q vs) ws ;;
    Ok (if existsb is_nan (map snd ps) then None else Some (sqrt var)).
  (** A configured name is not the column's: [set_data_col_name] renames the index
      (Names.v), and [polygons[self.data_name]] raises KeyError.  MEDIAN's value is a row,
      of which np.isnan makes TypeError (cellbox.py 330). *)
  Definition table_value (name column agg : string) (b : boundary) (t : ltable) : res (option Q) :=
    let ps := val_trim o b t in
    let mean := v <- mean_val o b t ;; Ok (lval_value v) in
    if String.eqb agg "COUNT" then Ok (Some (inject_Z (Z.of_nat (List.length ps))))
    else match ps with
    | [] => Ok None
    | _ =>
        if negb (existsb (String.eqb agg) ["MIN"; "MAX"; "MEAN"; "MEDIAN"; "STD"]) then Err ValueError
        else if String.eqb agg "MEDIAN" then Err TypeError
        else if negb (String.eqb name column) then Err KeyError
        else if String.eqb agg "MIN" then Ok (lval_value (extreme_val o false b t))
        else if String.eqb agg "MAX" then Ok (lval_value (extreme_val o true b t))
        else if String.eqb agg "MEAN" then mean
        else table_std b t
    end.

  (** ** abstract_lut.py 311-348 [get_hom_condition]: of the condition, 'boundary' is in
      the threshold (Pipeline.v) *)
  Definition table_hom (t : ltable) (b : boundary) (c : cond) (d : data) : hom :=
    lut_hom o edge b (c_lock c) (negb (qeqb (c_threshold c) 0)) (map (fun r => (fst r, 0%Q)) (rows_of t d)).

  Definition table_loader (uid : Z) (name column agg : string) (t : ltable) : loader :=
    mkLoader uid [name] (table_trim t) (table_hom t)
      (fun b d => v <- table_value name column agg b (rows_of t d) ;; Ok [(name, v)]).

  (** ** abstract_lut.py 42-86 *)
  Variable read_table : string -> res (csv o).          (* pd.read_csv and wkt.loads *)
  Variable read_shapes : string -> res (list (geom o)). (* gpd.read_file *)
  Definition attr_value (p : params) : res lval :=
    v <- attr p "value" ;;
    match v with JBool x => Ok (LB x) | JInt z => Ok (LQ (inject_Z z)) | JFloat q => Ok (LQ q) | JNull => Ok LNan | _ => Err TypeError end.
  (** 64-86 for the tables made from the dates *)
  Definition dated (b : boundary) (rows : res (list (lrow (geom o)))) : res ltable :=
    rs <- rows ;; d <- verify_data o rs ;;
    if qeqb (lut_coverage o b (map fst d)) 0 then Err ValueError
    else Ok (map (fun r => (fst r, LQ (snd r))) (lut_trim o b d)).
  (** The column, the name and the rows.  lut_csv.py 40 names the source after the column;
      lut_geojson.py 54-55 names the column after the source (without a name, the mesh raises
      TypeError later: [None] has no [in]). *)
  Definition import_table (cls : string) (p : params) (b : boundary) : res (string * string * ltable) :=
    given <- attr_name p ;;
    let named column := match given with Some n => n | None => column end in
    if String.eqb cls "ThicknessDataLoader" then t <- dated b (thickness_data o b) ;; Ok (named "thickness", "thickness", t)
    else if String.eqb cls "DensityDataLoader" then t <- dated b (density_data o b) ;; Ok (named "density", "density", t)
    else
      files <- attr_files p ;;
      if String.eqb cls "LutCSV" then
        fs <- mapM read_table files ;; nt <- load_lut_csv o b fs ;; Ok (fst nt, fst nt, snd nt)
      else
        fs <- mapM read_shapes files ;;
        if String.eqb cls "ScotlandNCMPA" then t <- load_shapes o b (LB true) fs ;; Ok (named "exclusion_zone", "exclusion_zone", t)
        else if String.eqb cls "LutGeoJSON" || String.eqb cls "LutShapefile" then
          v <- attr_value p ;; t <- load_shapes o b v fs ;;
          match given with Some n => Ok (n, n, t) | None => Err TypeError end
        else Err NotImplementedError.
  Definition construct_table (k : nat) (cls : string) (p : params) (b : boundary) : res (loader * data) :=
    nct <- import_table cls p b ;;
    agg <- attr_text p "aggregate_type" ;;
    Ok (table_loader (Z.of_nat k) (fst (fst nct)) (snd (fst nct)) agg (snd nct), all_rows (snd nct)).
End Tables.
