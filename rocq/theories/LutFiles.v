(** Model of the look-up tables read from files: lut/lut_csv.py 13-53, lut/lut_geojson.py
    37-71, lut/lut_shapefile.py 37-71, lut/scotland_ncmpa.py 12-43, and what abstract_lut.py
    42-86, 131-169, 231-262 makes of their tables.  No proofs here.

    The geometry shapely provides is an argument, as in Lut.v.  A geometry collection that
    contains a polygon counts as no polygon.  STRtree's order of the rows it finds is not
    modelled: rows keep their order. *)
From Verif Require Import Base Geo Cell Loaders Names Lut.
Open Scope Q_scope.

Record planar := mkPlanar {
  p_geo :> geometry;
  p_union : list (geom p_geo) -> geom p_geo;                 (* unary_union *)
  p_minus : geom p_geo -> geom p_geo -> geom p_geo }.        (* - *)

(** The values of a table: numbers, booleans and NaN. *)
Inductive lval := LQ (v : Q) | LB (v : bool) | LNan.

Section Files.
  Variable o : planar.
  (** Rows with their labels. *)
  Record labelled := mkLab { lb_label : nat; lb_geom : geom o; lb_val : lval }.
  Definition label_rows (rows : list (geom o * lval)) : list labelled :=
    map (fun r => mkLab (fst r) (fst (snd r)) (snd (snd r))) (combine (seq 0 (List.length rows)) rows).
  Definition world : boundary := box_of (-90) 90 (-180) 180.
  (** [world_polygon - unary_union(geometry)] *)
  Definition undefined (rows : list (geom o * lval)) : geom o :=
    p_minus o (g_shape o (Rect world)) (p_union o (map fst rows)).
  Definition lab_trim (b : boundary) (rows : list labelled) : list labelled :=
    filter (fun r => g_intersects o (lb_geom r) (g_shape o (Rect b))) rows.

  (** lut_csv.py 13-53: the files read and put together; [c_cols] are their columns, in
      order.  The row appended lists the geometry first; with the geometry in the second
      column the table has a geometry NaN, of which STRtree makes TypeError. *)
  Record csv := mkCsv { c_cols : list string; c_rows : list (geom o * lval) }.
  Definition concat_cols (files : list csv) : list string :=
    fold_left (fun cols f => cols ++ filter (fun c => negb (existsb (String.eqb c) cols)) (c_cols f))%list files [].
  Definition import_lut_csv (b : boundary) (files : list csv) : res (string * list labelled) :=
    match files with
    | [] => Err ValueError
    | _ =>
        let cols := concat_cols files in
        let rows := flat_map c_rows files in
        if negb (existsb (String.eqb "geometry") cols) then Err AssertionError
        else if negb (forallb (fun r => match g_kind o (fst r) with KOther => false | _ => true end) rows) then Err AssertionError
        else match cols with
        | [c; d] =>
            if String.eqb c "geometry" then
              Ok (d, lab_trim b (label_rows (rows ++ [(undefined rows, LNan)])))
            else Err TypeError
        | _ => Err AssertionError
        end
    end.

  (** lut_geojson.py 37-71, lut_shapefile.py 37-71; scotland_ncmpa.py 27-43 with [LB true] *)
  Definition opposite (v : lval) : lval := match v with LB v => LB (negb v) | _ => LNan end.
  Definition import_shapes (b : boundary) (value : lval) (files : list (list (geom o))) : res (list labelled) :=
    match files with
    | [] => Err ValueError
    | _ =>
        let rows := map (fun g => (g, value)) (List.concat files) in
        Ok (lab_trim b (label_rows (rows ++ [(undefined rows, opposite value)])))
    end.

  (** abstract_lut.py 131-169 [verify_data]: [data.loc[[index]]] is every row with the
      label. *)
  Definition with_label (rows : list labelled) (k : nat) : list labelled := filter (fun r => Nat.eqb (lb_label r) k) rows.
  Definition verify_one (rows : list labelled) (r : labelled) : res (list (geom o * lval)) :=
    match g_kind o (lb_geom r) with
    | KPolygon => Ok (map (fun x => (lb_geom x, lb_val x)) (with_label rows (lb_label r)))
    | KMulti =>
        let parts := g_parts o (lb_geom r) in
        let new_df := List.concat (map (fun _ => with_label rows (lb_label r)) parts) in
        if Nat.eqb (List.length new_df) (List.length parts)
        then Ok (map (fun p => (snd p, lb_val (fst p))) (combine new_df parts)) else Err ValueError
    | KOther => Err ValueError
    end.
  Definition verify_labelled (rows : list labelled) : res (list (geom o * lval)) :=
    match rows with [] => Err ValueError | _ => rs <- mapM (verify_one rows) rows ;; Ok (List.concat rs) end.
  Definition val_trim (b : boundary) (d : list (geom o * lval)) : list (geom o * lval) :=
    filter (fun p => g_intersects o (fst p) (g_shape o (Rect b))) d.
  (** abstract_lut.py 64-86 *)
  Definition finish (b : boundary) (rows : list labelled) : res (list (geom o * lval)) :=
    d <- verify_labelled rows ;;
    if qeqb (lut_coverage o b (map fst d)) 0 then Err ValueError else Ok (val_trim b d).
  Definition load_lut_csv (b : boundary) (files : list csv) : res (string * list (geom o * lval)) :=
    nr <- import_lut_csv b files ;; d <- finish b (snd nr) ;; Ok (fst nr, d).
  Definition load_shapes (b : boundary) (value : lval) (files : list (list (geom o))) : res (list (geom o * lval)) :=
    rows <- import_shapes b value files ;; finish b rows.

  (** abstract_lut.py 231-262 [get_value]: MIN and MAX, [skipna=False]: NaN if a value is
      NaN. *)
  Definition lval_num (v : lval) : Q := match v with LQ q => q | LB true => 1 | LB false => 0 | LNan => 0 end.
  Definition is_nan (v : lval) : bool := match v with LNan => true | _ => false end.
  Definition pick_val (better : Q -> Q -> bool) (l : list lval) : lval :=
    match l with
    | [] => LNan
    | v :: l' => if existsb is_nan l then LNan
                 else fold_left (fun a x => if better (lval_num x) (lval_num a) then x else a) l' v
    end.
  Definition extreme_val (max : bool) (b : boundary) (d : list (geom o * lval)) : lval :=
    pick_val (if max then fun x a => qltb a x else qltb) (map snd (val_trim b d)).
  (** MEAN: the weights are all the coverage of all the polygons, as in Lut.v; the mean of
      booleans is a number. *)
  Definition mean_val (b : boundary) (d : list (geom o * lval)) : res lval :=
    let ps := val_trim b d in
    let w := lut_coverage o b (map fst ps) in
    match ps with
    | [] => Ok LNan
    | _ => v <- np_average (map (fun p => lval_num (snd p)) ps) (map (fun _ => w) ps) ;;
           Ok (if existsb is_nan (map snd ps) then LNan else LQ v)
    end.
End Files.
Arguments mkLab {o}. Arguments lb_label {o}. Arguments lb_geom {o}. Arguments lb_val {o}.
Arguments mkCsv {o}. Arguments c_cols {o}. Arguments c_rows {o}.
