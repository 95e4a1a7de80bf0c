(** Model of the look-ups of mesh.py 59-144: [add_data_points], [get_cellboxes] and
    [get_cellbox] of a Mesh.  No proofs here. *)
From Verif Require Import Base Geo Graph Cell Loaders Builder Env.
Open Scope string_scope.

(** What a CellBox has: cellbox.py 52-57 and the methods of 60-400. *)
Definition cellbox_attributes : list string :=
  ["bounds"; "parent"; "minimum_datapoints"; "split_depth"; "data_source"; "id";
   "set_minimum_datapoints"; "set_data_source"; "set_parent"; "set_split_depth"; "set_id"; "set_bounds";
   "get_id"; "get_minimum_datapoints"; "get_data_source"; "get_parent"; "get_bounds"; "get_split_depth";
   "should_split"; "should_split_breadth_first"; "split"; "create_splitted_cell_boxes"; "aggregate"; "check_vector_data"; "deallocate_cellbox"].
Section Lookup.
  Variable attributes : list string.
  Definition attribute (name : string) : res unit := if existsb (String.eqb name) attributes then Ok tt else Err AttributeError.

  (** mesh.py 115-125: the cells that were not replaced by a split (those are 1). *)
  Definition get_cellboxes (m : mesh) : list cellbox := flat_map (fun c => match c with Some c => [c] | None => [] end) (cells m).
  (** mesh.py 139-144; [contains_point] as AggregatedCellBox has it. *)
  Definition get_cellbox (m : mesh) (long lat : Q) : res cellbox :=
    sel <- foldM (fun sel c => _ <- attribute "contains_point" ;;
                    Ok (if contains_point (mkE (cb_bounds c) [] (cb_id c)) lat long then (sel ++ [c])%list else sel)) [] (get_cellboxes m) ;;
    match sel with c :: _ => Ok c | [] => Err IndexError end.
  (** mesh.py 69-76: what every cell is given. *)
  Definition add_data_points (m : mesh) (d : data) : res (list (cellbox * data)) :=
    mapM (fun c => _ <- attribute "long" ;; _ <- attribute "width" ;; _ <- attribute "lat" ;; _ <- attribute "height" ;; _ <- attribute "add_data_points" ;;
       let b := cb_bounds c in
       Ok (c, filter (fun p => qltb (long_min b) (p_long p) && qleb (p_long p) (long_min b + get_width b) &&
                               (qltb (lat_min b) (p_lat p) && qleb (p_lat p) (lat_min b + get_height b))) d)) (get_cellboxes m).
End Lookup.
