(** Model of meshiphi/mesh_validation/full_mesh_validator.py, mesh_validator.py
    and sampler.py.  No proofs here. *)
From Verif Require Import Base Geo Graph Cell Loaders Builder Env.
Open Scope Z_scope.

(** ** FullMeshValidator *)

(** [s.between(a, b)]: both ends included *)
Definition between (x a b : Q) : bool := qleb a x && qleb x b.
(** full_mesh_validator.py 117-132 [slice_data] *)
Definition slice_data (source : data) (b : boundary) : data :=
  filter (fun p => between (p_long p) (long_min b) (long_max b))
    (filter (fun p => between (p_lat p) (lat_min b) (lat_max b)) source).

(** [cell.get_agg_data()[name]] *)
Definition agg_value (c : ecell) (name : string) : res jval :=
  match sget (e_data c) name with Some v => Ok v | None => Err KeyError end.
(** abs(source - cell value), NaN if either is; subtracting text raises
    TypeError (when there is a row to subtract it from). *)
Definition error_of (v : jval) (x : option Q) : res (option Q) :=
  match v with
  | JNum (Some y) => Ok (match x with Some a => Some (qabs (a - y)) | None => None end)
  | JNum None => Ok None
  | _ => Err TypeError
  end.
(** full_mesh_validator.py 92-104: the column d_scalar of all slices together.
    [i] is the position of the data column [sd_name] in the rows. *)
Definition scalar_errors (cs : list ecell) (source : data) (i : nat) (md_name : string) : res (list (option Q)) :=
  foldM (fun acc c =>
    v <- agg_value c md_name ;;
    es <- mapM (error_of v) (column i (slice_data source (e_bounds c))) ;;
    Ok (acc ++ es)%list) [] cs.
(** pandas' [mean]: NaN left out, NaN if nothing is left *)
Definition col_mean (l : list (option Q)) : option Q :=
  match drop_nan l with [] => None | xs => Some (qmean xs) end.
Definition square (q : Q) : Q := (q * q)%Q.
(** full_mesh_validator.py 80-115 [validate_scalar]: the mean error and the mean
    squared error (the result's root is taken of it).  Without any cell there is
    no column d_scalar (KeyError). *)
Definition validate_scalar (cs : list ecell) (source : data) (i : nat) (md_name : string) : res (option Q * option Q) :=
  match cs with
  | [] => Err KeyError
  | _ => es <- scalar_errors cs source i md_name ;;
         Ok (col_mean es, col_mean (map (option_map square) es))
  end.

(** full_mesh_validator.py 53-66: the squared length of the difference vector *)
Definition minus_cell (v : jval) (x : option Q) : res (option Q) :=
  match v with
  | JNum (Some y) => Ok (match x with Some a => Some (a - y)%Q | None => None end)
  | JNum None => Ok None
  | _ => Err TypeError
  end.
Definition vector_error (v w : jval) (i j : nat) (p : point) : res (option Q) :=
  d0 <- minus_cell v (nth i (p_vals p) None) ;;
  d1 <- minus_cell w (nth j (p_vals p) None) ;;
  Ok (match d0, d1 with Some a, Some b => Some (square a + square b)%Q | _, _ => None end).
Definition vector_errors (cs : list ecell) (source : data) (i j : nat) (md_x md_y : string) : res (list (option Q)) :=
  foldM (fun acc c =>
    v <- agg_value c md_x ;;
    w <- agg_value c md_y ;;
    es <- mapM (vector_error v w i j) (slice_data source (e_bounds c)) ;;
    Ok (acc ++ es)%list) [] cs.
(** full_mesh_validator.py 34-79 [validate_vector]: the mean length, and the mean squared
    length (the result's root is taken of it).  [root] is the square root. *)
Definition validate_vector (root : Q -> Q) (cs : list ecell) (source : data) (i j : nat) (md_x md_y : string) : res (option Q * option Q) :=
  match cs with
  | [] => Err KeyError
  | _ => es <- vector_errors cs source i j md_x md_y ;;
         let mags := map (option_map root) es in
         Ok (col_mean mags, col_mean (map (option_map square) mags))
  end.

(** ** Sampler *)
(** sampler.py 37-44: one Sobol sample (numbers in [0,1)) mapped to the ranges *)
Definition map_sample (ranges : list (Q * Q)) (s : list Q) : list Q :=
  map (fun p => (fst (fst p) + snd p * (snd (fst p) - fst (fst p)))%Q) (combine ranges s).

(** ** MeshValidator *)
Definition validation_length : Q := 1#10.
(** mesh_validator.py 93-108 [get_range_end] *)
Definition get_range_end (b : boundary) (lat long : Q) : Q * Q :=
  let lat_end := (lat + validation_length)%Q in
  let long_end := (long + validation_length)%Q in
  (if qltb (lat_max b) lat_end then lat_max b else lat_end,
   if qltb (long_max b) long_end then long_max b else long_end).
Definition sample_bounds (b : boundary) (lat long : Q) : res boundary :=
  let '(lat_end, long_end) := get_range_end b lat long in
  Boundary [lat; lat_end] [long; long_end] (time_range b).

(** [self.mesh.cellboxes[0].get_data_source()]: a cell that has been split is
    None in the list. *)
Definition first_sources (m : mesh) : res (list metadata) :=
  match cells m with
  | [] => Err IndexError
  | None :: _ => Err AttributeError
  | Some c :: _ => Ok (cb_sources c)
  end.

(** mesh_validator.py 66-90 [get_value_from_data] for scalar sources held as
    DataFrames; [whole] gives a loader's own data, which trim_datapoints uses
    when called without data; [mb] are the mesh's bounds. *)
Definition values_from_data (whole : loader -> data) (mb : boundary) (m : mesh) (lat long : Q) : res (list (option Q)) :=
  b <- sample_bounds mb lat long ;;
  srcs <- first_sources m ;;
  Ok (flat_map (fun s => column 0 (df_trim b (whole (m_loader s)))) srcs).

(** mesh_validator.py 111-143 [get_values_from_mesh] *)
Definition mesh_value_at (cs : list ecell) (name : string) (p : point) : res (list jval) :=
  match find (fun c => contains_point c (p_lat p) (p_long p)) cs with
  | Some c => v <- agg_value c name ;; Ok [v]
  | None => Ok []
  end.
Definition values_from_mesh (whole : loader -> data) (mb : boundary) (m : mesh) (cs : list ecell) (lat long : Q) : res (list jval) :=
  b <- sample_bounds mb lat long ;;
  srcs <- first_sources m ;;
  vss <- mapM (fun s =>
           vs <- mapM (mesh_value_at cs (join_names (l_names (m_loader s)))) (df_trim b (whole (m_loader s))) ;;
           Ok (List.concat vs)) srcs ;;
  Ok (List.concat vss).

(** sklearn's [mean_squared_error]: both arrays numeric without NaN, of the same
    length, not empty; otherwise ValueError. *)
Definition num_val (v : jval) : option Q := match v with JNum x => x | _ => None end.
Fixpoint all_some {A} (l : list (option A)) : option (list A) :=
  match l with
  | [] => Some []
  | Some x :: l' => option_map (cons x) (all_some l')
  | None :: _ => None
  end.
Definition mean_squared_error (actual : list (option Q)) (mesh_vals : list jval) : res Q :=
  match all_some actual, all_some (map num_val mesh_vals) with
  | Some a, Some v =>
      if negb (Nat.eqb (List.length a) (List.length v)) then Err ValueError
      else match a with
           | [] => Err ValueError
           | _ => Ok (qmean (map (fun p => square (fst p - snd p)) (combine a v)))
           end
  | _, _ => Err ValueError
  end.

(** mesh_validator.py 43-64 [validate_mesh] after sampling, without the final
    square root. *)
Definition validate_mesh (whole : loader -> data) (mb : boundary) (m : mesh) (cs : list ecell) (samples : list (Q * Q)) : res Q :=
  ps <- mapM (fun s => a <- values_from_data whole mb m (fst s) (snd s) ;;
                       v <- values_from_mesh whole mb m cs (fst s) (snd s) ;; Ok (a, v)) samples ;;
  mean_squared_error (flat_map fst ps) (flat_map snd ps).
