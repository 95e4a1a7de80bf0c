(** Model of adding a source to an existing mesh: mesh_builder.py 274-315
    [add_dataloader] and the default data subset of metadata.py 20-40.
    No proofs here. *)
From Verif Require Import Base Geo Graph Cell Loaders Builder.
Open Scope Z_scope.

(** What [data_subset] can be once it is not always a table with coordinates:
    a DataFrame with lat and long, a pandas Series, a DataFrame with the data
    columns only, a Dataset, a DataArray, a Dataset restricted to the data
    variables (it keeps its coordinates).  All are given by their rows. *)
Inductive subset :=
| Frame (d : data) | Series (d : data) | ColumnsOnly (d : data)
| Dataset (d : data) | DataArray (d : data) | VariablesOnly (d : data).

(** The kind of the loader's own [data]. *)
Inductive kind := Pandas | Xarray.
Definition own (k : kind) (d : data) : subset := match k with Pandas => Frame d | Xarray => Dataset d end.

(** metadata.py 33-37: [data_loader.data[names]] when several names are joined by
    commas, [data_loader.data[name]] otherwise. *)
Definition default_subset (k : kind) (names : list string) (d : data) : subset :=
  match names, k with
  | [_], Pandas => Series d
  | [_], Xarray => DataArray d
  | _, Pandas => ColumnsOnly d
  | _, Xarray => VariablesOnly d
  end.

(** abstract_scalar.py 325-332 = abstract_vector.py 366-374 [trim_datapoints] with
    a data set passed in: only a DataFrame or Dataset is trimmed, for anything
    else the method ends without a return (None); a DataFrame without the
    coordinate columns raises KeyError. *)
Definition trim_subset (b : boundary) (s : subset) : res (option subset) :=
  match s with
  | Frame d => Ok (Some (Frame (df_trim b d)))
  | ColumnsOnly _ => Err KeyError
  | Dataset d => Ok (Some (Dataset (xr_trim_rows b d)))
  | VariablesOnly d => Ok (Some (VariablesOnly (xr_trim_rows b d)))
  | Series _ | DataArray _ => Ok None
  end.

(** abstract_scalar.py 454-466 [get_value]: [trim_datapoints(...)[data_name]];
    subscripting None is a TypeError. *)
Definition scalar_get_value (sqrt : Q -> Q) (agg_type name : string) (b : boundary) (s : subset)
    : res (sdict (option Q)) :=
  t <- trim_subset b s ;;
  match t with
  | Some (Frame d) => v <- value_df sqrt agg_type true (column 0 d) ;; Ok [(name, v)]
  | Some (Dataset d) => v <- value_xr sqrt agg_type true (column 0 d) ;; Ok [(name, v)]
  | Some _ => Err KeyError
  | None => Err TypeError
  end.

(** abstract_vector.py 453-500 [get_value_from_xr] with skipna=True: COUNT is the
    size, the standard deviation divides by n. *)
Definition vector_values_xr (sqrt : Q -> Q) (agg_type : string) (n : nat) (d : data) : res (list (option Q)) :=
  let cols f := map (fun i => f (drop_nan (column i d))) (seq 0 n) in
  let extreme better := match arg_extreme better None d with
                        | Some (p, _) => map (fun i => nth i (p_vals p) None) (seq 0 n)
                        | None => map (fun _ => None) (seq 0 n)
                        end in
  if Nat.eqb (List.length d) 0 then Ok (map (fun _ => None) (seq 0 n))
  else if all_nan (map mag2 d) then Ok (map (fun _ => None) (seq 0 n))
  else if String.eqb agg_type "COUNT" then Ok (map (fun _ => Some (qlen d)) (seq 0 n))
  else if String.eqb agg_type "MIN" then Ok (extreme qltb)
  else if String.eqb agg_type "MAX" then Ok (extreme (fun a b => qltb b a))
  else if String.eqb agg_type "MEAN" then
    Ok (cols (fun l => match l with [] => None | _ => Some (qmean l) end))
  else if String.eqb agg_type "STD" then
    Ok (cols (fun l => match l with [] => None | _ => Some (sqrt (sq_dev l / qlen l)%Q) end))
  else Err ValueError.

(** abstract_vector.py 503-525 [get_value]: a data set passed in is used as it is.
    The column [_magnitude] the loader computed beside the data columns is
    missing when only the data columns are kept: MIN and MAX of a DataFrame with
    rows raise KeyError (424, 430), and the xarray branch reads it first (474). *)
Definition vector_get_value (sqrt : Q -> Q) (agg_type : string) (names : list string) (s : subset)
    : res (sdict (option Q)) :=
  match s with
  | Frame d => vector_value_df sqrt agg_type names d
  | ColumnsOnly d =>
      if negb (Nat.eqb (List.length d) 0) && (String.eqb agg_type "MIN" || String.eqb agg_type "MAX")
      then Err KeyError else vector_value_df sqrt agg_type names d
  | Dataset d => vs <- vector_values_xr sqrt agg_type (List.length names) d ;; Ok (combine names vs)
  | VariablesOnly _ => Err AttributeError
  | Series _ | DataArray _ => Err KeyError
  end.

(** A loader object as [add_dataloader] creates it: its kind, names, aggregation
    type and data (already trimmed to the bounds by the loader). *)
Record new_loader := mkNew { n_uid : Z; n_kind : kind; n_names : list string; n_agg : string; n_data : data }.

Definition new_value (sqrt : Q -> Q) (n : new_loader) (b : boundary) (s : subset) : res (sdict (option Q)) :=
  match n_names n with
  | [name] => scalar_get_value sqrt (n_agg n) name b s
  | names => vector_get_value sqrt (n_agg n) names s
  end.

(** The metadata object [add_dataloader] appends to every cell.  The mesh model
    keeps rows in [m_subset]; the object's subset is the default one, so the
    value is computed from [default_subset].  Splitting cells afterwards is not
    modelled here ([l_trim], [l_hom] are not used by [aggregate]); [split_subset]
    below gives what it does to the subset. *)
Definition new_metadata (sqrt : Q -> Q) (n : new_loader) (f : fill) : metadata :=
  mkMeta (mkLoader (n_uid n) (n_names n) (fun _ d => d) (fun _ _ _ => CLR)
            (fun b d => new_value sqrt n b (default_subset (n_kind n) (n_names n) d)))
         [] f (n_data n).

(** mesh_builder.py 306-313 *)
Definition add_source (s : metadata) (c : cellbox) : cellbox :=
  mkCell (cb_bounds c) (cb_id c) (cb_depth c) (cb_sources c ++ [s]) (cb_parent c).
Definition add_dataloader (sqrt : Q -> Q) (n : new_loader) (f : fill) (m : mesh) : mesh :=
  mkMesh (map (option_map (add_source (new_metadata sqrt n f))) (cells m)) (ng m) (glob m).

(** cellbox.py 253-260: the subset a child gets when a cell is split.  None makes
    Metadata fall back to the loader's whole column. *)
Definition split_subset (n : new_loader) (b : boundary) (s : subset) : res subset :=
  t <- trim_subset b s ;;
  Ok (match t with Some s' => s' | None => default_subset (n_kind n) (n_names n) (n_data n) end).

(** mesh_builder.py 186-215: what the constructor does for the sources of the
    configuration: the loader trims its own data. *)
Definition configured_subset (n : new_loader) (b : boundary) : res subset :=
  t <- trim_subset b (own (n_kind n) (n_data n)) ;;
  match t with Some s => Ok s | None => Err TypeError end.
