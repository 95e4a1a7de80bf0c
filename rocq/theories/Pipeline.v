(** Model of the whole way from a configuration to an environment mesh:
    MeshBuilder.__init__ with its data sources and build_environmental_mesh
    (meshiphi/mesh_generation/mesh_builder.py).  No proofs here. *)
From Verif Require Import Base Geo Graph Cell Builder Env PyStr Dates Config Params.
Open Scope string_scope.
Open Scope Z_scope.

(** A value used as an int: 5 and 5.0. *)
Definition as_int (j : json) : res Z :=
  match j with
  | JInt z => Ok z
  | JFloat q => if is_integer q then Ok (Qfloor q) else Err TypeError
  | JBool b => Ok (if b then 1 else 0)
  | _ => Err TypeError
  end.
Definition as_obj (j : json) : res (sdict json) := match j with JObj o => Ok o | _ => Err TypeError end.
Definition as_arr (j : json) : res (list json) := match j with JArr l => Ok l | _ => Err TypeError end.

(** One splitting condition of a scalar source.  Simplification: the code looks up
    "threshold", "lower_bound" and "upper_bound" when a cell is classified
    (abstract_scalar.py 526-536), so a missing entry raises later there (or never
    if there is nothing to classify).  [split_lock] is False when missing
    (585-587) and is compared with True (536). *)
Definition cond_of (j : json) : res cond :=
  t <- jget j "threshold" ;; t <- as_num t ;;
  l <- jget j "lower_bound" ;; l <- as_num l ;;
  u <- jget j "upper_bound" ;; u <- as_num u ;;
  o <- as_obj j ;;
  Ok (mkCond t l u (match sget o "split_lock" with Some v => py_true v | None => false end)).

(** abstract_vector.py 566-577: a condition on vectors is filed under 'curl' or 'dmag';
    without either [sc] is not set.  Simplifications: conditions on the curl are modelled
    apart (Curl.v) and not read here; the error of a missing name is given when the
    configuration is read, not when the first cell with enough points is asked. *)
Definition vector_cond_of (j : json) : res cond :=
  o <- as_obj j ;;
  match sget o "curl" with
  | Some _ => Err NotImplementedError
  | None => match sget o "dmag" with Some c => cond_of c | None => Err UnboundLocalError end
  end.

(** mesh_builder.py 167-171: the conditions filed under the loader's data name. *)
Definition splitting_conditions (p : params) (names : list string) : res (list cond) :=
  match sget p "splitting_conditions" with
  | None => Ok []
  | Some l => l <- as_arr l ;;
      mapM (fun j => c <- jget j (join_names names) ;; match names with [_] => cond_of c | _ => vector_cond_of c end) l
  end.

(** Python's truth of a value *)
Definition py_bool (j : json) : bool :=
  match j with
  | JNull => false | JBool b => b | JInt z => negb (z =? 0) | JFloat q => negb (qeqb q 0)
  | JStr s => negb (String.eqb s "") | JArr l => match l with [] => false | _ => true end
  | JObj o => match o with [] => false | _ => true end
  end.
(** abstract_lut.py 311-348: a condition on a look-up table has the entries "boundary" and
    "split_lock".  It is kept with the threshold 1 for splitting at boundaries and 0 for
    not.  Simplification: the code looks up "split_lock" for cells no polygon meets and
    "boundary" for the others, so a missing entry raises later there (or never). *)
Definition lut_cond_of (j : json) : res cond :=
  b <- jget j "boundary" ;; l <- jget j "split_lock" ;;
  Ok (mkCond (if py_bool b then 1 else 0)%Q 0 0 (py_true l)).
Definition table_class (cls : string) : bool := existsb (String.eqb cls) ("LutGeoJSON" :: "LutShapefile" :: lut_classes).
Definition table_conditions (p : params) (names : list string) : res (list cond) :=
  match sget p "splitting_conditions" with
  | None => Ok []
  | Some l => l <- as_arr l ;; mapM (fun j => c <- jget j (join_names names) ;; lut_cond_of c) l
  end.

(** The fill type as stored.  Simplification: texts that denote numbers are
    accepted by check_value_fill_type and stored as texts; they are not modelled. *)
Definition fill_of (j : json) : res fill :=
  match j with
  | JStr s => if String.eqb s "parent" then Ok FillParent else if String.eqb s "Nan" then Ok FillNan else Err TypeError
  | _ => q <- as_num j ;; Ok (FillNum q)
  end.

Section Pipeline.
  (** See Config.v and Params.v. *)
  Variable files : string -> option json.
  Variables (pad : bool) (now : Z).
  Variable sorted_glob : string -> list string.
  Variable float_text : string -> bool.
  (** What calling the class [cls] with the parameters [p] (defaults filled in) and
      the mesh's boundary gives as the k-th data source: the loader object and its
      data.  Any function: reading files is not modelled. *)
  Variable construct : nat -> string -> params -> boundary -> res (loader * data).

  (** mesh_builder.py 141-184: one pass of the loop of [initialize_meta_data].
      All of it works on the one dictionary [data_source['params']]. *)
  Definition source_metadata (b : boundary) (min_dp : Z) (k : nat) (data_source : json) : res metadata :=
    name <- jget data_source "loader" ;; name <- as_str name ;;
    p <- jget data_source "params" ;; p <- as_obj p ;;
    cp <- get_dataloader sorted_glob name p min_dp ;;
    p <- add_default_params (fst cp) (snd cp) ;;
    ld <- construct k (fst cp) p b ;;
    cs <- (if table_class (fst cp) then table_conditions else splitting_conditions) p (l_names (fst ld)) ;;
    fv <- check_value_fill_type float_text p ;;
    f <- fill_of fv ;;
    Ok (mkMeta (fst ld) cs f (snd ld)).

  (** mesh_builder.py 141-184 [initialize_meta_data] *)
  Definition initialize_meta_data (config : json) (b : boundary) (min_dp : Z) : res (list metadata) :=
    match jget config "data_sources" with
    | Ok l => l <- as_arr l ;; mapM (fun kj => source_metadata b min_dp (fst kj) (snd kj)) (combine (seq 0 (List.length l)) l)
    | Err _ => Ok []
    end.

  (** [config['splitting'][k]], with a default when there is no 'splitting'
      (108-110, 133-135). *)
  Definition splitting_entry (config : json) (k : string) (default : Z) : res Z :=
    match jget config "splitting" with Ok sp => v <- jget sp k ;; as_int v | Err _ => Ok default end.

  (** mesh_builder.py 80-139 [__init__].  118: a negative minimum number of
      datapoints is refused by the first cell (cellbox.py 60-67). *)
  Definition mesh_builder_init (config : json) : res (boundary * mesh * Z) :=
    _ <- validate_mesh_config files config ;;
    b <- from_json pad now config ;;
    cw <- region_num config "cell_width" ;;
    ch <- region_num config "cell_height" ;;
    _ <- validate_bounds b cw ch ;;
    bs <- initialize_bounds b cw ch ;;
    min_dp <- splitting_entry config "minimum_datapoints" 5 ;;
    srcs <- initialize_meta_data config b min_dp ;;
    _ <- (match bs with _ :: _ => if min_dp <? 0 then Err ValueError else Ok tt | [] => Ok tt end) ;;
    m <- build_mesh b cw ch srcs ;;
    depth <- splitting_entry config "split_depth" 0 ;;
    Ok (b, m, depth).

  (** [MeshBuilder(config).build_environmental_mesh()] *)
  Definition generate (fuel : nat) (config : json) : res emesh :=
    bmd <- mesh_builder_init config ;;
    let '(b, m, depth) := bmd in
    cw <- region_num config "cell_width" ;;
    ch <- region_num config "cell_height" ;;
    ma <- build_environmental_mesh fuel m depth ;;
    Ok (env_of (mkCfg b cw ch depth []) (fst ma) (snd ma)).
End Pipeline.
