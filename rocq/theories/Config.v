(** Model of meshiphi/config_validation (mesh_schema.py, vessel_schema.py,
    route_schema.py, config_validator.py), of Boundary.from_json and of the way
    MeshBuilder.__init__ uses a configuration.  No proofs here. *)
From Verif Require Import Base Geo Cell Builder PyStr Dates.
Open Scope string_scope.
Open Scope Z_scope.

(** Python objects made by [json.load]: an int and a float differ for
    jsonschema.  Dictionaries are association lists (first entry wins). *)
Inductive json :=
| JNull | JBool (b : bool) | JInt (z : Z) | JFloat (q : Q) | JStr (s : string)
| JArr (l : list json) | JObj (o : sdict json).

(** ** The part of JSON Schema the three schemas use.
    [KwProps props closed] is "properties" together with "additionalProperties":
    False (closed) or absent/True. *)
Inductive jtype := TObject | TArray | TString | TNumber | TInteger | TBoolean.
Inductive schema := Schema (kws : list keyword)
with keyword :=
| KwType (t : jtype) | KwRequired (l : list string)
| KwProps (props : list (string * schema)) (closed : bool) | KwItems (s : schema)
| KwMinimum (q : Q) | KwMaximum (q : Q) | KwMinItems (n : nat) | KwMaxItems (n : nat)
| KwEnum (l : list string).

(** [q.is_integer()] *)
Definition is_integer (q : Q) : bool := qeqb q (inject_Z (Qfloor q)).
(** jsonschema's type checker (draft 6 and later): True and False are not
    numbers, a float without fractional part is an integer. *)
Definition has_type (t : jtype) (j : json) : bool :=
  match t, j with
  | TObject, JObj _ | TArray, JArr _ | TString, JStr _ | TBoolean, JBool _ => true
  | TNumber, (JInt _ | JFloat _) => true
  | TInteger, JInt _ => true
  | TInteger, JFloat q => is_integer q
  | _, _ => false
  end.
(** The number an instance stands for when "minimum" and "maximum" apply. *)
Definition num_of (j : json) : option Q :=
  match j with JInt z => Some (inject_Z z) | JFloat q => Some q | _ => None end.

(** A keyword constrains only instances of the kind it speaks about. *)
Fixpoint valid (s : schema) (j : json) {struct s} : bool :=
  match s with
  | Schema kws =>
      (fix all (kws : list keyword) : bool :=
         match kws with
         | [] => true
         | k :: kws' => holds k j && all kws'
         end) kws
  end
with holds (k : keyword) (j : json) {struct k} : bool :=
  match k with
  | KwType t => has_type t j
  | KwRequired l =>
      match j with JObj o => forallb (fun n => match sget o n with Some _ => true | None => false end) l | _ => true end
  | KwProps props closed =>
      match j with
      | JObj o =>
          (fix all (ps : list (string * schema)) : bool :=
             match ps with
             | [] => true
             | (n, s) :: ps' => match sget o n with Some v => valid s v | None => true end && all ps'
             end) props &&
          (if closed then forallb (fun kv => existsb (String.eqb (fst kv)) (map fst props)) o else true)
      | _ => true
      end
  | KwItems s => match j with JArr l => forallb (valid s) l | _ => true end
  | KwMinimum q => match num_of j with Some x => qleb q x | None => true end
  | KwMaximum q => match num_of j with Some x => qleb x q | None => true end
  | KwMinItems n => match j with JArr l => (n <=? List.length l)%nat | _ => true end
  | KwMaxItems n => match j with JArr l => (List.length l <=? n)%nat | _ => true end
  | KwEnum l => match j with JStr s => existsb (String.eqb s) l | _ => false end
  end.

(** mesh_schema.py 1-20 *)
Definition region_schema : schema := Schema
  [ KwType TObject;
    KwRequired ["lat_min"; "lat_max"; "long_min"; "long_max"; "start_time"; "end_time"; "cell_width"; "cell_height"];
    KwProps [ ("lat_min", Schema [KwType TNumber]); ("lat_max", Schema [KwType TNumber]);
              ("long_min", Schema [KwType TNumber]); ("long_max", Schema [KwType TNumber]);
              ("start_time", Schema [KwType TString]); ("end_time", Schema [KwType TString]);
              ("cell_width", Schema [KwType TNumber]); ("cell_height", Schema [KwType TNumber]) ] true ].
(** mesh_schema.py 22-31 *)
Definition dataloader_schema : schema := Schema
  [ KwType TObject; KwRequired ["loader"; "params"];
    KwProps [ ("loader", Schema [KwType TString]); ("params", Schema [KwType TObject]) ] true ].
(** mesh_schema.py 33-41 *)
Definition splitting_schema : schema := Schema
  [ KwType TObject; KwRequired ["split_depth"; "minimum_datapoints"];
    KwProps [ ("split_depth", Schema [KwType TInteger]); ("minimum_datapoints", Schema [KwType TInteger]) ] true ].
(** mesh_schema.py 41-60; "$ref" resolved.  Other top-level properties are
    allowed. *)
Definition mesh_schema : schema := Schema
  [ KwType TObject; KwRequired ["region"; "data_sources"; "splitting"];
    KwProps [ ("region", region_schema);
              ("data_sources", Schema [KwType TArray; KwItems dataloader_schema]);
              ("splitting", splitting_schema) ] false ].
(** vessel_schema.py *)
Definition vessel_schema : schema := Schema
  [ KwType TObject; KwRequired ["VesselType"; "MaxSpeed"; "Unit"; "MaxIceConc"; "MinDepth"];
    KwProps [ ("VesselType", Schema [KwType TString]);
              ("MaxSpeed", Schema [KwType TNumber; KwMinimum 0]);
              ("Unit", Schema [KwType TString]);
              ("MaxIceConc", Schema [KwType TNumber; KwMinimum 0; KwMaximum 100]);
              ("MinDepth", Schema [KwType TNumber; KwMinimum 0]) ] false ].
(** route_schema.py *)
Definition route_schema : schema := Schema
  [ KwType TObject;
    KwRequired ["objective_function"; "path_variables"; "vector_names"; "variable_speed"; "time_unit";
                "early_stopping_criterion"; "zero_currents"];
    KwProps [ ("objective_function", Schema [KwType TString]);
              ("path_variables", Schema [KwType TArray; KwItems (Schema [KwType TString])]);
              ("vector_names", Schema [KwType TArray; KwItems (Schema [KwType TString]); KwMinItems 2; KwMaxItems 2]);
              ("variable_speed", Schema [KwType TBoolean]);
              ("time_unit", Schema [KwType TString; KwEnum ["days"; "hours"; "seconds"]]);
              ("early_stopping_criterion", Schema [KwType TBoolean]);
              ("zero_currents", Schema [KwType TBoolean]);
              ("smoothing_blocked_sic", Schema [KwType TNumber]);
              ("smoothing_max_iterations", Schema [KwType TInteger]);
              ("smoothing_merge_separation", Schema [KwType TNumber]);
              ("smoothing_converged_sep", Schema [KwType TNumber]) ] false ].

(** ** Reading a configuration *)
(** [j[k]] for a string k *)
Definition jget (j : json) (k : string) : res json :=
  match j with
  | JObj o => match sget o k with Some v => Ok v | None => Err KeyError end
  | _ => Err TypeError
  end.
(** A value used in arithmetic; bools are ints. *)
Definition as_num (j : json) : res Q :=
  match j with
  | JInt z => Ok (inject_Z z) | JFloat q => Ok q
  | JBool b => Ok (if b then 1 else 0)%Q
  | _ => Err TypeError
  end.
(** A value used as a string. *)
Definition as_str (j : json) : res string := match j with JStr s => Ok s | _ => Err AttributeError end.
Definition region_num (cfg : json) (k : string) : res Q := r <- jget cfg "region" ;; v <- jget r k ;; as_num v.
Definition region_str (cfg : json) (k : string) : res string := r <- jget cfg "region" ;; v <- jget r k ;; as_str v.

Section Config.
  (** The files: [json.load(open(path))], [None] when there is no such file.
      (Files that are not JSON are not modelled.) *)
  Variable files : string -> option json.
  (** The date arithmetic of Dates.v. *)
  Variables (pad : bool) (now : Z).

  (** config_validator.py 13-39 [flexi_json_input] *)
  Definition flexi_json_input (config : json) : res json :=
    match config with
    | JStr path => match files path with Some j => Ok j | None => Err FileNotFoundError end
    | JObj _ => Ok config
    | _ => Err TypeError
    end.

  (** config_validator.py 86-98 [assert_valid_cellsize] *)
  Definition assert_valid_cellsize (bound_min bound_max cell_size : Q) : res unit :=
    if qeqb cell_size 0 then Err ZeroDivisionError
    else if qeqb (qmod (qmod (bound_max - bound_min) 360 / cell_size) 1) 0 then Ok tt
    else Err AssertionError.

  (** config_validator.py 41-117 [validate_mesh_config].  The schema is checked on
      [config_json], everything after it on the argument [config]. *)
  Definition validate_mesh_config (config : json) : res unit :=
    config_json <- flexi_json_input config ;;
    if negb (valid mesh_schema config_json) then Err ValidationError else
    s <- region_str config "start_time" ;;
    if negb (assert_valid_time s) then Err ValueError else
    e <- region_str config "end_time" ;;
    if negb (assert_valid_time e) then Err ValueError else
    lat0 <- region_num config "lat_min" ;; lat1 <- region_num config "lat_max" ;;
    ch <- region_num config "cell_height" ;;
    _ <- assert_valid_cellsize lat0 lat1 ch ;;
    long0 <- region_num config "long_min" ;; long1 <- region_num config "long_max" ;;
    cw <- region_num config "cell_width" ;;
    assert_valid_cellsize long0 long1 cw.

  (** config_validator.py 119-159 *)
  Definition validate_vessel_config (config : json) : res unit :=
    config_json <- flexi_json_input config ;;
    if valid vessel_schema config_json then Ok tt else Err ValidationError.
  Definition validate_route_config (config : json) : res unit :=
    config_json <- flexi_json_input config ;;
    if valid route_schema config_json then Ok tt else Err ValidationError.

  (** The day of a date text of the canonical form. *)
  Definition day_of (s : string) : res Z :=
    match strptime s with Some (y, m, d) => Ok (ymd2ord y m d) | None => Err ValueError end.

  (** boundary.py 24-48 [from_json] *)
  Definition from_json (config : json) : res boundary :=
    lat0 <- region_num config "lat_min" ;; lat1 <- region_num config "lat_max" ;;
    long0 <- region_num config "long_min" ;; long1 <- region_num config "long_max" ;;
    r <- jget config "region" ;;
    days <- match jget r "start_time", jget r "end_time" with
            | Ok s, Ok e =>
                s <- as_str s ;; e <- as_str e ;;
                texts <- time_texts pad now [s; e] ;; mapM day_of texts
            | _, _ => Ok []
            end ;;
    Boundary [lat0; lat1] [long0; long1] days.

  (** mesh_builder.py 80-139 [__init__]: [srcs] stands for the metadata made of the
      data sources (141-184).  The times written back into the configuration
      (87-88) are those of the boundary. *)
  Definition mesh_builder (config : json) (srcs : boundary -> list metadata) : res mesh :=
    _ <- validate_mesh_config config ;;
    b <- from_json config ;;
    cw <- region_num config "cell_width" ;;
    ch <- region_num config "cell_height" ;;
    build_mesh b cw ch (srcs b).
End Config.
