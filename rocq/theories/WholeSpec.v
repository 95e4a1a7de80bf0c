(** Specification of sources of all kinds: what a configured look-up table and its files say
    (C91). *)
From Verif Require Import Base Geo Graph Cell Loaders AddLoader VecLoader Builder Env Spec MeshSpec EnvSpec DataSpec PyStr Dates DateSpec Config ConfigSpec Params ParamSpec Reproject ReprojectSpec PipeSpec SourcesSpec VecHomSpec MixSpec VecSourcesSpec
  Lut LutSpec LutFiles LutFilesSpec LutSources TableSpec ShapeSourcesSpec.
Open Scope string_scope.
Open Scope Z_scope.

Section Whole.
Variable o : planar.
Variable P : Type.
Variable inside : geom o -> P -> Prop.
Variable glob : string -> list string.
Variable read_table : string -> res (csv o).
Variable read_shapes : string -> res (list (geom o)).

(** What the parameters say about any table. *)
Record table_settled (p : params) (t : tfeed o) : Prop := {
  ts_dict : dict_ok p;
  ts_agg : text_or p "aggregate_type" "MEAN" (t_agg t);
  ts_known : In (t_agg t) table_aggs;
  ts_conds : table_conditions_say p (t_name t) (t_conds t);
  ts_fill : fill_says p (t_fill t) }.
Definition without_files (p : params) : Prop := sget p "file" = None /\ sget p "folder" = None.
Definition goes_by (p : params) (name : string) : Prop :=
  sget p "data_name" = None \/ sget p "data_name" = Some JNull \/ sget p "data_name" = Some (JStr name).
Definition in_box (b : boundary) (x : P) : Prop := inside (g_shape o (Rect b)) x.
(** The values of a table at the places of the region. *)
Definition valued (b : boundary) (t : tfeed o) (want : P -> lval -> Prop) : Prop :=
  forall x v, in_box b x -> (given_at inside (t_rows t) x v <-> want x v).
Definition otherwise (v : lval) : lval := match v with LB true => LB false | LB false => LB true | _ => LNan end.
(** Those of the dates: the values wanted for some day of the period. *)
Definition dated_values (b : boundary) (t : tfeed o) (wanted : Z -> geom o -> Q -> Prop) : Prop :=
  (forall x v, in_box b x -> given_at inside (t_rows t) x v -> exists day g q, wanted day g q /\ inside g x /\ v = LQ q) /\
  (forall x day g q, in_box b x -> wanted day g q -> inside g x -> exists q', (q' == q)%Q /\ given_at inside (t_rows t) x (LQ q')).
Definition spread (b : boundary) (wanted : Z -> geom o -> Q -> Prop) : Prop :=
  (forall day g q, wanted day g q -> g_kind o g = KPolygon) /\
  (forall x, in_box b x -> exists day g q, wanted day g q /\ inside g x).

Inductive table_said (b : boundary) (src : string * params) (t : tfeed o) : Prop :=
| said_csv files tables : same_name (fst src) "lut_csv" -> (exists any, goes_by (snd src) any) -> lists_files glob (snd src) files ->
    Forall2 (fun f x => read_table f = Ok x) files tables -> tables <> [] -> t_name t <> "geometry" ->
    (forall x, In x tables -> c_cols x = ["geometry"; t_name t]) ->
    (forall r, In r (flat_map c_rows tables) -> g_kind o (fst r) <> KOther) ->
    valued b t (value_at inside (flat_map c_rows tables) LNan) -> table_said b src t
| said_shapes name files shapes j v : In name ["lut_geojson"; "lut_shapefile"] -> same_name (fst src) name -> lists_files glob (snd src) files ->
    sget (snd src) "data_name" = Some (JStr (t_name t)) -> sget (snd src) "value" = Some j -> states j v ->
    Forall2 (fun f x => read_shapes f = Ok x) files shapes -> shapes <> [] ->
    (forall g, In g (List.concat shapes) -> g_kind o g <> KOther) ->
    valued b t (value_at inside (map (fun g => (g, v)) (List.concat shapes)) (otherwise v)) -> table_said b src t
| said_zones files shapes : same_name (fst src) "scotland_ncmpa" -> goes_by (snd src) (t_name t) -> t_name t = "exclusion_zone" -> lists_files glob (snd src) files ->
    Forall2 (fun f x => read_shapes f = Ok x) files shapes -> shapes <> [] ->
    (forall g, In g (List.concat shapes) -> g_kind o g <> KOther) ->
    valued b t (value_at inside (map (fun g => (g, LB true)) (List.concat shapes)) (LB false)) -> table_said b src t
| said_density a n : same_name (fst src) "density" -> without_files (snd src) -> goes_by (snd src) (t_name t) -> t_name t = "density" -> days_are b a n ->
    spread b (density_wanted o b a n) -> dated_values b t (density_wanted o b a n) -> table_said b src t
| said_thickness a n : same_name (fst src) "thickness" -> without_files (snd src) -> goes_by (snd src) (t_name t) -> t_name t = "thickness" -> days_are b a n ->
    spread b (thickness_wanted false o b a n) -> dated_values b t (thickness_wanted false o b a n) -> table_said b src t.

(** A source describes a scalar or a vector, in its files or as a synthetic shape, or a
    table. *)
Definition describes_origin (read_csv : string -> res dframe) (open_nc : string -> list string -> res (list string * xrds))
    (sqrt dsin dcos : Q -> Q) (b : boundary) (min_dp : Z) (src : string * params) (s : origin o) : Prop :=
  match s with
  | Point s => describes_source glob read_csv open_nc sqrt dsin dcos b min_dp src s \/ describes_shape b min_dp src s
  | Table t => table_settled (snd src) t /\ table_said b src t
  end.
End Whole.
