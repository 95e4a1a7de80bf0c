(** Specification of whole vector sources: what a configured source and its files say (C88). *)
From Verif Require Import Base Geo Graph Cell Loaders AddLoader VecLoader Builder Env Spec MeshSpec DataSpec ConstructSpec ImportSpec ReprojectSpec Reproject Config ConfigSpec Params ParamSpec
  PyStr Dates DateSpec FilesSpec PipeSpec SourcesSpec MixSpec.
From Verif Require NamesSpec.
Open Scope string_scope.
Open Scope Z_scope.

Definition a_coordinate (c : string) : Prop := In c ["lat"; "long"; "time"].
(** The names of the components: those of the columns unless others are given. *)
Definition vector_names (p : params) (cols names : list string) : Prop :=
  match sget p "data_name" with
  | None | Some JNull => names = cols
  | Some v => v = JStr (String.concat "," names) /\ forall n, In n names -> ~ a_coordinate n
  end.
(** What the parameters say about a vector of two components whose values are in the
    columns [cols]; they ask neither for a reprojection nor for downsampling. *)
Record vector_settled (p : params) (min_dp : Z) (cols : list string) (v : vfeed) : Prop := {
  vs_dict : dict_ok p;
  vs_name : vector_names p cols (v_names v);
  vs_two : List.length cols = 2%nat /\ List.length (v_names v) = 2%nat;
  vs_cols : NoDup cols /\ forall c, In c cols -> no_comma c /\ ~ a_coordinate c;
  vs_agg : text_or p "aggregate_type" "MEAN" (v_agg v);
  vs_known : In (v_agg v) vector_aggs;
  vs_min : v_min v = min_dp;
  vs_proj : exists s, text_or p "in_proj" "EPSG:4326" s /\ text_or p "out_proj" "EPSG:4326" s;
  vs_columns : (exists s, text_or p "x_col" "lat" s) /\ exists s, text_or p "y_col" "long" s;
  vs_factors : sget p "downsample_factors" = None \/ sget p "downsample_factors" = Some (JArr [JInt 1; JInt 1]);
  vs_conds : vector_conditions_say p (String.concat "," (v_names v)) (v_conds v);
  vs_fill : fill_says p FillParent }.

(** ** csv files *)
(** The rows of a table, each with its place, its day if there is such a column, and its
    vector, in the columns [cols]. *)
Definition vector_holds (dated : bool) (cols : list string) (t : dframe) (d : data) : Prop :=
  well_formed (List.length d) t /\
  (forall c, In c (map fst t) <-> c = "lat" \/ c = "long" \/ In c cols \/ (dated = true /\ c = "time")) /\
  forall k p, nth_error d k = Some p ->
    entry_at t k "lat" (ENum (Some (p_lat p))) /\ entry_at t k "long" (ENum (Some (p_long p))) /\
    (if dated then exists day, p_time p = Some day /\ entry_at t k "time" (EDay day) else p_time p = None) /\
    Forall2 (fun c v => entry_at t k c (ENum v)) cols (p_vals p).
(** The columns are named in the order of the first file.  The smallest or largest vector
    is asked for with one file only. *)
Definition vector_csv (glob : string -> list string) (read_csv : string -> res dframe) (min_dp : Z) (src : string * params) (v : vfeed) : Prop :=
  exists cols dated files ds, same_name (fst src) "vector_csv" /\ vector_settled (snd src) min_dp cols v /\
    lists_files glob (snd src) files /\
    (exists file t, nth_error files 0 = Some file /\ read_csv file = Ok t /\ NamesSpec.named cols t) /\
    Forall2 (fun file d => exists t, read_csv file = Ok t /\ vector_holds dated cols t d) files ds /\
    (In (v_agg v) ["MIN"; "MAX"] -> List.length files = 1%nat) /\
    v_xr v = false /\ v_data v = List.concat ds.

(** ** SOSE currents *)
(** The times are not used; longitudes beyond 180 are moved. *)
Definition sose_row (p q : point) : Prop :=
  p_lat q = p_lat p /\ p_time q = None /\ p_vals q = p_vals p /\
  ((p_long p <= 180)%Q /\ p_long q = p_long p \/ (180 < p_long p)%Q /\ p_long q = (p_long p - 360)%Q).
Definition vector_sose (glob : string -> list string) (open_nc : string -> list string -> res (list string * xrds)) (min_dp : Z) (src : string * params) (v : vfeed) : Prop :=
  exists files ds, same_name (fst src) "sose" /\ vector_settled (snd src) min_dp ["uC"; "vC"] v /\ lists_files glob (snd src) files /\
    open_nc "SOSEDataLoader" files = Ok (["uC"; "vC"], ds) /\ (forall p, In p (xr_points ds) -> List.length (p_vals p) = 2%nat) /\
    Forall2 sose_row (xr_points ds) (v_data v) /\ v_xr v = false.

(** ** netCDF files *)
(** Baltic currents: at every place of the file in the region, once, the means of the
    known components over the period. *)
Definition period_means (b : boundary) (file d : data) : Prop :=
  exists sel, selected (belongs b) file sel /\
    (forall r, In r file -> mem (region b) (p_long r) (p_lat r) -> exists p, In p d /\ same_place p r) /\
    ForallOrdPairs (fun p q => ~ same_place p q) d /\
    forall p, In p d -> p_time p = None /\ mem (region b) (p_long p) (p_lat p) /\ (exists r, In r file /\ same_place p r) /\ List.length (p_vals p) = 2%nat /\
      forall v rows, (v < 2)%nat -> selected (same_place p) sel rows -> mean_known (map (fun r => nth v (p_vals r) None) rows) (nth v (p_vals p) None).
(** From the direction waves come from, the vector they go. *)
Definition going (dsin dcos : Q -> Q) (l m : list (option Q)) : Prop :=
  match l with [Some d] => m = [Some (-1 * dsin d)%Q; Some (-1 * dcos d)%Q] | _ => m = [None; None] end.
Inductive vector_loader (dsin dcos : Q -> Q) (b : boundary) (files : list string) : string -> string -> list string -> xrds -> data -> Prop :=
| vl_northsea ds d : increasing (x_lat ds) -> increasing (x_long ds) -> Permutation d (xr_points ds) ->
    vector_loader dsin dcos b files "northsea_currents" "NorthSeaCurrentDataLoader" files ds d
| vl_baltic ts ds d : strictly (x_lat ds) -> strictly (x_long ds) -> x_time ds = Some ts -> ts <> [] -> period_means b (xr_points ds) d ->
    vector_loader dsin dcos b files "baltic_currents" "BalticCurrentDataLoader" files ds d
| vl_duacs kept ds d : in_period b files kept -> increasing (x_lat ds) -> increasing (x_long ds) -> Permutation d (xr_points ds) ->
    vector_loader dsin dcos b files "duacs_currents" "DuacsCurrentDataLoader" kept ds d
| vl_wind kept ds d : in_period b files kept -> decreasing (x_lat ds) -> increasing (x_long ds) -> Permutation d (xr_points ds) ->
    vector_loader dsin dcos b files "era5_wind" "ERA5WindDataLoader" kept ds d
| vl_waves convert kept ds d : in_period b files kept -> decreasing (x_lat ds) -> (forall l, going dsin dcos l (convert l)) -> taken convert ds d ->
    vector_loader dsin dcos b files "era5_wave_direction" "ERA5WaveDirectionLoader" kept ds d.
(** The components: those of the waves are calculated, the others are read. *)
Definition components (name : string) (vars cols : list string) (ds : xrds) : Prop :=
  if String.eqb name "era5_wave_direction" then cols = ["uW"; "vW"]
  else vars = cols /\ forall p, In p (xr_points ds) -> List.length (p_vals p) = List.length cols.
Definition vector_grid (glob : string -> list string) (open_nc : string -> list string -> res (list string * xrds)) (dsin dcos : Q -> Q) (b : boundary) (min_dp : Z)
    (src : string * params) (v : vfeed) : Prop :=
  exists name cls cols vars files kept ds, same_name (fst src) name /\ vector_settled (snd src) min_dp cols v /\ lists_files glob (snd src) files /\
    open_nc cls kept = Ok (vars, ds) /\ components name vars cols ds /\ dated b ds /\
    vector_loader dsin dcos b files name cls kept ds (v_data v) /\ v_xr v = true /\ v_conds v = [].

(** A source and its files describe a scalar or a vector. *)
Definition describes_source (glob : string -> list string) (read_csv : string -> res dframe) (open_nc : string -> list string -> res (list string * xrds))
    (sqrt dsin dcos : Q -> Q) (b : boundary) (min_dp : Z) (src : string * params) (s : source) : Prop :=
  match s with
  | Scalar f => describes glob read_csv open_nc sqrt b min_dp src f
  | Vector v => vector_csv glob read_csv min_dp src v \/ vector_sose glob open_nc min_dp src v \/ vector_grid glob open_nc dsin dcos b min_dp src v
  end.
