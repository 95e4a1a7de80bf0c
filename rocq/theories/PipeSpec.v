(** Specification of what a generated mesh holds (C59). *)
From Verif Require Import Base Geo Graph Cell Loaders Builder Env Spec MeshSpec EnvSpec DataSpec Config ConfigSpec Params.
Open Scope string_scope.
Open Scope Z_scope.

(** A scalar data source: its name, whether its data is an xarray Dataset, how it
    is aggregated, the minimum number of points of a split, its conditions, how
    missing values are filled, and its data. *)
Record feed := mkFeed { f_name : string; f_xr : bool; f_agg : string; f_min : Z;
                        f_conds : list cond; f_fill : fill; f_data : data }.

(** What a configuration's parameters say about conditions and filling. *)
Definition lock_says (o : sdict json) (l : bool) : Prop :=
  match sget o "split_lock" with None => l = false | Some j => l = true <-> equals_true j end.
Definition condition_says (name : string) (j : json) (c : cond) : Prop :=
  exists o p, j = JObj o /\ sget o name = Some (JObj p) /\ number_at p "threshold" (c_threshold c) /\
    number_at p "lower_bound" (c_lower c) /\ number_at p "upper_bound" (c_upper c) /\ lock_says p (c_lock c).
Definition conditions_say (p : params) (name : string) (cs : list cond) : Prop :=
  match sget p "splitting_conditions" with
  | None => cs = []
  | Some j => exists l, j = JArr l /\ Forall2 (condition_says name) l cs
  end.
Definition fill_says (p : params) (f : fill) : Prop :=
  match sget p "value_fill_types" with
  | None => f = FillParent
  | Some j => (j = JStr "parent" /\ f = FillParent) \/ (exists q, number j q /\ f = FillNum q) \/
      exists t, j = JBool t /\ f = FillNum (if t then 1 else 0)%Q
  end.

(** ** Values *)
(** The value of the points of a feed that belong to the bounds [b]. *)
Definition own_value (sqrt : Q -> Q) (f : feed) (b : boundary) (v : option Q) : Prop :=
  exists pts, selected (belongs b) (f_data f) pts /\
    (if f_xr f then value_xr else value_df) sqrt (f_agg f) true (column 0 pts) = Ok v.
(** That value with missing values filled as configured: by a number, or by the
    value of the next larger of the nested bounds [l]. *)
Inductive filled (sqrt : Q -> Q) (f : feed) : list boundary -> option Q -> Prop :=
| filled_own b l q : own_value sqrt f b (Some q) -> filled sqrt f (b :: l) (Some q)
| filled_number b l q : own_value sqrt f b None -> f_fill f = FillNum q -> filled sqrt f (b :: l) (Some q)
| filled_parent b l v : own_value sqrt f b None -> f_fill f = FillParent -> filled sqrt f l v -> filled sqrt f (b :: l) v
| filled_none : f_fill f = FillParent -> filled sqrt f [] None.
(** What is written under the name [n]: nothing if no feed has this name, otherwise
    the first known value among the feeds of this name. *)
Definition written (sqrt : Q -> Q) (fs : list feed) (l : list boundary) (n : string) (o : option jval) : Prop :=
  exists vs, Forall2 (fun f v => filled sqrt f l v) (filter (fun f => String.eqb (f_name f) n) fs) vs /\
    o = match vs with [] => None | _ => Some (JNum (first_known vs)) end.

(** ** Nested bounds *)
(** [a] is a cell of the grid of the region [b]. *)
Definition grid_cell_of (b : boundary) (cw ch : Q) (a : boundary) : Prop :=
  exists i j : Z,
    (0 <= i /\ 0 <= j) /\
    (x0 (region a) == long_min b + inject_Z i * cw /\ x1 (region a) == x0 (region a) + cw /\ x1 (region a) <= long_max b /\
     y0 (region a) == lat_min b + inject_Z j * ch /\ y1 (region a) == y0 (region a) + ch /\ y1 (region a) <= lat_max b)%Q.
(** A list of bounds, each a quarter of the next, the last a cell of the grid. *)
Inductive nested (b : boundary) (cw ch : Q) : list boundary -> Prop :=
| nested_grid a : grid_cell_of b cw ch a -> time_range a = time_range b -> nested b cw ch [a]
| nested_quarter q a a' l : quarter q (region a') (region a) -> time_range a = time_range b ->
    nested b cw ch (a' :: l) -> nested b cw ch (a :: a' :: l).

(** ** Splitting *)
(** An answer of one of the feeds' conditions about the points in the bounds, and
    the documented decision. *)
Definition says_hom (fs : list feed) (b : boundary) (h : hom) : Prop :=
  exists f c pts, In f fs /\ In c (f_conds f) /\ selected (belongs b) (f_data f) pts /\
    h = scalar_hom (f_min f) c (column 0 pts).
Definition ought_to_split (fs : list feed) (b : boundary) : Prop :=
  says_hom fs b HET /\ ~ says_hom fs b HOM /\ ~ says_hom fs b MIN.

(** ** Sources *)
(** The classes of look-up tables. *)
Definition table_classes : list string :=
  ["ThicknessDataLoader"; "DensityDataLoader"; "ScotlandNCMPA"; "LutCSV"; "LutGeoJSON"; "LutShapefile"].
(** The loader object of the k-th feed, and what it takes for the k-th configured
    source (name and parameters) to supply that feed: the factory accepts it, the
    class (not one of a look-up table) called with the completed parameters gives the
    loader with the feed's data, its aggregation type is one of the documented ones, and the parameters
    say the feed's conditions and filling. *)
Definition feed_loader (sqrt : Q -> Q) (k : nat) (f : feed) : loader :=
  if f_xr f then scalar_xr (Z.of_nat k) (f_name f) (f_agg f) (f_min f) sqrt
  else scalar_df (Z.of_nat k) (f_name f) (f_agg f) (f_min f) sqrt.
Definition supplies (glob : string -> list string) (construct : nat -> string -> params -> boundary -> res (loader * data))
    (sqrt : Q -> Q) (b : boundary) (min_dp : Z) (k : nat) (src : string * params) (f : feed) : Prop :=
  (exists cls p p', get_dataloader glob (fst src) (snd src) min_dp = Ok (cls, p) /\ add_default_params cls p = Ok p' /\
     construct k cls p' b = Ok (feed_loader sqrt k f, f_data f) /\ sget p' "aggregate_type" = Some (JStr (f_agg f)) /\ ~ In cls table_classes) /\
  In (f_agg f) df_aggs /\ f_min f = min_dp /\
  conditions_say (snd src) (f_name f) (f_conds f) /\ fill_says (snd src) (f_fill f).
(** Names a source must not use: the keys the mesh file has itself. *)
Definition own_keys : list string := ["geometry"; "cx"; "cy"; "dcx"; "dcy"; "id"].

(** ** Cells *)
(** A cell of a generated mesh: bounds from the grid by quartering, at most [depth]
    times and only where the feeds (or the first n of them) called for it; no
    quartering is missing; and under every name the documented value. *)
Definition as_configured (sqrt : Q -> Q) (fs : list feed) (b : boundary) (cw ch : Q) (depth : Z) (c : ecell) : Prop :=
  exists l, nested b cw ch (e_bounds c :: l) /\ Z.of_nat (List.length l) <= Z.max 0 depth /\
    (forall b', In b' l -> exists n, ought_to_split (firstn n fs) b') /\
    (Z.of_nat (List.length l) < depth -> ~ ought_to_split fs (e_bounds c)) /\
    (forall n, written sqrt fs (e_bounds c :: l) n (sget (e_data c) n)).

(** The cell without its times, as it comes back from the file. *)
Definition timeless (c : ecell) : ecell := mkE (without_times (e_bounds c)) (e_data c) (e_id c).
