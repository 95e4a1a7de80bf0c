(** Specification of downsampled sources of a configuration (C98). *)
From Verif Require Import Base Geo Graph Cell Loaders Builder Env Spec MeshSpec DataSpec ConstructSpec ImportSpec ReprojectSpec Reproject Config ConfigSpec Params ParamSpec
  PyStr Dates DateSpec FilesSpec PipeSpec SourcesSpec DownSpec.
Open Scope string_scope.
Open Scope Z_scope.

(** The value of a block of the grid. *)
Definition block_aggregate (agg : string) (l : list (option Q)) (v : option Q) : Prop :=
  (agg = "MIN" /\ least l v) \/ (agg = "MAX" /\ greatest l v) \/
  (agg = "MEAN" /\ within_values l v /\ (~ In None l -> mean_of l v)) \/ (agg = "MEDIAN" /\ within_values l v).
(** Every [n]-th entry, from the first. *)
Definition every {A} (n : nat) (l l' : list A) : Prop := forall i, nth_error l' i = nth_error l (i * n).
(** Asked to count, of each block the first latitude and longitude are kept with their
    values. *)
Definition first_of_blocks (m n : Z) (ds ds' : xrds) : Prop :=
  every (Z.to_nat n) (x_lat ds) (x_lat ds') /\ every (Z.to_nat m) (x_long ds) (x_long ds') /\ x_time ds' = x_time ds /\ forall i j t, x_val ds' i j t = x_val ds i j t.
Definition in_blocks (agg : string) (m n : Z) (ds ds' : xrds) : Prop :=
  if String.eqb agg "COUNT" then first_of_blocks m n ds ds' else downsampled (block_aggregate agg) m n ds ds'.
(** As [settled], but asking for blocks of [m] longitudes by [n] latitudes. *)
Record settled_sampled (p : params) (min_dp : Z) (col : string) (m n : Z) (f : feed) : Prop := {
  ss_dict : dict_ok p;
  ss_name : names p col (f_name f);
  ss_agg : text_or p "aggregate_type" "MEAN" (f_agg f);
  ss_known : In (f_agg f) ["MIN"; "MAX"; "MEAN"; "MEDIAN"; "COUNT"];
  ss_min : f_min f = min_dp;
  ss_proj : exists s, text_or p "in_proj" "EPSG:4326" s /\ text_or p "out_proj" "EPSG:4326" s;
  ss_factors : sget p "downsample_factors" = Some (JArr [JInt m; JInt n]);
  ss_positive : 0 < m /\ 0 < n;
  ss_more : (m, n) <> (1, 1);
  ss_conds : conditions_say p (f_name f) (f_conds f);
  ss_fill : fill_says p (f_fill f) }.
(** A source of C79 on a grid whose points in the region, [inner], are taken in blocks from
    the least latitude and longitude; the rows are the blocks, each at the mean of its
    coordinates with the aggregate of its values (the first of each block for COUNT). *)
Definition sampled_feed (glob : string -> list string) (open_nc : string -> list string -> res (list string * xrds)) (sqrt : Q -> Q) (b : boundary) (min_dp : Z)
    (src : string * params) (f : feed) : Prop :=
  exists name cls col vars files kept ds m n d inner ds', same_name (fst src) name /\ settled_sampled (snd src) min_dp col m n f /\ lists_files glob (snd src) files /\
    open_nc cls kept = Ok (vars, ds) /\ variable name vars col /\ ~ In col ["lat"; "long"; "time"] /\ dated b ds /\
    grid_loader sqrt b (snd src) files name cls kept ds d /\ selected (belongs b) d (xr_points inner) /\ ordered inner /\
    in_blocks (f_agg f) m n inner ds' /\ f_data f = xr_points ds' /\ f_xr f = true.
