(** Specification of downsampled vector sources of a configuration (C100). *)
From Verif Require Import Base Geo Graph Cell Loaders AddLoader VecLoader Builder Env Spec MeshSpec DataSpec ConstructSpec ImportSpec ReprojectSpec Reproject Config ConfigSpec Params ParamSpec
  PyStr Dates DateSpec FilesSpec PipeSpec SourcesSpec MixSpec VecSourcesSpec DownSpec SampleSpec.
Open Scope string_scope.
Open Scope Z_scope.

(** As [vector_settled], but asking for blocks of [m] longitudes by [n] latitudes. *)
Record vector_settled_sampled (p : params) (min_dp : Z) (cols : list string) (m n : Z) (v : vfeed) : Prop := {
  vss_dict : dict_ok p;
  vss_name : vector_names p cols (v_names v);
  vss_two : List.length cols = 2%nat /\ List.length (v_names v) = 2%nat;
  vss_cols : NoDup cols /\ forall c, In c cols -> no_comma c /\ ~ a_coordinate c;
  vss_agg : text_or p "aggregate_type" "MEAN" (v_agg v);
  vss_known : In (v_agg v) ["MIN"; "MAX"; "MEAN"; "COUNT"];
  vss_min : v_min v = min_dp;
  vss_proj : exists s, text_or p "in_proj" "EPSG:4326" s /\ text_or p "out_proj" "EPSG:4326" s;
  vss_factors : sget p "downsample_factors" = Some (JArr [JInt m; JInt n]);
  vss_positive : 0 < m /\ 0 < n;
  vss_more : (m, n) <> (1, 1);
  vss_conds : vector_conditions_say p (String.concat "," (v_names v)) (v_conds v);
  vss_fill : fill_says p FillParent }.
(** A source of C88 on a grid whose points in the region, [inner], are taken in blocks from
    the least latitude and longitude; the rows are the blocks, each at the mean of its
    coordinates with the aggregates of its components, each component by itself (the first of
    each block for COUNT). *)
Definition sampled_vector (glob : string -> list string) (open_nc : string -> list string -> res (list string * xrds)) (dsin dcos : Q -> Q) (b : boundary) (min_dp : Z)
    (src : string * params) (v : vfeed) : Prop :=
  exists name cls cols vars files kept ds m n d inner ds', same_name (fst src) name /\ vector_settled_sampled (snd src) min_dp cols m n v /\ lists_files glob (snd src) files /\
    open_nc cls kept = Ok (vars, ds) /\ components name vars cols ds /\ dated b ds /\
    vector_loader dsin dcos b files name cls kept ds d /\ selected (belongs b) d (xr_points inner) /\ ordered inner /\
    in_blocks (v_agg v) m n inner ds' /\ (forall p, In p (xr_points ds') -> List.length (p_vals p) = 2%nat) /\
    v_data v = xr_points ds' /\ v_xr v = true /\ v_conds v = [].
