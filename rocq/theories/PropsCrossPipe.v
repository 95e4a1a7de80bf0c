(** Property theorem C89: from the configuration of a region that crosses the
    antimeridian to a mesh file and back.  [files], [pad], [now], [glob], [ft] and
    [construct] as in PropsPipe.  Statements only; the proofs are in CrossPipe.v. *)
From Verif Require Import Base Geo Graph Cell Loaders Builder Env Spec MeshSpec GlobeSpec CrossSpec EnvSpec DataSpec QLib Config ConfigSpec Params Pipeline PipeSpec CrossPipeSpec CrossPipe.
Open Scope string_scope.
Open Scope Z_scope.

(** C89.  For a validated configuration of a region that crosses the antimeridian,
    whose sources are scalar sources kept as Datasets with a documented aggregation
    type: building always ends with a mesh; writing it and reading it back gives
    the same cells of the globe; the cells tile the configured region, the graph
    lists nothing but contacts (all of them if nothing may be split), and every
    cell is quartered where, and only where, the points in it on the globe call for
    it and the depth allows, and holds under every name the documented aggregate of
    those points. *)
Theorem C89_across_partial : forall files pad now glob ft construct sqrt cfg s b fs,
  validate_mesh_config files cfg = Ok tt -> says cfg s -> from_json pad now cfg = Ok b ->
  crossing b -> (0 < s_width s)%Q -> (0 < s_height s)%Q ->
  (s_lat_min s < s_lat_max s)%Q -> (s_lat_max s - s_lat_min s < 360)%Q -> 0 <= s_points s ->
  List.length fs = List.length (s_loaders s) ->
  (forall k src f, nth_error (s_loaders s) k = Some src -> nth_error fs k = Some f ->
     supplies glob construct sqrt b (s_points s) k src f) ->
  (forall f, In f fs -> ~ In (f_name f) own_keys) ->
  (forall f, In f fs -> f_xr f = true /\ standard_longitudes (f_data f)) ->
  exists fuel em em',
    (forall fuel', (fuel <= fuel')%nat -> generate files pad now glob ft construct fuel' cfg = Ok em) /\
    load_from_json (to_json em) = Ok em' /\
    em_bounds em = b /\ em_bounds em' = b /\
    em_config em = mkCfg b (s_width s) (s_height s) (s_depth s) [] /\ em_config em' = em_config em /\
    Forall2 same_cell (em_cells em) (em_cells em') /\
    NoDup (map e_id (em_cells em')) /\ tiles_globe (region b) (em_cells em') /\
    lists_only_contacts touches_mod (em_cells em') (em_graph em') /\
    (s_depth s <= 0 -> lists_contacts touches_mod (em_cells em') (em_graph em')) /\
    (forall c, In c (em_cells em) -> globe_as_configured sqrt fs b (s_width s) (s_height s) (s_depth s) c).
Proof. exact crossed. Qed.
Print Assumptions C89_across_partial.

(** Whatever the loaders, whenever a mesh is returned. *)
Theorem C89_any_loaders : forall files pad now glob ft construct fuel cfg em b cw ch,
  generate files pad now glob ft construct fuel cfg = Ok em ->
  from_json pad now cfg = Ok b -> region_num cfg "cell_width" = Ok cw -> region_num cfg "cell_height" = Ok ch ->
  crossing b -> (0 < cw)%Q -> (0 < ch)%Q -> (lat_min b < lat_max b)%Q ->
  em_bounds em = b /\ NoDup (map e_id (em_cells em)) /\ tiles_globe (region b) (em_cells em) /\
  (forall c, In c (em_cells em) -> exists l, globe_nested b cw ch (e_bounds c :: l)) /\
  lists_only_contacts touches_mod (em_cells em) (j_graph (to_json em)).
Proof. exact crossed_any. Qed.
Print Assumptions C89_any_loaders.

(** ** A case: three cells, 170 to 180, 180 to -170 and -170 to -160; the last is split *)
Definition fiji_condition : json :=
  JObj [("depth", JObj [("threshold", JInt 5); ("lower_bound", JFloat (1#10)); ("upper_bound", JFloat (9#10))])].
Definition fiji_config : json :=
  JObj [("region", JObj [("lat_min", JInt 0); ("lat_max", JInt 10); ("long_min", JInt 170); ("long_max", JInt (-160));
                         ("start_time", JStr "2017-02-01"); ("end_time", JStr "2017-02-04");
                         ("cell_width", JInt 10); ("cell_height", JInt 10)]);
        ("data_sources", JArr [JObj [("loader", JStr "gebco");
           ("params", JObj [("file", JStr "gebco.nc"); ("splitting_conditions", JArr [fiji_condition]); ("value_fill_types", JInt 0); ("aggregate_type", JStr "MAX")])]]);
        ("splitting", JObj [("split_depth", JInt 1); ("minimum_datapoints", JInt 2)])].
Definition fiji_settings : settings :=
  mkSettings 0 10 170 (-160) "2017-02-01" "2017-02-04" 10 10 1 2
    [("gebco", [("file", JStr "gebco.nc"); ("splitting_conditions", JArr [fiji_condition]); ("value_fill_types", JInt 0); ("aggregate_type", JStr "MAX")])].
Definition fiji_bounds : boundary :=
  Eval vm_compute in match from_json false 0 fiji_config with Ok b => b | Err _ => mkB 0 0 0 0 [] end.
Definition fiji_data : data :=
  [mkP 2 172 None [Some 3%Q]; mkP 8 180 None [Some 2%Q]; mkP 5 (-179) None [Some 1%Q]; mkP 5 (-170) None [Some 3%Q];
   mkP 3 (-168) None [Some 4%Q]; mkP 8 (-162) None [Some 9%Q]; mkP 8 (-161) None [Some 7%Q]].
Definition fiji_feed (xr : bool) (d : data) : feed := mkFeed "depth" xr "MAX" 2 [mkCond 5 (1#10) (9#10) false] (FillNum 0) d.
Definition fiji_construct (f : feed) (k : nat) (cls : string) (p : params) (b : boundary) : res (loader * data) :=
  if String.eqb cls "GEBCODataLoader" then Ok (feed_loader (fun q => q) k f, f_data f) else Err ValueError.
Definition fiji_generate (f : feed) : res emesh :=
  generate (fun _ => None) false 0 (fun _ => []) (fun _ => false) (fiji_construct f) 100 fiji_config.
Lemma fiji_says : says fiji_config fiji_settings.
Proof.
  unfold fiji_config. do 4 eexists. split; [reflexivity|]. split; [reflexivity|]. split.
  - unfold region_says, number_at, text_at, only_keys. cbn [s_lat_min s_lat_max s_long_min s_long_max s_start s_end s_width s_height fiji_settings].
    repeat split; try (eexists; split; [reflexivity|]; match goal with |- number (JInt ?z) _ => exact (num_int z) end).
    cbn [In]. intros k v H. repeat (destruct H as [[= <- _]|H]; [tauto|]). destruct H.
  - split; [reflexivity|]. split.
    + constructor; [|constructor]. eexists. split; [reflexivity|]. unfold text_at, only_keys. cbn [fst snd]. repeat split.
      cbn [In]. intros k v H. repeat (destruct H as [[= <- _]|H]; [tauto|]). destruct H.
    + split; [reflexivity|]. unfold whole_at, only_keys. cbn [s_depth s_points fiji_settings]. repeat split.
      * eexists. split; [reflexivity|constructor].
      * eexists. split; [reflexivity|constructor].
      * cbn [In]. intros k v H. repeat (destruct H as [[= <- _]|H]; [tauto|]). destruct H.
Qed.
Lemma fiji_crossing : crossing fiji_bounds.
Proof.
  unfold crossing, in_domain. cbn. do 5 (split; [lra || (intros [H _]; lra)|]).
  right. do 2 eexists. split; [reflexivity|]. discriminate.
Qed.
Lemma fiji_standard : standard_longitudes fiji_data.
Proof. intros p H. cbn in H. repeat (destruct H as [<-|H]; [split; cbn; lra|]). destruct H. Qed.
(** What C89 asks of the configuration and of its only source. *)
Definition fiji_ready (f : feed) : Prop :=
  validate_mesh_config (fun _ => None) fiji_config = Ok tt /\ says fiji_config fiji_settings /\
  from_json false 0 fiji_config = Ok fiji_bounds /\ crossing fiji_bounds /\
  supplies (fun _ => []) (fiji_construct f) (fun q => q) fiji_bounds 2 0 (hd ("", []) (s_loaders fiji_settings)) f /\
  ~ In (f_name f) own_keys.
Lemma fiji_meets xr d : fiji_ready (fiji_feed xr d).
Proof.
  split; [vm_compute; reflexivity|]. split; [exact fiji_says|]. split; [vm_compute; reflexivity|]. split; [exact fiji_crossing|].
  split; [|cbn; intuition discriminate].
  split; [|split; [|split; [|split]]].
  - do 3 eexists. split; [vm_compute; reflexivity|]. split; [vm_compute; reflexivity|]. split; [reflexivity|]. split; [reflexivity|]. cbn. intuition discriminate.
  - cbn. tauto.
  - reflexivity.
  - cbn. eexists. split; [reflexivity|]. constructor; [|constructor]. do 2 eexists. split; [reflexivity|]. split; [reflexivity|].
    unfold number_at. repeat split; eexists; (split; [reflexivity|]); [exact (num_int 5)|exact (num_float _)|exact (num_float _)].
  - cbn. right. left. exists 0%Q. split; [exact (num_int 0)|reflexivity].
Qed.
(** The hypotheses hold; the points at 180 and at -170 count for the cells west of
    them. *)
Example C89_case : fiji_ready (fiji_feed true fiji_data) /\ standard_longitudes fiji_data /\
  exists em, fiji_generate (fiji_feed true fiji_data) = Ok em /\
    map (fun c => (e_id c, e_data c)) (em_cells em) =
      [(0, [("depth", JNum (Some 3%Q))]); (1, [("depth", JNum (Some 3%Q))]);
       (3, [("depth", JNum (Some 0%Q))]); (4, [("depth", JNum (Some 9%Q))]);
       (5, [("depth", JNum (Some 4%Q))]); (6, [("depth", JNum (Some 0%Q))])].
Proof.
  split; [apply fiji_meets|]. split; [exact fiji_standard|]. eexists. split; vm_compute; reflexivity.
Qed.

(** ** What C89 leaves out is false *)
(** After a split the graph need not list all contacts: in the case above no cell
    east of -170 is a neighbour of one west of it. *)
Theorem C89_graph_refuted : exists em, fiji_ready (fiji_feed true fiji_data) /\ standard_longitudes fiji_data /\
  fiji_generate (fiji_feed true fiji_data) = Ok em /\
  ~ lists_contacts touches_mod (em_cells em) (j_graph (to_json em)).
Proof.
  eexists. split; [apply fiji_meets|]. split; [exact fiji_standard|]. split; [vm_compute; reflexivity|].
  intros (_ & _ & G & _). cbn [em_cells] in G. edestruct (G _ dE (or_intror (or_introl eq_refl))) as (l & El & _ & X).
  vm_compute in El. injection El as <-. assert (I : In 3 []); [|exact I]. apply X. eexists. split; [|split; [right; right; left; reflexivity|]].
  - reflexivity.
  - exists 1. split; [reflexivity|]. exists 7%Q. vm_compute. repeat split; reflexivity.
Qed.
Print Assumptions C89_graph_refuted.
(** Sources kept as DataFrames: a cell that crosses the antimeridian takes the
    points elsewhere. *)
Theorem C89_frames_refuted : exists em c, fiji_ready (fiji_feed false fiji_data) /\ standard_longitudes fiji_data /\
  fiji_generate (fiji_feed false fiji_data) = Ok em /\ In c (em_cells em) /\
  (forall p, In p fiji_data -> ~ mem_globe (region (e_bounds c)) (p_long p) (p_lat p)) /\
  f_fill (fiji_feed false fiji_data) = FillNum 0 /\ sget (e_data c) "depth" = Some (JNum (Some 9%Q)).
Proof.
  do 2 eexists. split; [apply fiji_meets|]. split; [exact fiji_standard|]. split; [vm_compute; reflexivity|].
  split; [right; left; reflexivity|]. split; [|split; reflexivity].
  intros p H (k & M1 & M2). cbn in H. cbn in M1, M2.
  assert (K : (inject_Z k <= -1 \/ inject_Z k == 0 \/ inject_Z k == 1 \/ 2 <= inject_Z k)%Q).
  { destruct (CrossData.int_cases3 k) as [K|[->|[->|K]]]; auto; right; [left|right; left]; reflexivity. }
  revert M1 K. generalize (inject_Z k). intros z M1 K.
  repeat (destruct H as [<-|H]; [cbn in M1, M2; lra|]). destruct H.
Qed.
Print Assumptions C89_frames_refuted.
(** A point written at -180 is not counted for the cell that ends at 180. *)
Theorem C89_standard_refuted : exists d p em c, fiji_ready (fiji_feed true d) /\ In p d /\ p_vals p = [Some 7%Q] /\
  fiji_generate (fiji_feed true d) = Ok em /\ In c (em_cells em) /\
  mem_globe (region (e_bounds c)) (p_long p) (p_lat p) /\
  sget (e_data c) "depth" = Some (JNum (Some 0%Q)).
Proof.
  exists [mkP 5 (-180) None [Some 7%Q]]. do 3 eexists. split; [apply fiji_meets|]. split; [left; reflexivity|].
  split; [reflexivity|]. split; [vm_compute; reflexivity|]. split; [left; reflexivity|]. split; [|reflexivity].
  exists 1. vm_compute. repeat split; discriminate || reflexivity.
Qed.
Print Assumptions C89_standard_refuted.
