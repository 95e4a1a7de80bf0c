(** Property theorem C59: from a configuration file to a mesh file and back.
    [files], [pad] and [now] as in PropsConfig; [glob] and [ft] as in PropsParams;
    [construct] says what the loader classes return (any function).  Statements
    only; the proofs are in PipeProofs.v. *)
From Verif Require Import Base Geo Graph Cell Loaders Builder Env Spec MeshSpec EnvSpec DataSpec QLib Config ConfigSpec Params Pipeline PipeSpec PipeProofs.
Open Scope string_scope.
Open Scope Z_scope.

(** C59.  For a validated configuration whose sources are scalar sources with a
    documented aggregation type: building always ends with a mesh; writing it and
    reading it back gives the same cells; the cells tile the configured region, the
    graph lists exactly the contacts, and every cell is as configured: quartered
    where, and only where, the data of its bounds calls for it and the depth allows,
    holding under every name the documented aggregate of the points in its bounds. *)
Theorem C59_generated_partial : forall files pad now glob ft construct sqrt cfg s b fs,
  validate_mesh_config files cfg = Ok tt -> says cfg s -> from_json pad now cfg = Ok b ->
  admissible b (s_width s) (s_height s) ->
  (s_lat_min s < s_lat_max s)%Q -> (s_lat_max s - s_lat_min s < 360)%Q -> 0 <= s_points s ->
  List.length fs = List.length (s_loaders s) ->
  (forall k src f, nth_error (s_loaders s) k = Some src -> nth_error fs k = Some f ->
     supplies glob construct sqrt b (s_points s) k src f) ->
  (forall f, In f fs -> ~ In (f_name f) own_keys) ->
  exists fuel em em',
    (forall fuel', (fuel <= fuel')%nat -> generate files pad now glob ft construct fuel' cfg = Ok em) /\
    load_from_json (to_json em) = Ok em' /\
    em_bounds em = b /\ em_bounds em' = b /\
    em_config em = mkCfg b (s_width s) (s_height s) (s_depth s) [] /\ em_config em' = em_config em /\
    map e_id (em_cells em') = map e_id (em_cells em) /\ map e_data (em_cells em') = map e_data (em_cells em) /\
    map e_bounds (em_cells em') = map without_times (map e_bounds (em_cells em)) /\
    NoDup (map e_id (em_cells em')) /\ env_tiles (region b) (em_cells em') /\
    (~ spans_globe b -> lists_contacts touches (em_cells em') (em_graph em')) /\
    (spans_globe b -> lists_contacts touches_mod (em_cells em') (em_graph em')) /\
    (forall c, In c (em_cells em) -> as_configured sqrt fs b (s_width s) (s_height s) (s_depth s) c).
Proof. exact generated. Qed.
Print Assumptions C59_generated_partial.

(** Whatever the loaders (vectors, look-up tables, scalar or not), whenever a mesh
    is returned. *)
Theorem C59_any_loaders : forall files pad now glob ft construct fuel cfg em b cw ch,
  generate files pad now glob ft construct fuel cfg = Ok em ->
  from_json pad now cfg = Ok b -> region_num cfg "cell_width" = Ok cw -> region_num cfg "cell_height" = Ok ch ->
  admissible b cw ch ->
  em_bounds em = b /\ NoDup (map e_id (em_cells em)) /\ env_tiles (region b) (em_cells em) /\
  (forall c, In c (em_cells em) -> exists l, nested b cw ch (e_bounds c :: l)) /\
  (~ spans_globe b -> lists_contacts touches (map timeless (em_cells em)) (j_graph (to_json em))) /\
  (spans_globe b -> lists_contacts touches_mod (map timeless (em_cells em)) (j_graph (to_json em))).
Proof. exact generated_any. Qed.
Print Assumptions C59_any_loaders.

(** ** A case *)
Definition pipe_condition : json :=
  JObj [("SIC", JObj [("threshold", JInt 5); ("lower_bound", JFloat (1#10)); ("upper_bound", JFloat (9#10))])].
Definition pipe_config (points : Z) : json :=
  JObj [("region", JObj [("lat_min", JInt 0); ("lat_max", JInt 10); ("long_min", JInt 0); ("long_max", JInt 20);
                         ("start_time", JStr "2017-02-01"); ("end_time", JStr "2017-02-04");
                         ("cell_width", JInt 10); ("cell_height", JInt 10)]);
        ("data_sources", JArr [JObj [("loader", JStr "Scalar_CSV");
           ("params", JObj [("file", JStr "sic.csv"); ("splitting_conditions", JArr [pipe_condition]); ("value_fill_types", JInt 0)])]]);
        ("splitting", JObj [("split_depth", JInt 1); ("minimum_datapoints", JInt points)])].
Definition pipe_settings (points : Z) : settings :=
  mkSettings 0 10 0 20 "2017-02-01" "2017-02-04" 10 10 1 points
    [("Scalar_CSV", [("file", JStr "sic.csv"); ("splitting_conditions", JArr [pipe_condition]); ("value_fill_types", JInt 0)])].
Definition pipe_bounds : boundary :=
  Eval vm_compute in match from_json false 0 (pipe_config 2) with Ok b => b | Err _ => mkB 0 0 0 0 [] end.
Definition pipe_feed : feed :=
  mkFeed "SIC" false "MEAN" 2 [mkCond 5 (1#10) (9#10) false] (FillNum 0)
    [mkP 2 2 None [Some 1%Q]; mkP 8 8 None [Some 9%Q]; mkP 8 9 None [Some 7%Q]; mkP 3 13 None [Some 4%Q]].
Definition pipe_construct (k : nat) (cls : string) (p : params) (b : boundary) : res (loader * data) :=
  if String.eqb cls "ScalarCSVDataLoader" then Ok (feed_loader (fun q => q) k pipe_feed, f_data pipe_feed) else Err ValueError.
Lemma pipe_says points : says (pipe_config points) (pipe_settings points).
Proof.
  unfold pipe_config. do 4 eexists. split; [reflexivity|]. split; [reflexivity|]. split.
  - unfold region_says, number_at, text_at, only_keys. cbn [s_lat_min s_lat_max s_long_min s_long_max s_start s_end s_width s_height pipe_settings].
    repeat split; try (eexists; split; [reflexivity|]; match goal with |- number (JInt ?z) _ => exact (num_int z) end).
    cbn [In]. intros k v H. repeat (destruct H as [[= <- _]|H]; [tauto|]). destruct H.
  - split; [reflexivity|]. split.
    + constructor; [|constructor]. eexists. split; [reflexivity|]. unfold text_at, only_keys. cbn [fst snd]. repeat split.
      cbn [In]. intros k v H. repeat (destruct H as [[= <- _]|H]; [tauto|]). destruct H.
    + split; [reflexivity|]. unfold whole_at, only_keys. cbn [s_depth s_points pipe_settings]. repeat split.
      * eexists. split; [reflexivity|constructor].
      * eexists. split; [reflexivity|constructor].
      * cbn [In]. intros k v H. repeat (destruct H as [[= <- _]|H]; [tauto|]). destruct H.
Qed.
Lemma pipe_admissible : admissible pipe_bounds 10 10.
Proof.
  split; [|split; [reflexivity|split; [reflexivity|]]].
  - split; [cbn; lra|]. right. do 2 eexists. split; [reflexivity|]. discriminate.
  - intros [H _]. cbn in H. lra.
Qed.
(** The hypotheses hold, and the mesh has one unsplit cell and four quarters with
    the expected values (0 where there is no point). *)
Example C59_case :
  validate_mesh_config (fun _ => None) (pipe_config 2) = Ok tt /\ says (pipe_config 2) (pipe_settings 2) /\
  from_json false 0 (pipe_config 2) = Ok pipe_bounds /\ admissible pipe_bounds 10 10 /\
  supplies (fun _ => []) pipe_construct (fun q => q) pipe_bounds 2 0 ("Scalar_CSV", snd (hd ("", []) (s_loaders (pipe_settings 2)))) pipe_feed /\
  ~ In (f_name pipe_feed) own_keys /\
  exists em, generate (fun _ => None) false 0 (fun _ => []) (fun _ => false) pipe_construct 100 (pipe_config 2) = Ok em /\
    map (fun c => (e_id c, e_data c)) (em_cells em) =
      [(1, [("SIC", JNum (Some (4#1)))]); (2, [("SIC", JNum (Some 0%Q))]); (3, [("SIC", JNum (Some (16#2)))]);
       (4, [("SIC", JNum (Some (1#1)))]); (5, [("SIC", JNum (Some 0%Q))])].
Proof.
  split; [vm_compute; reflexivity|]. split; [apply pipe_says|]. split; [vm_compute; reflexivity|]. split; [exact pipe_admissible|].
  split; [|split].
  - split; [|split; [|split; [|split]]].
    + do 3 eexists. split; [vm_compute; reflexivity|]. split; [vm_compute; reflexivity|]. split; [reflexivity|]. split; [reflexivity|]. cbn. intuition discriminate.
    + cbn. tauto.
    + reflexivity.
    + cbn. eexists. split; [reflexivity|]. constructor; [|constructor]. do 2 eexists. split; [reflexivity|]. split; [reflexivity|].
      unfold number_at. repeat split; eexists; (split; [reflexivity|]); [exact (num_int 5)|exact (num_float _)|exact (num_float _)].
    + cbn. right. left. exists 0%Q. split; [exact (num_int 0)|reflexivity].
  - cbn. intuition discriminate.
  - eexists. split; vm_compute; reflexivity.
Qed.

(** A negative minimum of datapoints passes the validator, and then no mesh can be
    built. *)
Theorem C59_negative_refuted :
  (forall files pad now glob ft construct fuel cfg s b, says cfg s -> from_json pad now cfg = Ok b ->
     admissible b (s_width s) (s_height s) -> (s_lat_min s < s_lat_max s)%Q -> s_points s < 0 ->
     exists e, generate files pad now glob ft construct fuel cfg = Err e) /\
  exists cfg s b, says cfg s /\ validate_mesh_config (fun _ => None) cfg = Ok tt /\ from_json false 0 cfg = Ok b /\
    admissible b (s_width s) (s_height s) /\ (s_lat_min s < s_lat_max s)%Q /\ s_points s < 0.
Proof.
  split; [exact negative_refused|]. exists (pipe_config (-1)), (pipe_settings (-1)), pipe_bounds.
  split; [apply pipe_says|]. split; [vm_compute; reflexivity|]. split; [vm_compute; reflexivity|].
  split; [exact pipe_admissible|]. split; reflexivity.
Qed.
Print Assumptions C59_negative_refuted.
