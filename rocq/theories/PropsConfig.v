(** Property theorems C39, C51, C52: configurations.  Statements only; the proofs
    are lemmas of ConfigProofs.v.  [files] gives the content of the files, [pad] and
    [now] are the platform's padding of years and the current time (see PropsDates). *)
From Coq Require Import Ascii String.
From Verif Require Import Base Geo Graph Cell Builder Spec MeshSpec GlobeSpec CrossSpec QLib Dates DateSpec DateProofs Config ConfigSpec ConfigProofs.
Open Scope string_scope.
Open Scope Z_scope.

(** C39.  For sensible settings, what the config validator accepts is accepted by
    the builder, and its grid tiles the region on the globe: for ranges within
    -180 and 180, across the antimeridian, and around the whole globe. *)
Theorem C39_partial : forall files pad now cfg s b srcs,
  says cfg s -> sensible s -> validate_mesh_config files cfg = Ok tt -> from_json pad now cfg = Ok b ->
  validate_bounds b (s_width s) (s_height s) = Ok tt /\
  exists cs, initialize_cellboxes b (s_width s) (s_height s) srcs = Ok cs /\
    forall g gl, globe_tiled (region b) (mkMesh (map Some cs) g gl).
Proof. exact config_tiles. Qed.
Print Assumptions C39_partial.
(** The boundary is the configured one; it exists when the range is within bounds
    and the texts denote two dates in order. *)
Theorem C39_boundary : forall pad now cfg s d1 d2 n, says cfg s ->
  parse_datetime pad now (s_start s) = Ok (strftime pad d1) -> parse_datetime pad now (s_end s) = Ok (strftime pad d2) ->
  calendar_date d1 -> year_ok d1 -> four_figures pad d1 -> year_ok d2 -> four_figures pad d2 -> days_after n d1 d2 ->
  (s_lat_min s <= s_lat_max s)%Q -> (-180 <= s_long_min s)%Q -> (s_long_max s <= 180)%Q ->
  exists b t, from_json pad now cfg = Ok b /\
    b = mkB (s_lat_min s) (s_lat_max s) (s_long_min s) (s_long_max s) [t; t + Z.of_nat n].
Proof. exact from_json_ok. Qed.
Print Assumptions C39_boundary.
Theorem C39_boundary_only : forall pad now cfg s b, says cfg s -> from_json pad now cfg = Ok b ->
  lat_min b = s_lat_min s /\ lat_max b = s_lat_max s /\ long_min b = s_long_min s /\ long_max b = s_long_max s /\
  (s_lat_min s <= s_lat_max s)%Q /\ (-180 <= s_long_min s)%Q /\ (s_long_max s <= 180)%Q /\ times_ok (time_range b).
Proof. exact from_json_says. Qed.
Print Assumptions C39_boundary_only.

Definition config_of (lat0 lat1 lo0 lo1 cw ch : Z) : json :=
  JObj [("region", JObj [("lat_min", JInt lat0); ("lat_max", JInt lat1); ("long_min", JInt lo0); ("long_max", JInt lo1);
                         ("start_time", JStr "2017-02-01"); ("end_time", JStr "2017-02-04");
                         ("cell_width", JInt cw); ("cell_height", JInt ch)]);
        ("data_sources", JArr [JObj [("loader", JStr "scalar_csv"); ("params", JObj [])]]);
        ("splitting", JObj [("split_depth", JInt 3); ("minimum_datapoints", JFloat 5)])].
Definition settings_of (lat0 lat1 lo0 lo1 cw ch : Z) : settings :=
  mkSettings (inject_Z lat0) (inject_Z lat1) (inject_Z lo0) (inject_Z lo1) "2017-02-01" "2017-02-04"
             (inject_Z cw) (inject_Z ch) 3 5 [("scalar_csv", [])].
Lemma config_of_says lat0 lat1 lo0 lo1 cw ch : says (config_of lat0 lat1 lo0 lo1 cw ch) (settings_of lat0 lat1 lo0 lo1 cw ch).
Proof.
  unfold config_of. do 4 eexists. split; [reflexivity|]. split; [reflexivity|]. split.
  - unfold region_says, number_at, text_at, only_keys. cbn [s_lat_min s_lat_max s_long_min s_long_max s_start s_end s_width s_height settings_of].
    repeat split; try (eexists; split; [reflexivity|constructor]).
    cbn [In]. intros k v H. repeat (destruct H as [[= <- _]|H]; [tauto|]). destruct H.
  - split; [reflexivity|]. split.
    + constructor; [|constructor]. eexists. split; [reflexivity|]. unfold text_at, only_keys. cbn [fst snd]. repeat split.
      cbn [In]. intros k v H. repeat (destruct H as [[= <- _]|H]; [tauto|]). destruct H.
    + split; [reflexivity|]. unfold whole_at, only_keys. cbn [s_depth s_points settings_of]. repeat split.
      * eexists. split; [reflexivity|constructor].
      * eexists. split; [reflexivity|]. constructor. reflexivity.
      * cbn [In]. intros k v H. repeat (destruct H as [[= <- _]|H]; [tauto|]). destruct H.
Qed.
Definition no_files (p : string) : option json := None.

Ltac sensible_tac := split; [cbn [s_lat_min s_lat_max s_long_min s_long_max s_width s_height settings_of]; repeat split; try reflexivity; try discriminate; intros [H1 H2]; discriminate H1 || discriminate H2|intros _; exists 36; reflexivity].
(** Two meshes: over [0, 20] and across the antimeridian; both are accepted and built. *)
Example C39_case :
  says (config_of (-10) 10 0 20 10 10) (settings_of (-10) 10 0 20 10 10) /\ sensible (settings_of (-10) 10 0 20 10 10) /\
  validate_mesh_config no_files (config_of (-10) 10 0 20 10 10) = Ok tt /\
  (exists b, from_json false 0 (config_of (-10) 10 0 20 10 10) = Ok b) /\
  sensible (settings_of (-10) 10 160 (-160) 10 10) /\
  validate_mesh_config no_files (config_of (-10) 10 160 (-160) 10 10) = Ok tt /\
  (exists b, from_json false 0 (config_of (-10) 10 160 (-160) 10 10) = Ok b) /\
  sensible (settings_of (-10) 10 (-180) 180 10 10) /\
  (exists m, mesh_builder no_files false 0 (config_of (-10) 10 160 (-160) 10 10) (fun _ => []) = Ok m /\ List.length (cells m) = 8%nat).
Proof.
  split; [apply config_of_says|].
  split; [sensible_tac|].
  split; [vm_compute; reflexivity|]. split; [eexists; vm_compute; reflexivity|].
  split; [sensible_tac|].
  split; [vm_compute; reflexivity|]. split; [eexists; vm_compute; reflexivity|].
  split; [sensible_tac|].
  eexists. split; vm_compute; reflexivity.
Qed.

Definition accepted (cfg : json) (s : settings) : Prop := says cfg s /\ validate_mesh_config no_files cfg = Ok tt.
Definition zero_mesh : mesh := Eval vm_compute in
  match mesh_builder no_files false 0 (config_of (-10) 10 0 0 7 10) (fun _ => []) with Ok m => m | Err _ => mkMesh [] [] false end.
(** Findings.  A range from a longitude to itself with a width that does not divide
    360: the mesh is built, and its first and last columns overlap. *)
Theorem C39_closing_refuted : exists cfg s b m, accepted cfg s /\ (0 < s_width s)%Q /\ (0 < s_height s)%Q /\
  from_json false 0 cfg = Ok b /\ mesh_builder no_files false 0 cfg (fun _ => []) = Ok m /\ ~ globe_tiled (region b) m.
Proof.
  exists (config_of (-10) 10 0 0 7 10), (settings_of (-10) 10 0 0 7 10). eexists. exists zero_mesh.
  split; [split; [apply config_of_says|vm_compute; reflexivity]|]. split; [reflexivity|]. split; [reflexivity|].
  split; [vm_compute; reflexivity|]. split; [vm_compute; reflexivity|].
  intros (_ & _ & U). pose proof (fun a b => U 0%nat 51%nat _ _ 2%Q (-5)%Q eq_refl eq_refl a b) as X.
  assert (A : 0%nat = 51%nat); [apply X|discriminate]; exists 0; cbn; repeat split; vm_compute; congruence.
Qed.
Print Assumptions C39_closing_refuted.
(** Negative cell sizes are accepted and give a mesh without cells. *)
Theorem C39_negative_refuted : exists cfg s b m, accepted cfg s /\ (s_width s < 0)%Q /\
  from_json false 0 cfg = Ok b /\ mesh_builder no_files false 0 cfg (fun _ => []) = Ok m /\ cells m = [] /\
  ~ globe_tiled (region b) m.
Proof.
  exists (config_of (-10) 10 0 20 (-10) 10), (settings_of (-10) 10 0 20 (-10) 10). do 2 eexists.
  split; [split; [apply config_of_says|vm_compute; reflexivity]|]. split; [reflexivity|].
  split; [vm_compute; reflexivity|]. split; [vm_compute; reflexivity|]. split; [reflexivity|].
  intros (T & _). destruct (T 5%Q 5%Q) as (i & c & L & _); [exists 0; cbn; repeat split; vm_compute; congruence|].
  unfold live_cell in L. cbn [cells] in L. destruct i; discriminate.
Qed.
Print Assumptions C39_negative_refuted.
(** For the whole globe any cell width is accepted; with 7 degrees, building fails. *)
Theorem C39_globe_refuted :
  (forall w, w <> 0 -> accepted (config_of (-10) 10 (-180) 180 w 10) (settings_of (-10) 10 (-180) 180 w 10)) /\
  mesh_builder no_files false 0 (config_of (-10) 10 (-180) 180 7 10) (fun _ => []) = Err IndexError.
Proof.
  split; [|vm_compute; reflexivity].
  intros w W. split; [apply config_of_says|]. apply (validate_says _ _ _ (config_of_says _ _ _ _ _ _)).
  assert (T : accepted_time "2017-02-01" /\ accepted_time "2017-02-04") by (rewrite <- !time_iff; split; reflexivity).
  unfold acceptable. cbn [s_start s_end s_lat_min s_lat_max s_long_min s_long_max s_width s_height settings_of].
  split; [apply T|]. split; [apply T|]. split.
  - split; [discriminate|]. exists 0, 2. cbn. split; [discriminate|]. split; reflexivity.
  - split.
    + intros E. apply W. unfold Qeq in E. cbn in E. lia.
    + exists 1, 0. cbn. split; [discriminate|]. split; reflexivity.
Qed.
Print Assumptions C39_globe_refuted.

(** C51.  A configuration given as a dictionary is accepted exactly when it is
    complete, has no unknown entries in its parts, has acceptable dates, and its
    extents are whole numbers of cells. *)
Theorem C51_accepts : forall files cfg, validate_mesh_config files cfg = Ok tt <->
  exists s, says cfg s /\ accepted_time (s_start s) /\ accepted_time (s_end s) /\
    whole_steps (s_lat_min s) (s_lat_max s) (s_height s) /\ whole_steps (s_long_min s) (s_long_max s) (s_width s).
Proof. exact validator_accepts. Qed.
Print Assumptions C51_accepts.
(** The settings of the region are determined by the configuration. *)
Theorem C51_region_unique : forall cfg s s', says cfg s -> says cfg s' ->
  s_lat_min s = s_lat_min s' /\ s_lat_max s = s_lat_max s' /\ s_long_min s = s_long_min s' /\ s_long_max s = s_long_max s' /\
  s_start s = s_start s' /\ s_end s = s_end s' /\ s_width s = s_width s' /\ s_height s = s_height s'.
Proof. exact says_region_eq. Qed.
Print Assumptions C51_region_unique.
Example C51_case : exists s, says (config_of (-10) 10 0 20 10 10) s /\
  validate_mesh_config no_files (config_of (-10) 10 0 20 10 10) = Ok tt /\
  validate_mesh_config no_files (config_of (-10) 10 0 20 3 10) = Err AssertionError /\
  validate_mesh_config no_files (JObj []) = Err ValidationError /\
  validate_mesh_config no_files (JArr []) = Err TypeError.
Proof. eexists. split; [apply config_of_says|]. repeat split; vm_compute; reflexivity. Qed.
(** Finding: a configuration given as the path of a file, as documented, is never
    accepted, not even when its content is: after checking the content, the
    validator subscripts the path. *)
Theorem C51_path_refuted :
  (forall files p, validate_mesh_config files (JStr p) <> Ok tt) /\
  (forall files p j, files p = Some j -> validate_mesh_config files j = Ok tt ->
     validate_mesh_config files (JStr p) = Err TypeError) /\
  exists files p j, files p = Some j /\ validate_mesh_config files j = Ok tt.
Proof.
  split; [|split].
  - intros files p H. destruct (path_rejected files p) as (e & E & _). congruence.
  - intros files p j F V. destruct (path_rejected files p) as (e & E & H).
    apply validator_accepts in V as (s & Sy & _). rewrite (H j F (ex_intro _ s Sy)) in E. exact E.
  - exists (fun _ => Some (config_of (-10) 10 0 20 10 10)), "c.json", (config_of (-10) 10 0 20 10 10).
    split; [reflexivity|]. vm_compute. reflexivity.
Qed.
Print Assumptions C51_path_refuted.

(** C52.  Vessel and route configurations, given as a dictionary or as a path. *)
Theorem C52_vessel : forall files cfg, validate_vessel_config files cfg = Ok tt <->
  exists o, vessel_says o /\ (cfg = JObj o \/ exists p, cfg = JStr p /\ files p = Some (JObj o)).
Proof.
  intros files cfg. unfold validate_vessel_config, flexi_json_input. split.
  - intros H. destruct cfg as [| | | |p|l|o]; try discriminate.
    + destruct (files p) as [j|] eqn:E; [|discriminate]. cbn [bind] in H. destruct (valid vessel_schema j) eqn:V; [|discriminate].
      apply vessel_valid in V as (o & -> & S). exists o. eauto.
    + cbn [bind] in H. destruct (valid vessel_schema (JObj o)) eqn:V; [|discriminate].
      apply vessel_valid in V as (o' & [= <-] & S). eauto.
  - intros (o & S & [-> |(p & -> & ->)]); cbn [bind]; rewrite (proj2 (vessel_valid (JObj o))) by eauto; reflexivity.
Qed.
Print Assumptions C52_vessel.
Theorem C52_route : forall files cfg, validate_route_config files cfg = Ok tt <->
  exists o, route_says o /\ (cfg = JObj o \/ exists p, cfg = JStr p /\ files p = Some (JObj o)).
Proof.
  intros files cfg. unfold validate_route_config, flexi_json_input. split.
  - intros H. destruct cfg as [| | | |p|l|o]; try discriminate.
    + destruct (files p) as [j|] eqn:E; [|discriminate]. cbn [bind] in H. destruct (valid route_schema j) eqn:V; [|discriminate].
      apply route_valid in V as (o & -> & S). exists o. eauto.
    + cbn [bind] in H. destruct (valid route_schema (JObj o)) eqn:V; [|discriminate].
      apply route_valid in V as (o' & [= <-] & S). eauto.
  - intros (o & S & [-> |(p & -> & ->)]); cbn [bind]; rewrite (proj2 (route_valid (JObj o))) by eauto; reflexivity.
Qed.
Print Assumptions C52_route.
Definition some_vessel (ice : Z) : json := JObj [("VesselType", JStr "SDA"); ("MaxSpeed", JFloat (53 # 2)); ("Unit", JStr "km/hr");
  ("MaxIceConc", JInt ice); ("MinDepth", JInt 10); ("Beam", JInt 24)].
Definition some_route (unit : string) : json := JObj [("objective_function", JStr "traveltime"); ("path_variables", JArr [JStr "fuel"]);
  ("vector_names", JArr [JStr "uC"; JStr "vC"]); ("variable_speed", JBool true); ("time_unit", JStr unit);
  ("early_stopping_criterion", JBool true); ("zero_currents", JBool false)].
Example C52_case :
  validate_vessel_config no_files (some_vessel 80) = Ok tt /\ validate_vessel_config no_files (some_vessel 101) = Err ValidationError /\
  validate_route_config no_files (some_route "days") = Ok tt /\ validate_route_config no_files (some_route "weeks") = Err ValidationError.
Proof. repeat split; vm_compute; reflexivity. Qed.
