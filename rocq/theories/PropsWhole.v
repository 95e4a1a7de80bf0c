(** Property theorem C91: from files of all kinds to the values of cells.  Parameters as in
    PropsVecSources.v and PropsTable.v.  The proofs are in WholeProofs.v. *)
From Verif Require Import Base Geo Graph Cell Loaders AddLoader VecLoader Builder Env Spec MeshSpec EnvSpec DataSpec QLib Construct ConstructSpec Names PyStr Dates DateSpec Config ConfigSpec Params ParamSpec
  Reproject ReprojectSpec Pipeline PipeSpec ConfigProofs PipeProofs Sources SourcesSpec SourcesProofs PropsSources MixSpec MixProofs PropsMix VecSources VecSourcesSpec VecSourcesProofs PropsVecSources
  Lut LutSpec LutFiles LutFilesSpec LutFilesProofs PropsLut PropsLutFiles LutSources TableSpec TableProofs TableFiles PropsTable AllSources WholeSpec WholeProofs.
Open Scope string_scope.
Open Scope Z_scope.

(** C91.  For a validated configuration whose sources are scalars and vectors in csv or
    netCDF files or synthetic shapes and look-up tables in csv, GeoJSON or shape files or of the dates, the
    vectors with names of their own: building ends with a mesh that survives writing and
    reading; its cells tile the region with exactly their contacts; and every cell is
    quartered and holds values as called for by all rows and polygons of the files. *)
Theorem C91_whole_partial : forall (o : planar) edge P inside, grows o -> lawful o P inside -> rectangles o inside ->
  forall files pad now glob ft sqrt dsin dcos proj read_csv open_nc read_table read_shapes cfg s b ss0,
  validate_mesh_config files cfg = Ok tt -> says cfg s -> from_json pad now cfg = Ok b ->
  admissible b (s_width s) (s_height s) -> in_world inside b ->
  (s_lat_min s < s_lat_max s)%Q -> (s_lat_max s - s_lat_min s < 360)%Q -> 0 <= s_points s ->
  Forall2 (describes_origin o P inside glob read_table read_shapes read_csv open_nc sqrt dsin dcos b (s_points s)) (s_loaders s) ss0 ->
  labels_apart o ss0 ->
  exists ss fuel em em',
    Forall2 (describes_origin o P inside glob read_table read_shapes read_csv open_nc sqrt dsin dcos b (s_points s)) (s_loaders s) ss /\
    map (labels o) ss = map (labels o) ss0 /\
    (forall fuel', (fuel <= fuel')%nat ->
       generate files pad now glob ft (construct_all o edge sqrt dsin dcos proj read_csv open_nc read_table read_shapes) fuel' cfg = Ok em) /\
    load_from_json (to_json em) = Ok em' /\
    map e_id (em_cells em') = map e_id (em_cells em) /\ map e_data (em_cells em') = map e_data (em_cells em) /\
    map e_bounds (em_cells em') = map without_times (map e_bounds (em_cells em)) /\
    NoDup (map e_id (em_cells em')) /\ env_tiles (region b) (em_cells em') /\
    (~ spans_globe b -> lists_contacts touches (em_cells em') (em_graph em')) /\
    (spans_globe b -> lists_contacts touches_mod (em_cells em') (em_graph em')) /\
    (forall c, In c (em_cells em) -> as_offered o edge sqrt ss b (s_width s) (s_height s) (s_depth s) c).
Proof.
  intros o edge P inside Gr La Re files pad now glob ft sqrt dsin dcos proj read_csv open_nc read_table read_shapes cfg s b ss0 Hv Hs Hb Ha Hw Hl Hl' Hp Hf Hn.
  destruct (from_json_says pad now cfg s b Hs Hb) as (F1 & F2 & F3 & F4 & F5 & _).
  assert (R : plain_region b).
  { destruct Ha as (((V1 & V2 & V3 & V4) & V5) & _). split; [exact V3|]. split; [exact V1|]. split; [exact V4|]. split; [rewrite F1, F2; exact Hl|exact V5]. }
  assert (Pl : within b b).
  { destruct R as (R1 & R2 & R3 & R4 & R5). unfold within. repeat split; lra. }
  destruct (all_offered o edge sqrt dsin dcos P inside La Re proj glob read_csv open_nc read_table read_shapes b Hw Pl (s_points s) R (s_loaders s) ss0 0%nat Hf) as (ss & ts & Le & Pr & Ag & De & Al).
  { intros v I. split; [apply (proj1 (proj2 Hn)), I|]. intros n In. apply (proj1 Hn (Point (Vector v)) n I In). }
  assert (At : labels_apart o ts).
  { apply (oalike_apart o ss0); [|exact Hn]. clear - Al. induction Al; constructor; [apply oalike_sym; assumption|assumption]. }
  assert (As : labels_apart o ss).
  { apply (oalike_apart o ts); [|exact At]. clear - Ag. induction Ag; constructor; [apply oalike_sym; eapply oagree_alike; eassumption|assumption]. }
  destruct (C90_generated_partial o edge Gr files pad now glob ft (construct_all o edge sqrt dsin dcos proj read_csv open_nc read_table read_shapes) sqrt cfg s b ss Hv Hs Hb Ha Hl Hl' Hp Le Pr As)
    as (fuel & em & em' & G & L & _ & _ & _ & _ & I & D & B & N & T & C1 & C2 & C).
  exists ts, fuel, em, em'. split; [exact De|]. split; [clear - Al; induction Al as [|t s0 ts ss0 A Al IH]; [reflexivity|cbn [map]; rewrite IH; f_equal; apply oalike_labels, A]|].
  repeat (split; [assumption|]).
  intros c Ic. apply (oagree_offered o edge sqrt b ss ts); [apply R|apply Ha|apply Ha|exact Ag|apply C, Ic].
Qed.
Print Assumptions C91_whole_partial.

(** ** A case *)
(** The sources of C88_case, a zone in a GeoJSON file and the density of ice. *)
Definition wh_params : list (string * params) :=
  (vs_params ++ [("lut_geojson", [("file", JStr "zone.json"); ("data_name", JStr "zone"); ("value", JBool true); ("aggregate_type", JStr "MAX"); ("splitting_conditions", JArr [tab_condition])]);
                 ("density", [("value_fill_types", JInt 0)])])%list.
Definition wh_config : json := tab_config wh_params.
Definition wh_settings : settings := mkSettings 0 10 0 20 "2017-02-01" "2017-02-04" 10 10 1 2 wh_params.
Lemma wh_says : says wh_config wh_settings.
Proof.
  unfold wh_config, tab_config. do 4 eexists. split; [reflexivity|]. split; [reflexivity|]. split.
  - unfold region_says, number_at, text_at, only_keys. cbn [s_lat_min s_lat_max s_long_min s_long_max s_start s_end s_width s_height wh_settings].
    repeat split; try (eexists; split; [reflexivity|]; match goal with |- number (JInt ?z) _ => exact (num_int z) end).
    cbn [In]. intros k v H. repeat (destruct H as [[= <- _]|H]; [tauto|]). destruct H.
  - split; [reflexivity|]. split.
    + cbn [map app wh_params vs_params s_loaders wh_settings]. repeat (apply Forall2_cons; [eexists; split; [reflexivity|]; unfold text_at, only_keys; cbn [fst snd]; repeat split;
        cbn [In]; intros k v H; repeat (destruct H as [[= <- _]|H]; [tauto|]); destruct H|]). apply Forall2_nil.
    + split; [reflexivity|]. unfold whole_at, only_keys. cbn [s_depth s_points wh_settings]. repeat split.
      * eexists. split; [reflexivity|constructor].
      * eexists. split; [reflexivity|constructor].
      * cbn [In]. intros k v H. repeat (destruct H as [[= <- _]|H]; [tauto|]). destruct H.
Qed.
Lemma wh_world : in_world (o := boxes) in_boxes mix_bounds.
Proof. intros [x y] (z & [<-|[]] & M). exists (region world). split; [left; reflexivity|]. cbn in M |- *. unfold mem, region in *. cbn in *. lra. Qed.
Lemma wh_days : days_are mix_bounds (2017, 2, 1) 3.
Proof.
  assert (M : month_length 2017 2 28) by (apply ml_28; unfold leap_year, Z.divide; intros [[k H] _]; lia).
  exists (2017, 2, 4). split; [exists 28; split; [exact M|lia]|]. split; [|split; [reflexivity|vm_compute; split; discriminate]].
  do 3 (eapply da_S; [eapply nd_day; [exact M|lia]|]). constructor.
Qed.
Lemma wh_spread : spread boxes (Q * Q) in_boxes mix_bounds (density_wanted boxes mix_bounds (2017, 2, 1) 3).
Proof.
  split.
  - intros day g q (k & y & m & d & north & s & _ & _ & -> & _). destruct north; reflexivity.
  - intros [x y] (z & [<-|[]] & M). exists (ord_of (2017, 2, 1) + 0), (part boxes (half_globe true) mix_bounds), 920%Q. split.
    + exists 0%nat, 2017, 2, 1, true, Wi. split; [split; [lia|constructor]|]. split; [reflexivity|]. split; [reflexivity|]. split; [reflexivity|]. split; [cbn; tauto|reflexivity].
    + eexists. split; [left; reflexivity|]. unfold mem in *. cbn in *. lra.
Qed.
Definition wh_labels : list (list string) := [["SIC"]; ["uC"; "vC"]; ["uWave"; "vWave"]; ["zone"]; ["density"]].
Lemma wh_described : exists ss0, map (labels boxes) ss0 = wh_labels /\ labels_apart boxes ss0 /\
  Forall2 (describes_origin boxes (Q * Q) in_boxes (fun _ => []) (fun _ => Err FileNotFoundError) tab_shapes vs_csv vs_nc (fun q => q) (fun q => q) (fun q => (q * q)%Q) mix_bounds 2) (s_loaders wh_settings) ss0.
Proof.
  assert (W : within mix_bounds mix_bounds) by (unfold within; cbn; lra).
  assert (E : exists p, in_boxes (g_shape boxes (Rect mix_bounds)) p) by (exists (1, 1)%Q; exists (region mix_bounds); split; [left; reflexivity|]; cbn; unfold mem, region; cbn; lra).
  destruct (C73_shapes boxes (Q * Q) in_boxes mix_bounds (LB true) [[[Box 12 14 2 4]]] boxes_lawful wh_world E) as (zone & _ & Z); [discriminate|intros g [<-|[]]; discriminate|].
  destruct (C46_density boxes mix_bounds (2017, 2, 1) 3%nat wh_days) as (rows & _ & (T1 & T2) & _). destruct wh_spread as (S1 & S2).
  destruct (dated_ok boxes (Q * Q) in_boxes mix_bounds rows boxes_lawful boxes_rectangles W) as (dens & _ & H).
  { intros r I. eapply S1, T1, I. }
  { intros x I. destruct (S2 x I) as (d & g & v & Wn & J). destruct (T2 _ _ _ Wn) as (r & Ir & _ & <- & _). eauto. }
  exists (map Point vs_sources ++ [Table (mkTFeed "zone" "MAX" [(true, false)] FillParent zone); Table (mkTFeed "density" "MEAN" [] (FillNum 0) dens)])%list.
  split; [reflexivity|]. split; [|].
  - destruct vs_apart as (A1 & A2 & A3). split; [|split].
    + intros s n I Hn. apply in_app_iff in I as [I|[<-|[<-|[]]]].
      * apply in_map_iff in I as (s' & <- & I). apply (A1 s' n I Hn).
      * destruct Hn as [<-|[]]. split; [intros a b; do 5 (try destruct a as [|? a]); cbn; discriminate|cbn; intuition discriminate].
      * destruct Hn as [<-|[]]. split; [intros a b; do 8 (try destruct a as [|? a]); cbn; discriminate|cbn; intuition discriminate].
    + intros v I. apply in_app_iff in I as [I|[I|[I|[]]]]; try discriminate. apply in_map_iff in I as (s' & Ev & I). injection Ev as ->. apply A2, I.
    + intros i j v t n Ne Hi Hj I. destruct i as [|[|[|[|[|i]]]]]; cbn in Hi; try discriminate; [| |destruct i; discriminate];
        injection Hi as <-; destruct j as [|[|[|[|[|j]]]]]; cbn in Hj; try congruence; try (destruct j; discriminate); injection Hj as <-; cbn in I |- *; intuition congruence.
  - cbn [s_loaders wh_settings wh_params]. apply Forall2_app.
    + pose proof vs_described as V. cbn [s_loaders vs_settings] in V. clear - V. induction V; constructor; [left|]; assumption.
    + apply Forall2_cons; [|apply Forall2_cons; [|apply Forall2_nil]].
      * split; [constructor; cbn [fst snd t_name t_agg t_conds t_fill]|].
        -- unfold dict_ok. nodup_keys.
        -- reflexivity.
        -- cbn. tauto.
        -- cbn. eexists. split; [reflexivity|]. constructor; [|constructor]. do 2 eexists. repeat (split; [reflexivity|]). reflexivity.
        -- reflexivity.
        -- apply (said_shapes boxes _ _ _ _ _ _ _ _ "lut_geojson" ["zone.json"] [[[Box 12 14 2 4]]] (JBool true) (LB true)); cbn [fst snd].
           ++ cbn. tauto.
           ++ cbn. repeat split; left; reflexivity.
           ++ exists "zone.json". split; reflexivity.
           ++ reflexivity.
           ++ reflexivity.
           ++ constructor.
           ++ repeat constructor.
           ++ discriminate.
           ++ intros g [<-|[]]; discriminate.
           ++ intros x v I. cbn [t_rows]. rewrite (Z x v I). apply zoned_value.
      * split; [constructor; cbn [fst snd t_name t_agg t_conds t_fill]|].
        -- unfold dict_ok. nodup_keys.
        -- reflexivity.
        -- cbn. tauto.
        -- reflexivity.
        -- cbn. right. left. exists 0%Q. split; [exact (num_int 0)|reflexivity].
        -- apply (said_density boxes _ _ _ _ _ _ _ _ (2017, 2, 1) 3%nat); cbn [fst snd t_name].
           ++ cbn. repeat split; left; reflexivity.
           ++ split; reflexivity.
           ++ left. reflexivity.
           ++ reflexivity.
           ++ exact wh_days.
           ++ exact wh_spread.
           ++ split; cbn [t_rows].
              ** intros x v I Gi. apply H in Gi as (r & Ir & J & ->); [|exact I]. exists (r_time r), (r_geom r), (r_val r). split; [exact (T1 r Ir)|]. split; [exact J|reflexivity].
              ** intros x d g v I Wn J. destruct (T2 _ _ _ Wn) as (r & Ir & _ & <- & Ev). exists (r_val r). split; [exact Ev|]. apply H; [exact I|]. eauto.
Qed.
(** The hypotheses hold; all five sources stand in the cells. *)
Example C91_case :
  grows boxes /\ lawful boxes (Q * Q) in_boxes /\ rectangles boxes in_boxes /\ in_world (o := boxes) in_boxes mix_bounds /\
  validate_mesh_config (fun _ => None) wh_config = Ok tt /\ says wh_config wh_settings /\ from_json false 0 wh_config = Ok mix_bounds /\ admissible mix_bounds 10 10 /\
  (exists ss0, map (labels boxes) ss0 = wh_labels /\ labels_apart boxes ss0 /\
    Forall2 (describes_origin boxes (Q * Q) in_boxes (fun _ => []) (fun _ => Err FileNotFoundError) tab_shapes vs_csv vs_nc (fun q => q) (fun q => q) (fun q => (q * q)%Q) mix_bounds 2) (s_loaders wh_settings) ss0) /\
  exists em, generate (fun _ => None) false 0 (fun _ => []) (fun _ => false)
      (construct_all boxes edge_boxes (fun q => q) (fun q => q) (fun q => (q * q)%Q) (fun _ _ x y => (x, y)) vs_csv vs_nc (fun _ => Err FileNotFoundError) tab_shapes) 100 wh_config = Ok em /\
    map (fun c => (e_id c, map fst (e_data c))) (em_cells em) = map (fun i => (i, List.concat wh_labels)) [0; 2; 3; 4; 5] /\
    map (fun c => (sget (e_data c) "zone", option_map (fun j => match j with JNum (Some q) => Qred q | _ => 0%Q end) (sget (e_data c) "density"))) (em_cells em) =
      [(Some (JNum (Some 0%Q)), Some 920%Q); (Some (JNum (Some 0%Q)), Some 920%Q); (Some (JNum (Some 0%Q)), Some 920%Q); (Some (JNum (Some 1%Q)), Some 920%Q); (Some (JNum (Some 0%Q)), Some 920%Q)].
Proof.
  split; [exact boxes_grow|]. split; [exact boxes_lawful|]. split; [exact boxes_rectangles|]. split; [exact wh_world|].
  split; [vm_compute; reflexivity|]. split; [exact wh_says|]. split; [vm_compute; reflexivity|]. split; [|split; [exact wh_described|]].
  - split; [|split; [reflexivity|split; [reflexivity|]]].
    + split; [cbn; lra|]. right. do 2 eexists. split; [reflexivity|]. discriminate.
    + intros [H _]. cbn in H. lra.
  - eexists. split; [vm_compute; reflexivity|]. split; vm_compute; reflexivity.
Qed.
