(** Property theorems C90: generating a mesh from scalar sources, vector sources and look-up
    tables.  Parameters as in PropsMix.v, with the geometry [o] and the test [edge] whether
    the edge of one geometry meets another (shapely).  Statements and cases; the proofs are
    in TableProofs.v and TableFiles.v. *)
From Verif Require Import Base Geo Graph Cell Loaders AddLoader VecLoader Builder Env Spec MeshSpec EnvSpec DataSpec QLib PyStr Config ConfigSpec Params Names Sources Pipeline PipeSpec PipeProofs VecHomSpec MixSpec MixProofs PropsMix Lut LutSpec PropsLut LutFiles LutFilesSpec LutFilesProofs PropsLutFiles LutSources TableSpec TableChain TableProofs TableFiles.
Open Scope string_scope.
Open Scope Z_scope.

(** C90.  For a validated configuration whose sources are scalars, vectors and look-up
    tables, the vectors with names of their own: building always ends with a mesh that can
    be written and read back; its cells tile the region with exactly their contacts; every
    cell is quartered where, and only where, the conditions of points and of tables
    together call for it; and it holds under every name of a table the summary of the
    values of the polygons that meet it, or else that of the nearest ancestor with a value
    or the number configured. *)
Theorem C90_generated_partial : forall (o : planar) edge, grows o -> forall files pad now glob ft construct sqrt cfg s b ss,
  validate_mesh_config files cfg = Ok tt -> says cfg s -> from_json pad now cfg = Ok b ->
  admissible b (s_width s) (s_height s) ->
  (s_lat_min s < s_lat_max s)%Q -> (s_lat_max s - s_lat_min s < 360)%Q -> 0 <= s_points s ->
  List.length ss = List.length (s_loaders s) ->
  (forall k src f, nth_error (s_loaders s) k = Some src -> nth_error ss k = Some f ->
     offers o edge sqrt glob construct b (s_points s) k src f) ->
  labels_apart o ss ->
  exists fuel em em',
    (forall fuel', (fuel <= fuel')%nat -> generate files pad now glob ft construct fuel' cfg = Ok em) /\
    load_from_json (to_json em) = Ok em' /\
    em_bounds em = b /\ em_bounds em' = b /\
    em_config em = mkCfg b (s_width s) (s_height s) (s_depth s) [] /\ em_config em' = em_config em /\
    map e_id (em_cells em') = map e_id (em_cells em) /\ map e_data (em_cells em') = map e_data (em_cells em) /\
    map e_bounds (em_cells em') = map without_times (map e_bounds (em_cells em)) /\
    NoDup (map e_id (em_cells em')) /\ env_tiles (region b) (em_cells em') /\
    (~ spans_globe b -> lists_contacts touches (em_cells em') (em_graph em')) /\
    (spans_globe b -> lists_contacts touches_mod (em_cells em') (em_graph em')) /\
    (forall c, In c (em_cells em) -> as_offered o edge sqrt ss b (s_width s) (s_height s) (s_depth s) c).
Proof. exact offered. Qed.
Print Assumptions C90_generated_partial.

(** What stands in a cell is settled by its bounds and those of its ancestors, up to the
    way fractions are written. *)
Theorem C90_settled : forall (o : planar) sqrt, (forall x y, (x == y)%Q -> (sqrt x == sqrt y)%Q) ->
  forall ss l n j k, labels_apart o ss -> stands o sqrt ss l n j -> stands o sqrt ss l n k -> alike_json j k.
Proof. exact stands_settled. Qed.
Print Assumptions C90_settled.

(** ** Tables from files and dates *)
Section Made.
Variable o : planar.
Variable edge : geom o -> geom o -> bool.
Variable sqrt : Q -> Q.
Variable P : Type.
Variable inside : geom o -> P -> Prop.
Variable read_table : string -> res (csv o).
Variable read_shapes : string -> res (list (geom o)).
(** The loader and data made for a class are those of a table whose value at every place
    of the region is as [want] says, and which can be aggregated in every way. *)
Definition made (k : nat) (cls : string) (p : params) (b : boundary) (name agg : string) (want : P -> lval -> Prop) : Prop :=
  exists rows, (forall conds f, construct_table o edge sqrt read_table read_shapes k cls p b =
      Ok (tfeed_loader o edge sqrt k (mkTFeed name agg conds f rows), all_rows o rows)) /\
    weighty o b rows /\
    forall x v, inside (g_shape o (Rect b)) x -> (given_at inside rows x v <-> want x v).
End Made.
Lemma mapM_reads {A} (f : string -> res A) names l : Forall2 (fun n a => f n = Ok a) names l -> mapM f names = Ok l.
Proof. induction 1 as [|n a names l H F IH]; [reflexivity|]. cbn. rewrite H. cbn. rewrite IH. reflexivity. Qed.
Lemma text_read p k s : sget p k = Some (JStr s) -> attr_text p k = Ok s.
Proof. intros E. unfold attr_text, attr. rewrite E. reflexivity. Qed.

(** A csv file: its values where its polygons are, and NaN elsewhere, under the name of its
    column. *)
Theorem C90_csv : forall (o : planar) edge sqrt P inside read_table read_shapes k p b files tables name agg,
  lawful o P inside -> rectangles o inside -> in_world inside b -> within b b ->
  (exists any, sget p "data_name" = Some JNull \/ sget p "data_name" = Some (JStr any)) -> sget p "files" = Some (JArr (map JStr files)) -> sget p "aggregate_type" = Some (JStr agg) ->
  Forall2 (fun n t => read_table n = Ok t) files tables -> tables <> [] -> name <> "geometry" ->
  (forall t, In t tables -> c_cols t = ["geometry"; name]) ->
  (forall r, In r (flat_map c_rows tables) -> g_kind o (fst r) <> KOther) ->
  made o edge sqrt P inside read_table read_shapes k "LutCSV" p b name agg (value_at inside (flat_map c_rows tables) LNan).
Proof.
  intros o edge sqrt P inside rt rs k p b files tables name agg L R W B Dn Fi Ag F N Nn C K.
  destruct (C73_csv_partial o P inside b tables name L W (in_region o P inside b R B) N Nn C K) as (d & E & G).
  exists d. split; [|split; [|exact G]].
  - intros conds f. unfold construct_table, import_table, attr_name, attr at 1. destruct Dn as (any & [Dn|Dn]); rewrite Dn; cbn [bind String.eqb Ascii.eqb Bool.eqb];
      rewrite (attr_files_read p files Fi); cbn [bind]; rewrite (mapM_reads _ _ _ F); cbn [bind]; rewrite E; cbn [bind fst snd]; rewrite (text_read p _ _ Ag); reflexivity.
  - apply (blanket_weighty o P inside b d L R). intros x Ix. destruct (value_exists o P inside (flat_map c_rows tables) LNan x L) as (v & V). exists v. apply G; assumption.
Qed.
Print Assumptions C90_csv.
Definition zoned {G P} (inside : G -> P -> Prop) (v : lval) (shapes : list G) (x : P) (w : lval) : Prop :=
  (w = v /\ exists g, In g shapes /\ inside g x) \/
  (w = match v with LB true => LB false | LB false => LB true | _ => LNan end /\ forall g, In g shapes -> ~ inside g x).
(** GeoJSON files and shapefiles: the configured value in their polygons, and elsewhere
    NaN, or the opposite of true and false, under the configured name; marine protected
    areas: true in them and false elsewhere. *)
Theorem C90_shapes : forall (o : planar) edge sqrt P inside read_table read_shapes k cls p b files shapes j v name agg,
  lawful o P inside -> rectangles o inside -> in_world inside b -> within b b ->
  (In cls ["LutGeoJSON"; "LutShapefile"] /\ sget p "data_name" = Some (JStr name) /\ sget p "value" = Some j /\ states j v \/
   cls = "ScotlandNCMPA" /\ (sget p "data_name" = Some JNull \/ sget p "data_name" = Some (JStr name)) /\ name = "exclusion_zone" /\ v = LB true) ->
  sget p "files" = Some (JArr (map JStr files)) -> sget p "aggregate_type" = Some (JStr agg) ->
  Forall2 (fun n t => read_shapes n = Ok t) files shapes -> shapes <> [] ->
  (forall g, In g (List.concat shapes) -> g_kind o g <> KOther) ->
  made o edge sqrt P inside read_table read_shapes k cls p b name agg (zoned inside v (List.concat shapes)).
Proof.
  intros o edge sqrt P inside rt rs k cls p b files shapes j v name agg L R W B A Fi Ag F N K.
  destruct (C73_shapes o P inside b v shapes L W (in_region o P inside b R B) N K) as (d & E & G).
  exists d. split; [|split; [|exact G]].
  - intros conds f. unfold construct_table, import_table. destruct A as [(Ic & Dn & Va & Sv)|(-> & [Dn|Dn] & -> & ->)]; unfold attr_name, attr at 1; rewrite Dn; cbn [bind].
    + destruct Ic as [<-|[<-|[]]]; cbn [bind String.eqb Ascii.eqb Bool.eqb]; rewrite (attr_files_read p files Fi); cbn [bind]; rewrite (mapM_reads _ _ _ F); cbn [bind orb];
        unfold attr_value, attr; rewrite Va; destruct Sv; cbn [bind]; rewrite E; cbn [bind fst snd]; rewrite (text_read p _ _ Ag); reflexivity.
    + cbn [bind String.eqb Ascii.eqb Bool.eqb]. rewrite (attr_files_read p files Fi). cbn [bind]. rewrite (mapM_reads _ _ _ F). cbn [bind]. rewrite E. cbn [bind fst snd]. rewrite (text_read p _ _ Ag). reflexivity.
    + cbn [bind String.eqb Ascii.eqb Bool.eqb]. rewrite (attr_files_read p files Fi). cbn [bind]. rewrite (mapM_reads _ _ _ F). cbn [bind]. rewrite E. cbn [bind fst snd]. rewrite (text_read p _ _ Ag). reflexivity.
  - apply (blanket_weighty o P inside b d L R). intros x Ix.
    destruct (value_exists o P inside (map (fun g => (g, v)) (List.concat shapes)) (match v with LB true => LB false | LB false => LB true | _ => LNan end) x L) as (w & V). exists w. apply G; [exact Ix|].
    destruct V as [(g & I & J)|[-> H]].
    + apply in_map_iff in I as (g' & I & I'). injection I as -> <-. left. split; [reflexivity|]. exists g. split; assumption.
    + right. split; [reflexivity|]. intros g I J. apply (H v). exists g. split; [apply in_map_iff; exists g; split; [reflexivity|exact I]|exact J].
Qed.
Print Assumptions C90_shapes.
(** Thickness and density: the values of the rows of the dates, of which C46 says what
    they are. *)
Theorem C90_dated : forall (o : planar) edge sqrt P inside read_table read_shapes k cls name p b rows agg,
  lawful o P inside -> rectangles o inside -> within b b ->
  (cls = "ThicknessDataLoader" /\ name = "thickness" /\ thickness_data o b = Ok rows \/
   cls = "DensityDataLoader" /\ name = "density" /\ density_data o b = Ok rows) ->
  sget p "data_name" = Some JNull \/ sget p "data_name" = Some (JStr name) -> sget p "aggregate_type" = Some (JStr agg) ->
  (forall r, In r rows -> g_kind o (r_geom r) = KPolygon) ->
  (forall x, inside (g_shape o (Rect b)) x -> exists r, In r rows /\ inside (r_geom r) x) ->
  made o edge sqrt P inside read_table read_shapes k cls p b name agg (fun x v => exists r, In r rows /\ inside (r_geom r) x /\ v = LQ (r_val r)).
Proof.
  intros o edge sqrt P inside rt rs k cls name p b rows agg L R B A Dn Ag K C.
  destruct (dated_ok o P inside b rows L R B K C) as (d & E & G).
  exists d. split; [|split; [|exact G]].
  - intros conds f. unfold construct_table, import_table, attr_name, attr at 1.
    destruct Dn as [Dn|Dn]; rewrite Dn; cbn [bind]; destruct A as [(-> & -> & A)|(-> & -> & A)]; cbn [String.eqb Ascii.eqb Bool.eqb]; rewrite A, E; cbn [bind fst snd]; rewrite (text_read p _ _ Ag); reflexivity.
  - apply (blanket_weighty o P inside b d L R). intros x Ix. destruct (C x Ix) as (r & I & J). exists (LQ (r_val r)). apply G; [exact Ix|]. eauto.
Qed.
Print Assumptions C90_dated.

(** ** A case *)
Definition edge_boxes (a b : list box) : bool :=
  existsb (fun x => existsb (fun y => boxes_touch x y && negb (qltb (x0 x) (x0 y) && qltb (x1 y) (x1 x) && qltb (y0 x) (y0 y) && qltb (y1 y) (y1 x))) b) a.
Lemma boxes_grow : grows boxes.
Proof.
  intros a b g W M. unfold meets in *. cbn in *. apply existsb_exists in M as (x & I & M). apply existsb_exists. exists x. split; [exact I|].
  rewrite orb_false_r in *. destruct W as (W1 & W2 & W3 & W4 & W5 & W6 & W7). unfold boxes_touch in *. rewrite !andb_true_iff, !qleb_true in *.
  unfold region in *. cbn in *. revert M. qsplit; intros; lra.
Qed.
Lemma boxes_rectangles : rectangles boxes in_boxes.
Proof.
  split.
  - intros a b [x y] W (z & [<-|[]] & M). exists (region b). split; [left; reflexivity|]. destruct W as (W1 & W2 & W3 & W4 & W5 & W6 & W7).
    unfold mem, region in *. cbn in *. revert M. qsplit; intros; lra.
  - intros a b W. exists (long_max a, lat_max a). exists (region a). split; [left; reflexivity|]. destruct W as (W1 & W2 & W3 & W4 & W5 & W6 & W7).
    unfold mem, region. cbn. qsplit; lra.
Qed.
Definition tab_condition : json := JObj [("zone", JObj [("boundary", JBool true); ("split_lock", JBool false)])].
Definition tab_params (agg : string) : list (string * params) :=
  [("Scalar_CSV", [("file", JStr "sic.csv"); ("value_fill_types", JInt 0)]);
   ("lut_geojson", [("files", JArr [JStr "zone.json"]); ("data_name", JStr "zone"); ("value", JBool true); ("aggregate_type", JStr agg);
                    ("splitting_conditions", JArr [tab_condition])])].
Definition tab_named : list (string * params) :=
  [("scotland_ncmpa", [("files", JArr [JStr "zone.json"]); ("data_name", JStr "zone")])].
Definition tab_unnamed : list (string * params) :=
  [("lut_geojson", [("files", JArr [JStr "zone.json"]); ("value", JBool true)])].
Definition tab_config (l : list (string * params)) : json :=
  JObj [("region", JObj [("lat_min", JInt 0); ("lat_max", JInt 10); ("long_min", JInt 0); ("long_max", JInt 20);
                         ("start_time", JStr "2017-02-01"); ("end_time", JStr "2017-02-04");
                         ("cell_width", JInt 10); ("cell_height", JInt 10)]);
        ("data_sources", JArr (map (fun s => JObj [("loader", JStr (fst s)); ("params", JObj (snd s))]) l));
        ("splitting", JObj [("split_depth", JInt 1); ("minimum_datapoints", JInt 2)])].
Definition tab_settings : settings := mkSettings 0 10 0 20 "2017-02-01" "2017-02-04" 10 10 1 2 (tab_params "MAX").
Definition tab_shapes (f : string) : res (list (geom boxes)) := if String.eqb f "zone.json" then Ok [[Box 12 14 2 4]] else Err FileNotFoundError.
Definition tab_scalar : feed := mkFeed "SIC" false "MEAN" 2 [] (FillNum 0) (f_data mix_scalar).
Definition tab_construct (k : nat) (cls : string) (p : params) (b : boundary) : res (loader * data) :=
  if String.eqb cls "ScalarCSVDataLoader" then Ok (feed_loader (fun q => q) k tab_scalar, f_data tab_scalar)
  else construct_table boxes edge_boxes (fun q => q) (fun _ => Err FileNotFoundError) tab_shapes k cls p b.
Definition tab_rows : list (geom boxes * lval) :=
  Eval vm_compute in match load_shapes boxes mix_bounds (LB true) [[[Box 12 14 2 4]]] with Ok t => t | Err _ => [] end.
Definition tab_table : tfeed boxes := mkTFeed "zone" "MAX" [(true, false)] FillParent tab_rows.
Definition tab_sources : list (origin boxes) := [Point (Scalar tab_scalar); Table tab_table].
Lemma tab_says : says (tab_config (tab_params "MAX")) tab_settings.
Proof.
  unfold tab_config. do 4 eexists. split; [reflexivity|]. split; [reflexivity|]. split.
  - unfold region_says, number_at, text_at, only_keys. cbn [s_lat_min s_lat_max s_long_min s_long_max s_start s_end s_width s_height tab_settings].
    repeat split; try (eexists; split; [reflexivity|]; match goal with |- number (JInt ?z) _ => exact (num_int z) end).
    cbn [In]. intros k v H. repeat (destruct H as [[= <- _]|H]; [tauto|]). destruct H.
  - split; [reflexivity|]. split.
    + cbn [map tab_params s_loaders tab_settings]. repeat apply Forall2_cons; [| |apply Forall2_nil]; eexists; (split; [reflexivity|]); unfold text_at, only_keys; cbn [fst snd]; repeat split;
        cbn [In]; intros k v H; repeat (destruct H as [[= <- _]|H]; [tauto|]); destruct H.
    + split; [reflexivity|]. unfold whole_at, only_keys. cbn [s_depth s_points tab_settings]. repeat split.
      * eexists. split; [reflexivity|constructor].
      * eexists. split; [reflexivity|constructor].
      * cbn [In]. intros k v H. repeat (destruct H as [[= <- _]|H]; [tauto|]). destruct H.
Qed.
Lemma tab_apart : labels_apart boxes tab_sources.
Proof.
  split; [|split].
  - intros s n I H. cbn in I. assert (N : n = "SIC" \/ n = "zone") by (destruct I as [<-|[<-|[]]]; cbn in H; intuition congruence).
    destruct N as [->| ->]; (split; [intros a b; do 5 (try destruct a as [|? a]); cbn; discriminate|cbn; intuition discriminate]).
  - intros v [E|[E|[]]]; discriminate.
  - intros [|[|[|i]]] j v t n Ne Hi; cbn in Hi; discriminate.
Qed.
(** The hypotheses hold, and the mesh has one unsplit cell and the quarters of the other,
    which the edge of the zone crosses; only one of them meets the zone. *)
Example C90_case :
  grows boxes /\ rectangles boxes in_boxes /\ in_world (o := boxes) in_boxes mix_bounds /\ within mix_bounds mix_bounds /\
  validate_mesh_config (fun _ => None) (tab_config (tab_params "MAX")) = Ok tt /\ says (tab_config (tab_params "MAX")) tab_settings /\
  from_json false 0 (tab_config (tab_params "MAX")) = Ok mix_bounds /\ admissible mix_bounds 10 10 /\ labels_apart boxes tab_sources /\
  (forall k src f, nth_error (tab_params "MAX") k = Some src -> nth_error tab_sources k = Some f ->
     offers boxes edge_boxes (fun q => q) (fun _ => []) tab_construct mix_bounds 2 k src f) /\
  exists em, generate (fun _ => None) false 0 (fun _ => []) (fun _ => false) tab_construct 100 (tab_config (tab_params "MAX")) = Ok em /\
    map (fun c => (e_id c, e_data c)) (em_cells em) =
      [(0, [("SIC", JNum (Some (3#3))); ("zone", JNum (Some 0%Q))]);
       (2, [("SIC", JNum (Some 0%Q)); ("zone", JNum (Some 0%Q))]);
       (3, [("SIC", JNum (Some 0%Q)); ("zone", JNum (Some 0%Q))]);
       (4, [("SIC", JNum (Some (17#3))); ("zone", JNum (Some 1%Q))]);
       (5, [("SIC", JNum (Some 0%Q)); ("zone", JNum (Some 0%Q))])].
Proof.
  split; [exact boxes_grow|]. split; [exact boxes_rectangles|]. split.
  { intros [x y] (z & [<-|[]] & M). exists (region world). split; [left; reflexivity|]. cbn in M |- *. unfold mem, region in *. cbn in *. lra. }
  split; [unfold within; cbn; lra|].
  split; [vm_compute; reflexivity|]. split; [apply tab_says|]. split; [vm_compute; reflexivity|]. split; [|split; [exact tab_apart|split]].
  - split; [|split; [reflexivity|split; [reflexivity|]]].
    + split; [cbn; lra|]. right. do 2 eexists. split; [reflexivity|]. discriminate.
    + intros [H _]. cbn in H. lra.
  - intros [|[|[|k]]] src f E1 E2; cbn in E1, E2; try discriminate; injection E1 as <-; injection E2 as <-; cbn [offers provides].
    + split; [|split; [|split; [|split]]].
      * do 3 eexists. split; [vm_compute; reflexivity|]. split; [vm_compute; reflexivity|]. split; [reflexivity|]. split; [reflexivity|]. cbn. intuition discriminate.
      * cbn. tauto.
      * reflexivity.
      * reflexivity.
      * cbn. right. left. exists 0%Q. split; [exact (num_int 0)|reflexivity].
    + split; [|split; [|split; [|split]]].
      * do 3 eexists. split; [vm_compute; reflexivity|]. split; [vm_compute; reflexivity|]. split; [|cbn; tauto].
        unfold tab_construct. cbn [String.eqb Ascii.eqb Bool.eqb]. unfold construct_table. vm_compute import_table. reflexivity.
      * cbn. tauto.
      * cbn. intuition discriminate.
      * cbn. eexists. split; [reflexivity|]. constructor; [|constructor]. do 2 eexists. repeat (split; [reflexivity|]). reflexivity.
      * reflexivity.
  - eexists. split; vm_compute; reflexivity.
Qed.

(** ** Settings that end generation *)
(** The median of a table is asked for in vain wherever a polygon meets a cell. *)
Theorem C90_median_refuted : (forall (o : planar) sqrt name column b t, (exists r, In r t /\ meets o b (fst r)) -> table_value o sqrt name column "MEDIAN" b t = Err TypeError) /\
  validate_mesh_config (fun _ => None) (tab_config (tab_params "MEDIAN")) = Ok tt /\
  generate (fun _ => None) false 0 (fun _ => []) (fun _ => false) tab_construct 100 (tab_config (tab_params "MEDIAN")) = Err TypeError.
Proof.
  split; [|split; vm_compute; reflexivity]. intros o sqrt name column b t (r & I & M). unfold table_value. cbn [String.eqb Ascii.eqb Bool.eqb existsb orb negb].
  destruct (val_trim o b t) as [|x l] eqn:E; [|reflexivity]. exfalso. assert (X : In r (val_trim o b t)) by (apply filter_In; split; assumption). rewrite E in X. destruct X.
Qed.
Print Assumptions C90_median_refuted.
(** So is every value of the protected areas, of thickness and of density under a name
    other than the column's, except the count, which stands under that name. *)
Theorem C90_name_refuted : (forall (o : planar) sqrt name column agg b t, In agg ["MIN"; "MAX"; "MEAN"; "STD"] -> name <> column -> (exists r, In r t /\ meets o b (fst r)) ->
    table_value o sqrt name column agg b t = Err KeyError) /\
  validate_mesh_config (fun _ => None) (tab_config tab_named) = Ok tt /\
  generate (fun _ => None) false 0 (fun _ => []) (fun _ => false) tab_construct 100 (tab_config tab_named) = Err KeyError /\
  exists em, generate (fun _ => None) false 0 (fun _ => []) (fun _ => false) tab_construct 100 (tab_config (map (fun s => (fst s, snd s ++ [("aggregate_type", JStr "COUNT")])%list) tab_named)) = Ok em /\
    map e_data (em_cells em) = [[("zone", JNum (Some 1%Q))]; [("zone", JNum (Some 5%Q))]].
Proof.
  split; [|split; [vm_compute; reflexivity|split; [vm_compute; reflexivity|eexists; split; vm_compute; reflexivity]]]. intros o sqrt name column agg b t A N (r & I & M). unfold table_value. apply String.eqb_neq in N. rewrite N.
  destruct (val_trim o b t) as [|x l] eqn:E.
  - exfalso. assert (X : In r (val_trim o b t)) by (apply filter_In; split; assumption). rewrite E in X. destruct X.
  - destruct A as [<-|[<-|[<-|[<-|[]]]]]; reflexivity.
Qed.
Print Assumptions C90_name_refuted.
(** So are polygons without a name: lut_geojson.py 26-28 comes too late to give them one. *)
Theorem C90_unnamed_refuted : (forall (o : planar) edge sqrt read_table read_shapes k cls p b files shapes t j v, In cls ["LutGeoJSON"; "LutShapefile"] ->
    sget p "data_name" = Some JNull -> sget p "files" = Some (JArr (map JStr files)) -> sget p "value" = Some j -> states j v ->
    Forall2 (fun n t => read_shapes n = Ok t) files shapes -> load_shapes o b v shapes = Ok t ->
    construct_table o edge sqrt read_table read_shapes k cls p b = Err TypeError) /\
  validate_mesh_config (fun _ => None) (tab_config tab_unnamed) = Ok tt /\
  generate (fun _ => None) false 0 (fun _ => []) (fun _ => false) tab_construct 100 (tab_config tab_unnamed) = Err TypeError.
Proof.
  split; [|split; vm_compute; reflexivity]. intros o edge sqrt rt rs k cls p b files shapes t j v Ic Dn Fi Va Sv F E.
  unfold construct_table, import_table, attr_name, attr at 1. rewrite Dn. cbn [bind].
  destruct Ic as [<-|[<-|[]]]; cbn [bind String.eqb Ascii.eqb Bool.eqb]; rewrite (attr_files_read p files Fi); cbn [bind]; rewrite (mapM_reads _ _ _ F); cbn [bind orb];
    unfold attr_value, attr; rewrite Va; destruct Sv; cbn [bind]; rewrite E; reflexivity.
Qed.
Print Assumptions C90_unnamed_refuted.
