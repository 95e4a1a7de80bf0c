(** Property theorem C79: from data files to the values of cells.  [sqrt], [proj],
    [read_csv] and [open_nc] as in Sources.v, the others as in PropsPipe.v. *)
From Verif Require Import Base Geo Graph Cell Loaders Builder Env Spec MeshSpec EnvSpec DataSpec QLib Construct ConstructSpec Names PyStr Dates DateSpec Config ConfigSpec Params ParamSpec
  Downsample Files FilesSpec Import ImportSpec Reproject ReprojectSpec Pipeline PipeSpec ConfigProofs PipeProofs PropsPipe Sources SourcesSpec SourcesProofs.
Open Scope string_scope.
Open Scope Z_scope.

(** For a validated configuration whose sources are scalar csv files or netCDF grids of
    the listed kinds: building ends with a mesh that survives writing and reading, and
    every cell is as configured with respect to all rows of the files, whatever was cut
    away when they were read. *)
Theorem C79_files_partial : forall files pad now glob ft sqrt proj read_csv open_nc cfg s b,
  validate_mesh_config files cfg = Ok tt -> says cfg s -> from_json pad now cfg = Ok b ->
  admissible b (s_width s) (s_height s) ->
  (s_lat_min s < s_lat_max s)%Q -> (s_lat_max s - s_lat_min s < 360)%Q -> 0 <= s_points s ->
  (forall src, In src (s_loaders s) -> exists f, describes glob read_csv open_nc sqrt b (s_points s) src f /\ ~ In (f_name f) own_keys) ->
  exists fs fuel em em',
    Forall2 (describes glob read_csv open_nc sqrt b (s_points s)) (s_loaders s) fs /\
    (forall fuel', (fuel <= fuel')%nat -> generate files pad now glob ft (construct_source sqrt proj read_csv open_nc) fuel' cfg = Ok em) /\
    load_from_json (to_json em) = Ok em' /\
    map e_id (em_cells em') = map e_id (em_cells em) /\ map e_data (em_cells em') = map e_data (em_cells em) /\
    env_tiles (region b) (em_cells em') /\
    (forall c, In c (em_cells em) -> as_configured sqrt fs b (s_width s) (s_height s) (s_depth s) c).
Proof.
  intros files pad now glob ft sqrt proj read_csv open_nc cfg s b Hv Hs Hb Ha Hl Hl' Hp Hf.
  destruct (from_json_says pad now cfg s b Hs Hb) as (F1 & F2 & F3 & F4 & F5 & _).
  assert (R : plain_region b).
  { destruct Ha as (((V1 & V2 & V3 & V4) & V5) & _). split; [exact V3|]. split; [exact V1|]. split; [exact V4|]. split; [rewrite F1, F2; exact Hl|exact V5]. }
  destruct (all_supplied glob sqrt proj read_csv open_nc b (s_points s) R (s_loaders s) 0%nat Hf) as (fs & gs & Le & Su & Ag & De & Na).
  destruct (C59_generated_partial files pad now glob ft (construct_source sqrt proj read_csv open_nc) sqrt cfg s b fs Hv Hs Hb Ha Hl Hl' Hp Le Su Na)
    as (fuel & em & em' & G & L & _ & _ & _ & _ & I & D & _ & _ & T & _ & _ & C).
  exists gs, fuel, em, em'. split; [exact De|]. split; [exact G|]. split; [exact L|]. split; [exact I|]. split; [exact D|]. split; [exact T|].
  intros c Ic. apply (agree_configured sqrt b fs gs); [apply R|apply Ha|apply Ha|exact Ag|apply C, Ic].
Qed.
Print Assumptions C79_files_partial.

(** ** A case *)
(** Two csv files with their columns in different orders, and a grid; some rows are
    outside the region. *)
Definition src_csv (file : string) : res dframe :=
  let n q := ENum (Some q) in
  if String.eqb file "a.csv" then Ok [("lat", [n 2; n 8; n 50]); ("long", [n 2; n 8; n 8]); ("SIC", [n 1; n 9; n 77])]%Q
  else if String.eqb file "b.csv" then Ok [("SIC", [n 7; n 4]); ("lat", [n 8; n 3]); ("long", [n 9; n 13])]%Q
  else Err FileNotFoundError.
Definition src_grid : xrds :=
  mkXr [(-5, 0%nat); (5, 1%nat); (15, 2%nat)]%Q [(5, 0%nat); (15, 1%nat)]%Q None (fun i j _ => [Some (inject_Z (Z.of_nat (10 * i + j)))]).
Definition src_nc (cls : string) (files : list string) : res (list string * xrds) :=
  match files with ["g.nc"] => Ok (["elevation"], src_grid) | _ => Err FileNotFoundError end.
Definition src_config : json :=
  JObj [("region", JObj [("lat_min", JInt 0); ("lat_max", JInt 10); ("long_min", JInt 0); ("long_max", JInt 20);
                         ("start_time", JStr "2017-02-01"); ("end_time", JStr "2017-02-04");
                         ("cell_width", JInt 10); ("cell_height", JInt 10)]);
        ("data_sources", JArr [JObj [("loader", JStr "Scalar_CSV");
           ("params", JObj [("files", JArr [JStr "a.csv"; JStr "b.csv"]); ("splitting_conditions", JArr [pipe_condition]); ("value_fill_types", JInt 0)])];
           JObj [("loader", JStr "gebco"); ("params", JObj [("file", JStr "g.nc"); ("data_name", JStr "depth"); ("aggregate_type", JStr "MAX")])]]);
        ("splitting", JObj [("split_depth", JInt 1); ("minimum_datapoints", JInt 2)])].
Definition src_settings : settings :=
  mkSettings 0 10 0 20 "2017-02-01" "2017-02-04" 10 10 1 2
    [("Scalar_CSV", [("files", JArr [JStr "a.csv"; JStr "b.csv"]); ("splitting_conditions", JArr [pipe_condition]); ("value_fill_types", JInt 0)]);
     ("gebco", [("file", JStr "g.nc"); ("data_name", JStr "depth"); ("aggregate_type", JStr "MAX")])].
Definition src_sic : feed :=
  mkFeed "SIC" false "MEAN" 2 [mkCond 5 (1#10) (9#10) false] (FillNum 0)
    [mkP 2 2 None [Some 1%Q]; mkP 8 8 None [Some 9%Q]; mkP 50 8 None [Some 77%Q]; mkP 8 9 None [Some 7%Q]; mkP 3 13 None [Some 4%Q]].
Definition src_depth : feed := mkFeed "depth" true "MAX" 2 [] FillParent (xr_points src_grid).
Lemma src_says : says src_config src_settings.
Proof.
  unfold src_config. do 4 eexists. split; [reflexivity|]. split; [reflexivity|]. split.
  - unfold region_says, number_at, text_at, only_keys. cbn [s_lat_min s_lat_max s_long_min s_long_max s_start s_end s_width s_height src_settings].
    repeat split; try (eexists; split; [reflexivity|]; match goal with |- number (JInt ?z) _ => exact (num_int z) end).
    cbn [In]. intros k v H. repeat (destruct H as [[= <- _]|H]; [tauto|]). destruct H.
  - split; [reflexivity|]. split.
    + repeat (apply Forall2_cons; [eexists; split; [reflexivity|]; unfold text_at, only_keys; cbn [fst snd]; repeat split;
        cbn [In]; intros k v H; repeat (destruct H as [[= <- _]|H]; [tauto|]); destruct H|]). apply Forall2_nil.
    + split; [reflexivity|]. unfold whole_at, only_keys. cbn [s_depth s_points src_settings]. repeat split.
      * eexists. split; [reflexivity|constructor].
      * eexists. split; [reflexivity|constructor].
      * cbn [In]. intros k v H. repeat (destruct H as [[= <- _]|H]; [tauto|]). destruct H.
Qed.
Ltac nodup_keys := repeat (apply NoDup_cons; [cbn; intuition discriminate|]); apply NoDup_nil.
Lemma src_csv_holds : holds false "SIC" [("lat", [ENum (Some 2); ENum (Some 8); ENum (Some 50)]); ("long", [ENum (Some 2); ENum (Some 8); ENum (Some 8)]); ("SIC", [ENum (Some 1); ENum (Some 9); ENum (Some 77)])]%Q
    [mkP 2 2 None [Some 1%Q]; mkP 8 8 None [Some 9%Q]; mkP 50 8 None [Some 77%Q]] /\
  holds false "SIC" [("SIC", [ENum (Some 7); ENum (Some 4)]); ("lat", [ENum (Some 8); ENum (Some 3)]); ("long", [ENum (Some 9); ENum (Some 13)])]%Q
    [mkP 8 9 None [Some 7%Q]; mkP 3 13 None [Some 4%Q]].
Proof.
  split.
  - split; [split; [nodup_keys|intros c l H; repeat (destruct H as [[= <- <-]|H]; [reflexivity|]); destruct H]|].
    split; [intros c; cbn; intuition (subst; try discriminate; auto)|].
    intros [|[|[|k]]] p E; cbn in E; try (destruct k; discriminate); injection E as <-; cbn [p_lat p_long p_time p_vals];
      (split; [eexists; split; [left; reflexivity|reflexivity]|]; split; [eexists; split; [right; left; reflexivity|reflexivity]|]; split; [reflexivity|];
       eexists; split; [reflexivity|]; eexists; split; [right; right; left; reflexivity|reflexivity]).
  - split; [split; [nodup_keys|intros c l H; repeat (destruct H as [[= <- <-]|H]; [reflexivity|]); destruct H]|].
    split; [intros c; cbn; intuition (subst; try discriminate; auto)|].
    intros [|[|k]] p E; cbn in E; try (destruct k; discriminate); injection E as <-; cbn [p_lat p_long p_time p_vals];
      (split; [eexists; split; [right; left; reflexivity|reflexivity]|]; split; [eexists; split; [right; right; left; reflexivity|reflexivity]|]; split; [reflexivity|];
       eexists; split; [reflexivity|]; eexists; split; [left; reflexivity|reflexivity]).
Qed.
Ltac letter := first [left; reflexivity | right; first [exists 18%nat; split; [lia|left; split; reflexivity] | exists 2%nat; split; [lia|left; split; reflexivity] | exists 21%nat; split; [lia|left; split; reflexivity]]].
Lemma src_described : forall src, In src (s_loaders src_settings) -> exists f, describes (fun _ => []) src_csv src_nc (fun q => q) pipe_bounds 2 src f /\ ~ In (f_name f) own_keys.
Proof.
  intros src [<-|[<-|[]]].
  - exists src_sic. split; [|cbn; intuition discriminate]. left.
    exists "SIC", false, ["a.csv"; "b.csv"], [[mkP 2 2 None [Some 1%Q]; mkP 8 8 None [Some 9%Q]; mkP 50 8 None [Some 77%Q]]; [mkP 8 9 None [Some 7%Q]; mkP 3 13 None [Some 4%Q]]].
    split; [cbn; repeat split; letter|]. split; [|split; [cbn; intuition discriminate|]].
    + constructor; cbn [fst snd f_name f_agg f_min f_conds f_fill src_sic].
      * unfold dict_ok. nodup_keys.
      * reflexivity.
      * reflexivity.
      * cbn. tauto.
      * reflexivity.
      * exists "EPSG:4326". split; reflexivity.
      * split; eexists; reflexivity.
      * left. reflexivity.
      * cbn. eexists. split; [reflexivity|]. constructor; [|constructor]. do 2 eexists. split; [reflexivity|]. split; [reflexivity|].
        unfold number_at. repeat split; eexists; (split; [reflexivity|]); [exact (num_int 5)|exact (num_float _)|exact (num_float _)].
      * cbn. right. left. exists 0%Q. split; [exact (num_int 0)|reflexivity].
    + split; [reflexivity|]. split; [discriminate|]. split; [|split; reflexivity].
      apply Forall2_cons; [eexists; split; [reflexivity|apply src_csv_holds]|]. apply Forall2_cons; [eexists; split; [reflexivity|apply src_csv_holds]|]. apply Forall2_nil.
  - exists src_depth. split; [|cbn; intuition discriminate]. right.
    exists "gebco", "GEBCODataLoader", "elevation", ["elevation"], ["g.nc"], ["g.nc"], src_grid.
    split; [cbn; repeat split; letter|]. split; [|split; [|split; [reflexivity|]]].
    + constructor; cbn [fst snd f_name f_agg f_min f_conds f_fill src_depth].
      * unfold dict_ok. nodup_keys.
      * split; [reflexivity|]. cbn. intuition discriminate.
      * reflexivity.
      * cbn. tauto.
      * reflexivity.
      * exists "EPSG:4326". split; reflexivity.
      * split; eexists; reflexivity.
      * left. reflexivity.
      * reflexivity.
      * reflexivity.
    + exists "g.nc". split; reflexivity.
    + split; [reflexivity|]. split; [cbn; intuition discriminate|]. split; [split; [discriminate|intros X; contradiction]|]. split; [|reflexivity].
      apply gl_gebco; [| |apply Permutation_refl].
      * intros [|[|[|i]]] [|[|[|j]]] x y L X Y; cbn in *; try lia; try discriminate; try (destruct j; discriminate); injection X as <-; injection Y as <-; cbn; lra.
      * intros [|[|i]] [|[|j]] x y L X Y; cbn in *; try lia; try discriminate; try (destruct j; discriminate); injection X as <-; injection Y as <-; cbn; lra.
Qed.
(** The hypotheses hold; the values are those of the rows in each cell. *)
Example C79_case :
  validate_mesh_config (fun _ => None) src_config = Ok tt /\ says src_config src_settings /\ from_json false 0 src_config = Ok pipe_bounds /\ admissible pipe_bounds 10 10 /\
  (forall src, In src (s_loaders src_settings) -> exists f, describes (fun _ => []) src_csv src_nc (fun q => q) pipe_bounds 2 src f /\ ~ In (f_name f) own_keys) /\
  exists em, generate (fun _ => None) false 0 (fun _ => []) (fun _ => false) (construct_source (fun q => q) (fun _ _ x y => (x, y)) src_csv src_nc) 100 src_config = Ok em /\
    map (fun c => (e_id c, e_data c)) (em_cells em) =
      [(1, [("SIC", JNum (Some (4#1))); ("depth", JNum (Some 11%Q))]); (2, [("SIC", JNum (Some 0%Q)); ("depth", JNum (Some 10%Q))]);
       (3, [("SIC", JNum (Some (16#2))); ("depth", JNum (Some 10%Q))]); (4, [("SIC", JNum (Some (1#1))); ("depth", JNum (Some 10%Q))]);
       (5, [("SIC", JNum (Some 0%Q)); ("depth", JNum (Some 10%Q))])].
Proof.
  split; [vm_compute; reflexivity|]. split; [exact src_says|]. split; [vm_compute; reflexivity|]. split; [exact pipe_admissible|].
  split; [exact src_described|]. eexists. split; vm_compute; reflexivity.
Qed.

(** ** Where files fail *)
(** The parameters ask for no reprojection and have a name or none. *)
Definition unprojected (p : params) : Prop :=
  (exists s, attr_text p "in_proj" = Ok s /\ attr_text p "out_proj" = Ok s) /\ (exists x, attr_text p "x_col" = Ok x) /\ (exists y, attr_text p "y_col" = Ok y) /\ exists o, attr_name p = Ok o.
(** Two csv files whose values are in columns of different names are refused, even if a
    name is configured. *)
Theorem C79_columns : forall sqrt proj read_csv open_nc k p b f1 f2 t1 t2 c1 c2 dt1 dt2 d1 d2,
  attr_files p = Ok [f1; f2] -> unprojected p -> read_csv f1 = Ok t1 -> read_csv f2 = Ok t2 -> holds dt1 c1 t1 d1 -> holds dt2 c2 t2 d2 ->
  ~ In c1 ["lat"; "long"; "time"] -> ~ In c2 ["lat"; "long"; "time"] -> c1 <> c2 ->
  construct_source sqrt proj read_csv open_nc k "ScalarCSVDataLoader" p b = Err ValueError.
Proof.
  intros sqrt proj read_csv open_nc k p b f1 f2 t1 t2 c1 c2 dt1 dt2 d1 d2 Ef ((s & Ei & Eo) & (x & Ex) & (y & Ey) & (o & En)) R1 R2 (_ & H1 & _) (_ & H2 & _) N1 N2 Nc.
  unfold construct_source. cbn [String.eqb Ascii.eqb Bool.eqb]. unfold construct_csv. rewrite Ef. cbn [bind mapM]. rewrite R1, R2. cbn [bind concat_tables].
  set (cs := distinct _). set (t := map _ cs).
  assert (Cs : forall c, In c cs <-> In c (map fst t1) \/ In c (map fst t2)).
  { intros c. unfold cs. rewrite distinct_in. cbn [map List.concat]. rewrite app_nil_r, in_app_iff. reflexivity. }
  assert (M : map fst t = cs) by (unfold t; rewrite map_map; apply map_id).
  assert (G : forall c, In c cs -> exists l, sget t c = Some l) by (intros c Ic; eexists; unfold t; apply (sget_tab (fun c => List.concat (map (part_of_column c) [t1; t2]))), Ic).
  unfold trim_table, column_of. destruct (G "lat") as (la & ->); [apply Cs; left; apply H1; auto|]. destruct (G "long") as (lo & ->); [apply Cs; left; apply H1; auto|]. cbn [bind].
  rewrite Ei. cbn [bind]. rewrite Eo. cbn [bind]. rewrite Ex. cbn [bind]. rewrite Ey. cbn [bind]. unfold reproject. rewrite String.eqb_refl. cbn [bind]. rewrite En. cbn [bind].
  assert (X : get_name_df (keep_rows (map (fun p => df_spatial b p && (in_time b p && stamped t p)) (table_points t)) t) = Err ValueError).
  { unfold get_name_df. rewrite ReprojectProofs.keep_names.
    assert (St : forall c, ~ In c ["lat"; "long"; "time"] -> standard c = false).
    { intros c N. destruct (standard c) eqn:E; [|reflexivity]. apply ReprojectProofs.standard_iff in E. exfalso. apply N. cbn. intuition. }
    assert (I1 : In c1 (data_names t)) by (apply filter_In; rewrite M, (St c1 N1); split; [apply Cs; left; apply H1; auto|reflexivity]).
    assert (I2 : In c2 (data_names t)) by (apply filter_In; rewrite M, (St c2 N2); split; [apply Cs; right; apply H2; auto|reflexivity]).
    destruct (data_names t) as [|a [|b0 l]]; [destruct I1| |reflexivity]. destruct I1 as [<-|[]], I2 as [<-|[]]. contradiction. }
  destruct o as [n|]; unfold name_source_df, set_name_df; rewrite X; reflexivity.
Qed.
Print Assumptions C79_columns.
(** No files, such as an empty folder. *)
Theorem C79_no_files : forall sqrt proj read_csv open_nc k p b, attr_files p = Ok [] ->
  construct_source sqrt proj read_csv open_nc k "ScalarCSVDataLoader" p b = Err ValueError.
Proof. intros. unfold construct_source. cbn [String.eqb Ascii.eqb Bool.eqb]. unfold construct_csv. rewrite H. reflexivity. Qed.
Print Assumptions C79_no_files.
(** GEBCO files with a further variable are refused. *)
Theorem C79_gebco_variables : forall sqrt proj read_csv open_nc k p b files vars ds ds', attr_files p = Ok files -> unprojected p ->
  attr_factors p = Ok (1, 1) -> (exists a, attr_text p "aggregate_type" = Ok a) -> (exists m, attr_int p "min_dp" = Ok m) ->
  open_nc "GEBCODataLoader" files = Ok (vars, ds) -> xr_trim b ds = Ok ds' -> List.length vars <> 1%nat ->
  construct_source sqrt proj read_csv open_nc k "GEBCODataLoader" p b = Err ValueError.
Proof.
  intros sqrt proj read_csv open_nc k p b files vars ds ds' Ef ((s & Ei & Eo) & (x & Ex) & (y & Ey) & (o & En)) Fa (a & Ea) (m & Em) Eop Et Nv.
  unfold construct_source. cbn [String.eqb Ascii.eqb Bool.eqb]. unfold construct_grid, construct_dataset, import_grid. rewrite Ef. cbn [bind String.eqb Ascii.eqb Bool.eqb]. rewrite Eop. cbn [bind fst snd].
  unfold import_plain. rewrite Et. cbn [bind fst snd]. rewrite Fa. cbn [bind]. rewrite Ea. cbn [bind]. rewrite Em. cbn [bind]. unfold downsample. cbn [fst snd Z.eqb Pos.eqb andb bind].
  rewrite Ei. cbn [bind]. rewrite Eo. cbn [bind]. rewrite En. cbn [bind]. rewrite String.eqb_refl.
  assert (X : get_name_xr (map (fun n => (n, tt)) vars) = Err ValueError).
  { unfold get_name_xr. rewrite map_map. cbn [fst]. rewrite map_id. destruct vars as [|v [|w l]]; [reflexivity|contradiction|reflexivity]. }
  unfold name_source_xr, set_name_xr. destruct o; rewrite X; reflexivity.
Qed.
Print Assumptions C79_gebco_variables.
(** Longitudes from 0 to 360 are brought to the usual range when they come from the grids
    of C69, but not when they come from csv files: a row of the region is lost. *)
Theorem C79_longitudes_refuted : exists read_csv p b f t d q q', attr_files p = Ok [f] /\ unprojected p /\ read_csv f = Ok t /\ holds false "SIC" t d /\ In q d /\
  ImportSpec.moved q q' /\ p_vals q' = p_vals q /\ belongs b q' /\
  forall sqrt proj open_nc k, exists ld, construct_source sqrt proj read_csv open_nc k "ScalarCSVDataLoader" p b = Ok (ld, []).
Proof.
  set (t := [("lat", [ENum (Some 5%Q)]); ("long", [ENum (Some 350%Q)]); ("SIC", [ENum (Some 1%Q)])]).
  exists (fun _ => Ok t), (base_defaults "ScalarCSVDataLoader" [("files", JArr [JStr "a.csv"])]), (mkB 0 10 (-20) 0 [736361; 736364]), "a.csv", t, [mkP 5 350 None [Some 1%Q]], (mkP 5 350 None [Some 1%Q]), (mkP 5 (-10) None [Some 1%Q]).
  split; [reflexivity|]. split; [repeat split; eexists; try split; reflexivity|]. split; [reflexivity|].
  split.
  { split; [split; [nodup_keys|intros c l H; repeat (destruct H as [[= <- <-]|H]; [reflexivity|]); destruct H]|].
    split; [intros c; cbn; intuition (subst; try discriminate; auto)|].
    intros [|k] p E; cbn in E; try (destruct k; discriminate); injection E as <-; cbn [p_lat p_long p_time p_vals].
    split; [eexists; split; [left; reflexivity|reflexivity]|]; split; [eexists; split; [right; left; reflexivity|reflexivity]|]; split; [reflexivity|];
       eexists; split; [reflexivity|]; eexists; split; [right; right; left; reflexivity|reflexivity]. }
  split; [left; reflexivity|]. split; [split; [reflexivity|]; split; [reflexivity|]; split; [exists 1; reflexivity|cbn; lra]|]. split; [reflexivity|].
  split; [split; [unfold mem; cbn; lra|exact I]|]. intros. eexists. reflexivity.
Qed.
Print Assumptions C79_longitudes_refuted.
(** One file with a column 'time' and one without: the rows of the latter are lost, though
    alone they would count at all times. *)
Theorem C79_undated_refuted : exists read_csv p b f1 f2 t1 t2 q1 q2, attr_files p = Ok [f2; f1] /\ unprojected p /\
  read_csv f1 = Ok t1 /\ holds true "SIC" t1 [q1] /\ read_csv f2 = Ok t2 /\ holds false "SIC" t2 [q2] /\ belongs b q1 /\ belongs b q2 /\
  forall sqrt proj open_nc k, (exists ld, construct_source sqrt proj read_csv open_nc k "ScalarCSVDataLoader" p b = Ok (ld, [q1])) /\
    exists ld, construct_source sqrt proj read_csv open_nc k "ScalarCSVDataLoader" (sset p "files" (JArr [JStr f2])) b = Ok (ld, [q2]).
Proof.
  set (t1 := [("lat", [ENum (Some 5%Q)]); ("long", [ENum (Some 6%Q)]); ("time", [EDay 736362]); ("SIC", [ENum (Some 1%Q)])]).
  set (t2 := [("lat", [ENum (Some 7%Q)]); ("long", [ENum (Some 8%Q)]); ("SIC", [ENum (Some 2%Q)])]).
  exists (fun f => Ok (if String.eqb f "a.csv" then t1 else t2)), (base_defaults "ScalarCSVDataLoader" [("files", JArr [JStr "b.csv"; JStr "a.csv"])]), (mkB 0 10 0 10 [736361; 736364]), "a.csv", "b.csv", t1, t2, (mkP 5 6 (Some 736362) [Some 1%Q]), (mkP 7 8 None [Some 2%Q]).
  split; [reflexivity|]. split; [repeat split; eexists; try split; reflexivity|]. split; [reflexivity|].
  split; [|split; [reflexivity|split; [|split; [|split]]]].
  - split; [split; [nodup_keys|intros c l H; repeat (destruct H as [[= <- <-]|H]; [reflexivity|]); destruct H]|].
    split; [intros c; cbn; intuition (subst; try discriminate; auto)|].
    intros [|k] p E; cbn in E; try (destruct k; discriminate); injection E as <-; cbn [p_lat p_long p_time p_vals].
    split; [eexists; split; [left; reflexivity|reflexivity]|]; split; [eexists; split; [right; left; reflexivity|reflexivity]|].
    split; [eexists; split; [reflexivity|]; eexists; split; [right; right; left; reflexivity|reflexivity]|].
    eexists; split; [reflexivity|]; eexists; split; [right; right; right; left; reflexivity|reflexivity].
  - split; [split; [nodup_keys|intros c l H; repeat (destruct H as [[= <- <-]|H]; [reflexivity|]); destruct H]|].
    split; [intros c; cbn; intuition (subst; try discriminate; auto)|].
    intros [|k] p E; cbn in E; try (destruct k; discriminate); injection E as <-; cbn [p_lat p_long p_time p_vals].
    split; [eexists; split; [left; reflexivity|reflexivity]|]; split; [eexists; split; [right; left; reflexivity|reflexivity]|]; split; [reflexivity|].
    eexists; split; [reflexivity|]; eexists; split; [right; right; left; reflexivity|reflexivity].
  - split; [unfold mem; cbn; lra|]. exists 736361, 736364. repeat split; lia.
  - split; [unfold mem; cbn; lra|exact I].
  - intros. split; exists (scalar_df (Z.of_nat k) "SIC" "MEAN" 5 sqrt); vm_compute; reflexivity.
Qed.
Print Assumptions C79_undated_refuted.
