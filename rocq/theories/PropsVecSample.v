(** Property theorem C100: downsampled vectors in the whole way to the mesh.  Parameters as in
    PropsWaveSources.v.  The proofs are in VecSampleProofs.v. *)
From Coq Require Import Permutation.
From Verif Require Import Shapes ShapeProofs Base Geo Graph Cell Loaders AddLoader VecLoader Builder Env Spec MeshSpec EnvSpec DataSpec QLib Construct ConstructSpec Names PyStr Dates DateSpec Config ConfigSpec Params ParamSpec
  Files FilesSpec FilesProofs PropsFiles Forecast ForecastSpec
  Reproject ReprojectSpec Pipeline PipeSpec ConfigProofs PipeProofs Sources SourcesSpec SourcesProofs PropsSources MixSpec MixProofs PropsMix VecSources VecSourcesSpec VecSourcesProofs PropsVecSources
  Lut LutSpec LutFiles LutFilesSpec LutFilesProofs LutSources TableSpec TableProofs TableFiles PropsLut PropsLutFiles PropsTable ShapeSources ShapeSourcesSpec ShapeSourcesProofs AllSources WholeSpec WholeProofs
  Grf GrfSpec GrfProofs PropsGrf GrfSources GrfSourcesSpec GrfSourcesProofs PropsGrfSources IceSources IceSourcesSpec IceSourcesProofs PropsIceSources WindSources WindSourcesSpec WindSourcesProofs PropsWindSources
  SampleSpec SampleProofs PropsSample WaveSources WaveSourcesSpec WaveSourcesProofs PropsWaveSources Downsample DownSpec VecSampleSpec VecSampleProofs.
From Verif Require ShapeSpec PropsWhole.
Open Scope string_scope.
Open Scope Z_scope.

(** For a validated configuration of sources as in C99, vectors of C88 on grids also
    downsampled by any factors: building ends with a mesh that survives writing and reading;
    its cells tile the region with exactly their contacts; and every cell is quartered and
    holds values as called for by all sources, where a downsampled grid counts as its
    blocks. *)
Definition described_blocks (o : planar) (P : Type) inside glob proj strict open_wave open_oras bearing open_amsr open_icenet open_ice read_table read_shapes read_csv open_nc sqrt dsin dcos cos sin noise b min_dp (src : string * params) (s : origin o) : Prop :=
  described_waves o P inside glob proj strict open_wave open_oras bearing open_amsr open_icenet open_ice read_table read_shapes read_csv open_nc sqrt dsin dcos cos sin noise b min_dp src s \/
  exists v, s = Point (Vector v) /\ sampled_vector glob open_nc dsin dcos b min_dp src v.
Theorem C100_whole_partial : forall (o : planar) edge P inside, grows o -> lawful o P inside -> rectangles o inside ->
  forall files pad now glob ft sqrt dsin dcos cos sin noise proj strict open_wave open_oras bearing open_amsr open_icenet open_ice read_csv open_nc read_table read_shapes cfg s b ss0, noisy noise ->
  validate_mesh_config files cfg = Ok tt -> says cfg s -> from_json pad now cfg = Ok b ->
  admissible b (s_width s) (s_height s) -> in_world inside b ->
  (s_lat_min s < s_lat_max s)%Q -> (s_lat_max s - s_lat_min s < 360)%Q -> 0 <= s_points s ->
  Forall2 (described_blocks o P inside glob proj strict open_wave open_oras bearing open_amsr open_icenet open_ice read_table read_shapes read_csv open_nc sqrt dsin dcos cos sin noise b (s_points s)) (s_loaders s) ss0 ->
  labels_apart o ss0 ->
  exists ss fuel em em',
    Forall2 (described_blocks o P inside glob proj strict open_wave open_oras bearing open_amsr open_icenet open_ice read_table read_shapes read_csv open_nc sqrt dsin dcos cos sin noise b (s_points s)) (s_loaders s) ss /\
    map (labels o) ss = map (labels o) ss0 /\
    (forall fuel', (fuel <= fuel')%nat ->
       generate files pad now glob ft (construct_wave sqrt proj strict open_wave open_oras bearing open_nc open_amsr open_icenet open_ice cos sin noise o edge dsin dcos read_csv read_table read_shapes) fuel' cfg = Ok em) /\
    load_from_json (to_json em) = Ok em' /\
    map e_id (em_cells em') = map e_id (em_cells em) /\ map e_data (em_cells em') = map e_data (em_cells em) /\
    map e_bounds (em_cells em') = map without_times (map e_bounds (em_cells em)) /\
    NoDup (map e_id (em_cells em')) /\ env_tiles (region b) (em_cells em') /\
    (~ spans_globe b -> lists_contacts touches (em_cells em') (em_graph em')) /\
    (spans_globe b -> lists_contacts touches_mod (em_cells em') (em_graph em')) /\
    (forall c, In c (em_cells em) -> as_offered o edge sqrt ss b (s_width s) (s_height s) (s_depth s) c).
Proof.
  intros o edge P inside Gr La Re files pad now glob ft sqrt dsin dcos cos sin noise proj strict open_wave open_oras bearing open_amsr open_icenet open_ice read_csv open_nc read_table read_shapes cfg s b ss0 No Hv Hs Hb Ha Hw Hl Hl' Hp Hf Hn.
  set (construct := construct_wave sqrt proj strict open_wave open_oras bearing open_nc open_amsr open_icenet open_ice cos sin noise o edge dsin dcos read_csv read_table read_shapes).
  apply (whole_offered o edge Gr files pad now glob ft construct sqrt
    (described_blocks o P inside glob proj strict open_wave open_oras bearing open_amsr open_icenet open_ice read_table read_shapes read_csv open_nc sqrt dsin dcos cos sin noise) cfg s b ss0 Hv Hs Hb Ha Hl Hl' Hp); [|exact Hf|exact Hn].
  intros k src s0 R Pl [[[Ds|(f & -> & Ds)]|[(f & -> & Ds)|(v & -> & Ds)]]|(v & -> & Ds)] Fn.
  - destruct (wind_offered o edge P inside La Re glob sqrt dsin dcos cos sin noise proj bearing open_amsr open_icenet open_ice read_csv open_nc read_table read_shapes b (s_points s) k src s0 No Hw R Pl Ds Fn) as (s' & t & Of & A & Dt & Al).
    exists s', t. split; [apply offers_wave; exact Of|]. split; [exact A|]. split; [left; left; left; exact Dt|exact Al].
  - destruct (sampled_supplied glob sqrt proj open_nc construct b (s_points s) k src f R) as (g & S & Dg & N); [|exact Ds|].
    { intros p files0 name cls kept ds d G. unfold construct. destruct G; try reflexivity. repeat destruct H as [[= <- <-]|H]; try reflexivity. destruct H. }
    exists (Point (Scalar g)), (Point (Scalar g)). split; [exact S|]. split; [apply agree_refl|]. split; [left; left; right; eexists; split; [reflexivity|exact Dg]|exact N].
  - destruct (wave_supplied glob sqrt strict open_wave construct b (s_points s) k src f R) as (f' & g & S & A & Dg & N); [reflexivity|exact Ds|].
    exists (Point (Scalar f')), (Point (Scalar g)). split; [exact S|]. split; [exact A|]. split; [left; right; left; eexists; split; [reflexivity|exact Dg]|exact N].
  - destruct (oras5_supplied glob sqrt open_oras construct b (s_points s) k src v R (Fn v eq_refl)) as (v' & w & S & A & Dg & N); [reflexivity|exact Ds|].
    exists (Point (Vector v')), (Point (Vector w)). split; [exact S|]. split; [exact A|]. split; [left; right; right; eexists; split; [reflexivity|exact Dg]|exact N].
  - destruct (sampled_vector_supplied glob sqrt dsin dcos open_nc construct b (s_points s) k src v R (Fn v eq_refl)) as (w & S & Dw & N); [|exact Ds|].
    { intros p files0 name cls kept ds d G. unfold construct. destruct G; reflexivity. }
    exists (Point (Vector w)), (Point (Vector w)). split; [exact S|]. split; [apply vagree_refl|]. split; [right; eexists; split; [reflexivity|exact Dw]|exact N].
Qed.
Print Assumptions C100_whole_partial.

(** ** A case *)
(** Currents to the east and to the north by turns, of 3 and 4. *)
Definition vb_grid : xrds := mkXr [(2, 0%nat); (4, 1%nat); (6, 2%nat); (8, 3%nat)]%Q [(3, 0%nat); (6, 1%nat); (13, 2%nat); (17, 3%nat)]%Q None
  (fun i j _ => if Nat.even (i + j) then [Some 3; Some 0] else [Some 0; Some 4])%Q.
Definition vb_nc (cls : string) (files : list string) : res (list string * xrds) := match files with ["c.nc"] => Ok (["uC"; "vC"], vb_grid) | _ => Err FileNotFoundError end.
Definition vb_own (agg : string) : params := [("file", JStr "c.nc"); ("downsample_factors", JArr [JInt 2; JInt 2]); ("aggregate_type", JStr agg)].
Definition vb_params (agg : string) : list (string * params) := [("northsea_currents", vb_own agg)].
Definition vb_config (agg : string) : json := tab_config (vb_params agg).
Definition vb_settings (agg : string) : settings := mkSettings 0 10 0 20 "2017-02-01" "2017-02-04" 10 10 1 2 (vb_params agg).
Definition vb_down (agg : string) : xrds := match downsample (fun q => q) agg (2, 2) vb_grid with Ok ds => ds | Err _ => vb_grid end.
Definition vb_feed (agg : string) : vfeed := mkVFeed ["uC"; "vC"] true agg 2 [] (xr_points (vb_down agg)).
Lemma vb_says agg : says (vb_config agg) (vb_settings agg).
Proof.
  unfold vb_config, tab_config. do 4 eexists. split; [reflexivity|]. split; [reflexivity|]. split.
  - unfold region_says, ConfigSpec.number_at, text_at, only_keys. cbn [s_lat_min s_lat_max s_long_min s_long_max s_start s_end s_width s_height vb_settings].
    repeat split; try (eexists; split; [reflexivity|]; match goal with |- ConfigSpec.number (JInt ?z) _ => exact (num_int z) end).
    cbn [In]. intros k v H. repeat (destruct H as [[= <- _]|H]; [tauto|]). destruct H.
  - split; [reflexivity|]. split.
    + cbn [map vb_params vb_own s_loaders vb_settings]. repeat (apply Forall2_cons; [eexists; split; [reflexivity|]; unfold text_at, only_keys; cbn [fst snd]; repeat split;
        cbn [In]; intros k v H; repeat (destruct H as [[= <- _]|H]; [tauto|]); destruct H|]). apply Forall2_nil.
    + split; [reflexivity|]. unfold whole_at, only_keys. cbn [s_depth s_points vb_settings]. repeat split.
      * eexists. split; [reflexivity|constructor].
      * eexists. split; [reflexivity|constructor].
      * cbn [In]. intros k v H. repeat (destruct H as [[= <- _]|H]; [tauto|]). destruct H.
Qed.
Lemma vb_described agg : In agg ["MIN"; "MAX"; "MEAN"; "COUNT"] -> sampled_vector (fun _ => []) vb_nc (fun q => q) (fun q => q) mix_bounds 2 ("northsea_currents", vb_own agg) (vb_feed agg).
Proof.
  intros Ag. destruct (downsample_blocks (fun q => q) agg 2 2 vb_grid) as (ds' & E & H); [lia|lia|discriminate|cbn in Ag |- *; tauto|].
  exists "northsea_currents", "NorthSeaCurrentDataLoader", ["uC"; "vC"], ["uC"; "vC"], ["c.nc"], ["c.nc"], vb_grid, 2, 2, (xr_points vb_grid), vb_grid, ds'.
  assert (O : ordered vb_grid).
  { split; [|split; [|discriminate]]; intros i j x y L X Y; do 5 (try destruct i as [|i]); do 5 (try destruct j as [|j]); cbn in X, Y; try discriminate; try lia; try (destruct i; discriminate); try (destruct j; discriminate); injection X as <-; injection Y as <-; cbn; lra. }
  assert (W : forall p, In p (xr_points vb_grid) -> List.length (p_vals p) = 2%nat) by (intros p I; vm_compute in I; repeat (destruct I as [<-|I]; [reflexivity|]); destruct I).
  split; [cbn; repeat split; left; reflexivity|]. split.
  { constructor; cbn [v_names v_agg v_min v_conds vb_feed].
    - unfold dict_ok, vb_own. nodup_keys.
    - reflexivity.
    - split; reflexivity.
    - split; [nodup_keys|]. intros c [<-|[<-|[]]]; (split; [commaless|unfold a_coordinate; cbn; intuition discriminate]).
    - reflexivity.
    - exact Ag.
    - reflexivity.
    - exists "EPSG:4326". split; reflexivity.
    - reflexivity.
    - lia.
    - discriminate.
    - reflexivity.
    - reflexivity. }
  split; [exists "c.nc"; split; reflexivity|]. split; [reflexivity|]. split; [split; [reflexivity|exact W]|]. split; [split; [discriminate|intros X; contradiction]|].
  split; [constructor; [apply O|apply O|apply Permutation_refl]|]. split.
  { apply ConstructProofs.selected_all. intros p I. vm_compute in I. repeat (destruct I as [<-|I]; [split; [split; split; vm_compute; first [reflexivity|discriminate]|exact Logic.I]|]). destruct I. }
  split; [exact O|]. split; [exact H|]. split; [apply wide_iff; eapply downsample_wide; [exact Ag|exact E|apply wide_iff, W]|].
  split; [|split; reflexivity]. unfold vb_feed, vb_down. cbn [v_data]. rewrite E. reflexivity.
Qed.
Notation vb_construct := (construct_wave (fun q => q) ic_proj true wv_open wv_oras wd_bearing vb_nc ic_amsr ic_icenet ic_chart (fun q => 1 - q)%Q (fun q => q) gf_noise boxes edge_boxes (fun q => q) (fun q => q) vs_csv (fun _ => Err FileNotFoundError) tab_shapes).
Lemma vb_apart agg : labels_apart boxes [Point (Vector (vb_feed agg))].
Proof.
  split; [|split].
  - intros s n [<-|[]] [<-|[<-|[]]]; (split; [commaless|cbn; intuition discriminate]).
  - intros v [E|[]]. injection E as <-. split; [cbn [v_names vb_feed]; nodup_keys|cbn; lia].
  - intros [|[|i]] [|[|j]] v t n Ne Hi Hj I; cbn in Hi, Hj; try discriminate; congruence.
Qed.
(** The hypotheses hold; the cells hold the means of the blocks. *)
Example C100_case :
  noisy gf_noise /\ grows boxes /\ lawful boxes (Q * Q) in_boxes /\ rectangles boxes in_boxes /\ in_world (o := boxes) in_boxes mix_bounds /\
  validate_mesh_config (fun _ => None) (vb_config "MEAN") = Ok tt /\ says (vb_config "MEAN") (vb_settings "MEAN") /\ from_json false 0 (vb_config "MEAN") = Ok mix_bounds /\ admissible mix_bounds 10 10 /\
  labels_apart boxes [Point (Vector (vb_feed "MEAN"))] /\
  Forall2 (sampled_vector (fun _ => []) vb_nc (fun q => q) (fun q => q) mix_bounds 2) (s_loaders (vb_settings "MEAN")) [vb_feed "MEAN"] /\
  exists em, generate (fun _ => None) false 0 (fun _ => []) (fun _ => false) vb_construct 100 (vb_config "MEAN") = Ok em /\ shown em = [[("uC", 3 # 2); ("vC", 2)]; [("uC", 3 # 2); ("vC", 2)]]%Q.
Proof.
  split; [exact gf_noisy|]. split; [exact boxes_grow|]. split; [exact boxes_lawful|]. split; [exact boxes_rectangles|]. split; [exact PropsWhole.wh_world|].
  split; [vm_compute; reflexivity|]. split; [exact (vb_says "MEAN")|]. split; [vm_compute; reflexivity|]. split; [|split; [exact (vb_apart "MEAN")|split]].
  - split; [|split; [reflexivity|split; [reflexivity|]]].
    + split; [cbn; lra|]. right. do 2 eexists. split; [reflexivity|]. discriminate.
    + intros [H _]. cbn in H. lra.
  - constructor; [apply vb_described; cbn; tauto|constructor].
  - eexists. split; [vm_compute; reflexivity|]. vm_compute. reflexivity.
Qed.

(** The largest vectors of blocks (finding): the largest components of a block are taken
    one by one, so that all cells hold a vector longer than every vector of the file. *)
Theorem C100_invented_refuted : exists cfg em ds,
  generate (fun _ => None) false 0 (fun _ => []) (fun _ => false) vb_construct 100 cfg = Ok em /\
  (exists s v, says cfg s /\ Forall2 (sampled_vector (fun _ => []) vb_nc (fun q => q) (fun q => q) (em_bounds em) (s_points s)) (s_loaders s) [v] /\ v_agg v = "MAX") /\
  vb_nc "NorthSeaCurrentDataLoader" ["c.nc"] = Ok (["uC"; "vC"], ds) /\ em_cells em <> [] /\
  forall c, In c (em_cells em) -> exists x y, sget (e_data c) "uC" = Some (JNum (Some x)) /\ sget (e_data c) "vC" = Some (JNum (Some y)) /\
    forall p, In p (xr_points ds) -> exists u w, p_vals p = [Some u; Some w] /\ (u * u + w * w < x * x + y * y)%Q.
Proof.
  destruct (generate (fun _ => None) false 0 (fun _ => []) (fun _ => false) vb_construct 100 (vb_config "MAX")) as [em|] eqn:E; [|vm_compute in E; discriminate].
  vm_compute in E. injection E as <-. exists (vb_config "MAX"). eexists. exists vb_grid. split; [vm_compute; reflexivity|]. split.
  { exists (vb_settings "MAX"), (vb_feed "MAX"). split; [exact (vb_says "MAX")|]. split; [constructor; [apply (vb_described "MAX"); cbn; tauto|constructor]|reflexivity]. }
  split; [reflexivity|]. split; [discriminate|]. intros c [<-|[<-|[]]]; (do 2 eexists; split; [reflexivity|]; split; [reflexivity|]);
    intros p I; vm_compute in I; repeat (destruct I as [<-|I]; [do 2 eexists; split; [reflexivity|vm_compute; reflexivity]|]); destruct I.
Qed.
Print Assumptions C100_invented_refuted.

(** Counts of downsampled vectors (finding): only the first of each block is counted, so that
    the cells hold a quarter of the number of vectors of the file in them. *)
Theorem C100_count_refuted : exists cfg em ds,
  generate (fun _ => None) false 0 (fun _ => []) (fun _ => false) vb_construct 100 cfg = Ok em /\
  (exists s v, says cfg s /\ Forall2 (sampled_vector (fun _ => []) vb_nc (fun q => q) (fun q => q) (em_bounds em) (s_points s)) (s_loaders s) [v] /\ v_agg v = "COUNT") /\
  vb_nc "NorthSeaCurrentDataLoader" ["c.nc"] = Ok (["uC"; "vC"], ds) /\ em_cells em <> [] /\
  forall c, In c (em_cells em) -> exists x pts, sget (e_data c) "uC" = Some (JNum (Some x)) /\ selected (belongs (e_bounds c)) (xr_points ds) pts /\
    (forall p, In p pts -> ~ In None (p_vals p)) /\ (4 * x == inject_Z (Z.of_nat (List.length pts)))%Q.
Proof.
  destruct (generate (fun _ => None) false 0 (fun _ => []) (fun _ => false) vb_construct 100 (vb_config "COUNT")) as [em|] eqn:E; [|vm_compute in E; discriminate].
  vm_compute in E. injection E as <-. exists (vb_config "COUNT"). eexists. exists vb_grid. split; [vm_compute; reflexivity|]. split.
  { exists (vb_settings "COUNT"), (vb_feed "COUNT"). split; [exact (vb_says "COUNT")|]. split; [constructor; [apply (vb_described "COUNT"); cbn; tauto|constructor]|reflexivity]. }
  split; [reflexivity|]. split; [discriminate|]. intros c [<-|[<-|[]]]; eexists.
  - exists (filter (fun p => qleb (p_long p) 10) (xr_points vb_grid)). split; [reflexivity|]. split; [|split; [|vm_compute; reflexivity]].
    + match goal with |- selected _ ?a ?b => let a' := eval vm_compute in a in let b' := eval vm_compute in b in change a with a'; change b with b' end.
      repeat first [apply sel_nil | apply sel_take; [split; [split; split; vm_compute; first [reflexivity|discriminate]|exact Logic.I]|] | apply sel_skip; [intros [H _]; unfold mem in H; cbn in H; lra|]].
    + intros p I. vm_compute in I. repeat (destruct I as [<-|I]; [cbn; intuition discriminate|]). destruct I.
  - exists (filter (fun p => negb (qleb (p_long p) 10)) (xr_points vb_grid)). split; [reflexivity|]. split; [|split; [|vm_compute; reflexivity]].
    + match goal with |- selected _ ?a ?b => let a' := eval vm_compute in a in let b' := eval vm_compute in b in change a with a'; change b with b' end.
      repeat first [apply sel_nil | apply sel_take; [split; [split; split; vm_compute; first [reflexivity|discriminate]|exact Logic.I]|] | apply sel_skip; [intros [H _]; unfold mem in H; cbn in H; lra|]].
    + intros p I. vm_compute in I. repeat (destruct I as [<-|I]; [cbn; intuition discriminate|]). destruct I.
Qed.
Print Assumptions C100_count_refuted.
