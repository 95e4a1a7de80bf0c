(** Property theorem C102: downsampled wind directions and currents of ORAS5 in the whole way
    to the mesh.  Parameters as in PropsWaveSources.v.  The proofs are in
    MoreSampleProofs.v. *)
From Coq Require Import Permutation.
From Verif Require Import Shapes ShapeProofs Base Geo Graph Cell Loaders AddLoader VecLoader Builder Env Spec MeshSpec EnvSpec DataSpec QLib Construct ConstructSpec Names PyStr Dates DateSpec Config ConfigSpec Params ParamSpec
  Files FilesSpec FilesProofs PropsFiles Forecast ForecastSpec
  Reproject ReprojectSpec Pipeline PipeSpec ConfigProofs PipeProofs Sources SourcesSpec SourcesProofs PropsSources MixSpec MixProofs PropsMix VecSources VecSourcesSpec VecSourcesProofs PropsVecSources
  Lut LutSpec LutFiles LutFilesSpec LutFilesProofs LutSources TableSpec TableProofs TableFiles PropsLut PropsLutFiles PropsTable ShapeSources ShapeSourcesSpec ShapeSourcesProofs AllSources WholeSpec WholeProofs
  Grf GrfSpec GrfProofs PropsGrf GrfSources GrfSourcesSpec GrfSourcesProofs PropsGrfSources IceSources IceSourcesSpec IceSourcesProofs PropsIceSources WindSources WindSourcesSpec WindSourcesProofs PropsWindSources
  SampleSpec SampleProofs PropsSample WaveSources WaveSourcesSpec WaveSourcesProofs PropsWaveSources Downsample DownSpec VecSampleSpec VecSampleProofs PropsVecSample WaveSampleSpec WaveSampleProofs PropsWaveSample MoreSampleSpec MoreSampleProofs.
From Verif Require ShapeSpec PropsWhole.
Open Scope string_scope.
Open Scope Z_scope.

(** For a validated configuration of sources as in C101, wind directions and currents of
    ORAS5 also downsampled by any factors: building ends with a mesh that survives writing
    and reading; its cells tile the region with exactly their contacts; and every cell is
    quartered and holds values as called for by all sources, where what is downsampled counts
    as its blocks. *)
Definition described_more (o : planar) (P : Type) inside glob proj strict open_wave open_oras bearing open_amsr open_icenet open_ice read_table read_shapes read_csv open_nc sqrt dsin dcos cos sin noise b min_dp (src : string * params) (s : origin o) : Prop :=
  described_all o P inside glob proj strict open_wave open_oras bearing open_amsr open_icenet open_ice read_table read_shapes read_csv open_nc sqrt dsin dcos cos sin noise b min_dp src s \/
  (exists f, s = Point (Scalar f) /\ sampled_wind_dir glob open_nc bearing b min_dp src f) \/
  exists v, s = Point (Vector v) /\ sampled_oras5 glob open_oras b min_dp src v.
Theorem C102_whole_partial : forall (o : planar) edge P inside, grows o -> lawful o P inside -> rectangles o inside ->
  forall files pad now glob ft sqrt dsin dcos cos sin noise proj strict open_wave open_oras bearing open_amsr open_icenet open_ice read_csv open_nc read_table read_shapes cfg s b ss0, noisy noise ->
  validate_mesh_config files cfg = Ok tt -> says cfg s -> from_json pad now cfg = Ok b ->
  admissible b (s_width s) (s_height s) -> in_world inside b ->
  (s_lat_min s < s_lat_max s)%Q -> (s_lat_max s - s_lat_min s < 360)%Q -> 0 <= s_points s ->
  Forall2 (described_more o P inside glob proj strict open_wave open_oras bearing open_amsr open_icenet open_ice read_table read_shapes read_csv open_nc sqrt dsin dcos cos sin noise b (s_points s)) (s_loaders s) ss0 ->
  labels_apart o ss0 ->
  exists ss fuel em em',
    Forall2 (described_more o P inside glob proj strict open_wave open_oras bearing open_amsr open_icenet open_ice read_table read_shapes read_csv open_nc sqrt dsin dcos cos sin noise b (s_points s)) (s_loaders s) ss /\
    map (labels o) ss = map (labels o) ss0 /\
    (forall fuel', (fuel <= fuel')%nat ->
       generate files pad now glob ft (construct_wave sqrt proj strict open_wave open_oras bearing open_nc open_amsr open_icenet open_ice cos sin noise o edge dsin dcos read_csv read_table read_shapes) fuel' cfg = Ok em) /\
    load_from_json (to_json em) = Ok em' /\
    map e_id (em_cells em') = map e_id (em_cells em) /\ map e_data (em_cells em') = map e_data (em_cells em) /\
    map e_bounds (em_cells em') = map without_times (map e_bounds (em_cells em)) /\
    NoDup (map e_id (em_cells em')) /\ env_tiles (region b) (em_cells em') /\
    (~ spans_globe b -> lists_contacts touches (em_cells em') (em_graph em')) /\
    (spans_globe b -> lists_contacts touches_mod (em_cells em') (em_graph em')) /\
    (forall c, In c (em_cells em) -> as_offered o edge sqrt ss b (s_width s) (s_height s) (s_depth s) c).
Proof.
  intros o edge P inside Gr La Re files pad now glob ft sqrt dsin dcos cos sin noise proj strict open_wave open_oras bearing open_amsr open_icenet open_ice read_csv open_nc read_table read_shapes cfg s b ss0 No Hv Hs Hb Ha Hw Hl Hl' Hp Hf Hn.
  set (construct := construct_wave sqrt proj strict open_wave open_oras bearing open_nc open_amsr open_icenet open_ice cos sin noise o edge dsin dcos read_csv read_table read_shapes).
  apply (whole_offered o edge Gr files pad now glob ft construct sqrt
    (described_more o P inside glob proj strict open_wave open_oras bearing open_amsr open_icenet open_ice read_table read_shapes read_csv open_nc sqrt dsin dcos cos sin noise) cfg s b ss0 Hv Hs Hb Ha Hl Hl' Hp); [|exact Hf|exact Hn].
  intros k src s0 R Pl [[[[[Ds|(f & -> & Ds)]|[(f & -> & Ds)|(v & -> & Ds)]]|(v & -> & Ds)]|(f & -> & Ds)]|[(f & -> & Ds)|(v & -> & Ds)]] Fn.
  - destruct (wind_offered o edge P inside La Re glob sqrt dsin dcos cos sin noise proj bearing open_amsr open_icenet open_ice read_csv open_nc read_table read_shapes b (s_points s) k src s0 No Hw R Pl Ds Fn) as (s' & t & Of & A & Dt & Al).
    exists s', t. split; [apply offers_wave; exact Of|]. split; [exact A|]. split; [left; left; left; left; left; exact Dt|exact Al].
  - destruct (sampled_supplied glob sqrt proj open_nc construct b (s_points s) k src f R) as (g & S & Dg & N); [|exact Ds|].
    { intros p files0 name cls kept ds d G. unfold construct. destruct G; try reflexivity. repeat destruct H as [[= <- <-]|H]; try reflexivity. destruct H. }
    exists (Point (Scalar g)), (Point (Scalar g)). split; [exact S|]. split; [apply agree_refl|]. split; [left; left; left; left; right; eexists; split; [reflexivity|exact Dg]|exact N].
  - destruct (wave_supplied glob sqrt strict open_wave construct b (s_points s) k src f R) as (f' & g & S & A & Dg & N); [reflexivity|exact Ds|].
    exists (Point (Scalar f')), (Point (Scalar g)). split; [exact S|]. split; [exact A|]. split; [left; left; left; right; left; eexists; split; [reflexivity|exact Dg]|exact N].
  - destruct (oras5_supplied glob sqrt open_oras construct b (s_points s) k src v R (Fn v eq_refl)) as (v' & w & S & A & Dg & N); [reflexivity|exact Ds|].
    exists (Point (Vector v')), (Point (Vector w)). split; [exact S|]. split; [exact A|]. split; [left; left; left; right; right; eexists; split; [reflexivity|exact Dg]|exact N].
  - destruct (sampled_vector_supplied glob sqrt dsin dcos open_nc construct b (s_points s) k src v R (Fn v eq_refl)) as (w & S & Dw & N); [|exact Ds|].
    { intros p files0 name cls kept ds d G. unfold construct. destruct G; reflexivity. }
    exists (Point (Vector w)), (Point (Vector w)). split; [exact S|]. split; [apply vagree_refl|]. split; [left; left; right; eexists; split; [reflexivity|exact Dw]|exact N].
  - destruct (sampled_wave_supplied glob sqrt strict open_wave construct b (s_points s) k src f R) as (f' & g & S & A & Dg & N); [reflexivity|exact Ds|].
    exists (Point (Scalar f')), (Point (Scalar g)). split; [exact S|]. split; [exact A|]. split; [left; right; eexists; split; [reflexivity|exact Dg]|exact N].
  - destruct (sampled_wind_dir_supplied glob sqrt proj bearing open_nc construct b (s_points s) k src f R) as (g & S & Dg & N); [reflexivity|exact Ds|].
    exists (Point (Scalar g)), (Point (Scalar g)). split; [exact S|]. split; [apply agree_refl|]. split; [right; left; eexists; split; [reflexivity|exact Dg]|exact N].
  - destruct (sampled_oras5_supplied glob sqrt open_oras construct b (s_points s) k src v R (Fn v eq_refl)) as (w & S & Dw & N); [reflexivity|exact Ds|].
    exists (Point (Vector w)), (Point (Vector w)). split; [exact S|]. split; [apply vagree_refl|]. split; [right; right; eexists; split; [reflexivity|exact Dw]|exact N].
Qed.
Print Assumptions C102_whole_partial.

(** AMSR and Visual_Ice are read on a grid without latitudes, of which no blocks are formed:
    a configuration naming one of them with factors other than 1 and 1 is never built. *)
Theorem C102_ice_refuted : forall o edge files pad now glob ft sqrt dsin dcos cos sin noise proj strict open_wave open_oras bearing open_amsr open_icenet open_ice read_csv open_nc read_table read_shapes fuel cfg name,
  In name ["amsr"; "visual_iced"] -> asks_sampled cfg name -> forall em,
  generate files pad now glob ft (construct_wave sqrt proj strict open_wave open_oras bearing open_nc open_amsr open_icenet open_ice cos sin noise o edge dsin dcos read_csv read_table read_shapes) fuel cfg <> Ok em.
Proof.
  intros o edge files pad now glob ft sqrt dsin dcos cos sin noise proj strict open_wave open_oras bearing open_amsr open_icenet open_ice read_csv open_nc read_table read_shapes fuel cfg name I A.
  apply (sampled_fails files pad now glob ft _ fuel cfg name); [|exact A]. intros n p a m agg min_dp cls p1 p' k b r Sn D F Ne Ag Ia G Ad.
  assert (C := ice_class glob n name p min_dp cls p1 I Sn G). destruct (ice_settings glob n name p a m agg min_dp cls p1 p' C D F Ag G Ad) as (F' & A').
  destruct (ice_never sqrt proj open_amsr open_ice k p' b a m agg r F' Ne A' Ia) as (N1 & N2). destruct C as [[_ ->]|[_ ->]]; [exact N1|exact N2].
Qed.
Print Assumptions C102_ice_refuted.

(** ** A case *)
(** The winds and the currents of the cases of C97 and C99, in blocks of two latitudes. *)
Definition ms_wind : params := [("files", JArr [JStr "wave_data_2017-02-02.nc"; JStr "wave_data_2017-03-02.nc"]); ("downsample_factors", JArr [JInt 1; JInt 2])].
Definition ms_oras : params := [("file", JStr "c.nc"); ("downsample_factors", JArr [JInt 1; JInt 2])].
Definition ms_params : list (string * params) := [("ERA5_wind_dir", ms_wind); ("oras5_currents", ms_oras)].
Definition ms_config : json := tab_config ms_params.
Definition ms_settings : settings := mkSettings 0 10 0 20 "2017-02-01" "2017-02-04" 10 10 1 2 ms_params.
Definition ms_inner : xrds := mkXr (rev (x_lat wd_grid)) (x_long wd_grid) None (fun i j t => wd_convert (x_val wd_grid i j t)).
Definition ms_down (ds : xrds) : xrds := match downsample (fun q => q) "MEAN" (1, 2) ds with Ok ds' => ds' | Err _ => ds end.
Definition ms_feed : feed := mkFeed "wind_dir" true "MEAN" 2 [] FillParent (xr_points (ms_down ms_inner)).
Definition ms_vector : vfeed := mkVFeed ["uC"; "vC"] true "MEAN" 2 [] (xr_points (ms_down wv_currents)).
Lemma ms_says : says ms_config ms_settings.
Proof.
  unfold ms_config, tab_config. do 4 eexists. split; [reflexivity|]. split; [reflexivity|]. split.
  - unfold region_says, ConfigSpec.number_at, text_at, only_keys. cbn [s_lat_min s_lat_max s_long_min s_long_max s_start s_end s_width s_height ms_settings].
    repeat split; try (eexists; split; [reflexivity|]; match goal with |- ConfigSpec.number (JInt ?z) _ => exact (num_int z) end).
    cbn [In]. intros k v H. repeat (destruct H as [[= <- _]|H]; [tauto|]). destruct H.
  - split; [reflexivity|]. split.
    + cbn [map ms_params ms_wind ms_oras s_loaders ms_settings]. repeat (apply Forall2_cons; [eexists; split; [reflexivity|]; unfold text_at, only_keys; cbn [fst snd]; repeat split;
        cbn [In]; intros k v H; repeat (destruct H as [[= <- _]|H]; [tauto|]); destruct H|]). apply Forall2_nil.
    + split; [reflexivity|]. unfold whole_at, only_keys. cbn [s_depth s_points ms_settings]. repeat split.
      * eexists. split; [reflexivity|constructor].
      * eexists. split; [reflexivity|constructor].
      * cbn [In]. intros k v H. repeat (destruct H as [[= <- _]|H]; [tauto|]). destruct H.
Qed.
Lemma ms_blocks ds : exists ds', downsample (fun q => q) "MEAN" (1, 2) ds = Ok ds' /\ ms_down ds = ds' /\ in_blocks "MEAN" 1 2 ds ds'.
Proof. destruct (downsample_blocks (fun q => q) "MEAN" 1 2 ds) as (ds' & E & H); [lia|lia|discriminate|cbn; tauto|]. exists ds'. unfold ms_down. rewrite E. auto. Qed.
Lemma ms_described : sampled_wind_dir (fun _ => []) wd_nc wd_bearing mix_bounds 2 ("ERA5_wind_dir", ms_wind) ms_feed.
Proof.
  destruct (ms_blocks ms_inner) as (ds' & E & E' & H).
  exists ["wave_data_2017-02-02.nc"; "wave_data_2017-03-02.nc"], ["wave_data_2017-02-02.nc"], ["u10"; "v10"], wd_grid, (wind_dir wd_bearing), 1, 2, (xr_points ms_inner), ms_inner, ds'.
  split; [cbn; repeat split; letters|]. split.
  { constructor; cbn [fst snd f_name f_agg f_min f_conds f_fill ms_feed].
    - unfold dict_ok, ms_wind. nodup_keys.
    - reflexivity.
    - reflexivity.
    - cbn. tauto.
    - reflexivity.
    - exists "EPSG:4326". split; reflexivity.
    - reflexivity.
    - lia.
    - discriminate.
    - reflexivity.
    - reflexivity. }
  split; [reflexivity|]. split; [exact vs_period|]. split; [reflexivity|].
  split. { intros [|[|i]] [|[|j]] x y L X Y; cbn in *; try lia; try discriminate; try (destruct j; discriminate); injection X as <-; injection Y as <-; cbn; lra. }
  split; [split; [discriminate|intros X; contradiction]|]. split; [apply wind_dir_from|]. split.
  { exists (map (fun p => mkP (p_lat p) (p_long p) (p_time p) (wd_convert (p_vals p))) (xr_points wd_grid)). split; [|exact (Permutation_app_comm [_; _] [_; _])].
    assert (A : forall l, (forall p, In p l -> -180 <= p_long p < 180)%Q -> Forall2 (fun p q => ImportSpec.moved p q /\ p_vals q = wind_dir wd_bearing (p_vals p)) l
      (map (fun p => mkP (p_lat p) (p_long p) (p_time p) (wd_convert (p_vals p))) l)).
    { induction l as [|p l IH]; intros B; [constructor|]. cbn [map]. constructor; [|apply IH; intros q I; apply B; right; exact I]. specialize (B p (or_introl eq_refl)).
      split; [|reflexivity]. split; [reflexivity|]. split; [reflexivity|]. cbn [p_long]. split; [exists 0; change (inject_Z 0) with 0%Q; lra|lra]. }
    apply A. intros p I. vm_compute in I. repeat (destruct I as [<-|I]; [cbn; lra|]). destruct I. }
  split. { apply ConstructProofs.selected_all. intros p I. vm_compute in I. repeat (destruct I as [<-|I]; [split; [split; split; vm_compute; first [reflexivity|discriminate]|exact Logic.I]|]). destruct I. }
  split. { split; [|split; [|discriminate]]; intros [|[|i]] [|[|j]] x y L X Y; cbn in *; try lia; try discriminate; try (destruct j; discriminate); injection X as <-; injection Y as <-; cbn; lra. }
  split; [exact H|]. split; [|reflexivity]. cbn [f_data ms_feed]. rewrite E'. reflexivity.
Qed.
Lemma ms_oras_described : sampled_oras5 (fun _ => []) wv_oras mix_bounds 2 ("oras5_currents", ms_oras) ms_vector.
Proof.
  destruct (ms_blocks wv_currents) as (ds' & E & E' & H).
  assert (W : forall p, In p (xr_points wv_currents) -> List.length (p_vals p) = 2%nat) by (intros p I; vm_compute in I; repeat (destruct I as [<-|I]; [reflexivity|]); destruct I).
  assert (O : ordered wv_currents) by (split; [|split; [|discriminate]]; intros [|[|i]] [|[|j]] x y L X Y; cbn in *; try lia; try discriminate; try (destruct j; discriminate); injection X as <-; injection Y as <-; cbn; lra).
  exists ["c.nc"], wv_currents, 1, 2, (xr_points wv_currents), wv_currents, ds'. split; [cbn; repeat split; letters|]. split.
  { constructor; cbn [snd v_names v_agg v_min v_conds ms_vector].
    - unfold dict_ok, ms_oras. nodup_keys.
    - reflexivity.
    - split; reflexivity.
    - split; [nodup_keys|]. intros c [<-|[<-|[]]]; (split; [commaless|unfold a_coordinate; cbn; intuition discriminate]).
    - reflexivity.
    - cbn. tauto.
    - reflexivity.
    - exists "EPSG:4326". split; reflexivity.
    - reflexivity.
    - lia.
    - discriminate.
    - reflexivity.
    - reflexivity. }
  split; [exists "c.nc"; split; reflexivity|]. split; [reflexivity|]. split; [split; [discriminate|intros X; contradiction]|]. split; [apply O|]. split; [apply O|]. split; [exact W|]. split; [apply Permutation_refl|].
  split. { apply ConstructProofs.selected_all. intros p I. vm_compute in I. repeat (destruct I as [<-|I]; [split; [split; split; vm_compute; first [reflexivity|discriminate]|exact Logic.I]|]). destruct I. }
  split; [exact O|]. split; [exact H|]. split; [apply wide_iff; eapply downsample_wide; [|exact E|apply wide_iff, W]; cbn; tauto|]. split; [|split; reflexivity]. cbn [v_data ms_vector]. rewrite E'. reflexivity.
Qed.
Notation ms_construct := (construct_wave (fun q => q) ic_proj true wv_open wv_oras wd_bearing wd_nc ic_amsr ic_icenet ic_chart (fun q => 1 - q)%Q (fun q => q) gf_noise boxes edge_boxes (fun q => q) (fun q => q) vs_csv (fun _ => Err FileNotFoundError) tab_shapes).
Lemma ms_apart : labels_apart boxes [Point (Scalar ms_feed); Point (Vector ms_vector)].
Proof.
  split; [|split].
  - intros s n [<-|[<-|[]]]; [intros [<-|[]]|intros [<-|[<-|[]]]]; (split; [intros a b; do 13 (try destruct a as [|? a]); cbn; discriminate|cbn; intuition discriminate]).
  - intros v [E|[E|[]]]; [discriminate|]. injection E as <-. split; [cbn [v_names ms_vector]; nodup_keys|cbn; lia].
  - intros [|[|[|i]]] [|[|[|j]]] v t n Ne Hi Hj I; cbn in Hi, Hj; try discriminate; try congruence. injection Hi as <-. injection Hj as <-. cbn in I |- *. destruct I as [<-|[<-|[]]]; intuition discriminate.
Qed.
(** The hypotheses hold; the cells hold the means of the blocks. *)
Example C102_case :
  noisy gf_noise /\ grows boxes /\ lawful boxes (Q * Q) in_boxes /\ rectangles boxes in_boxes /\ in_world (o := boxes) in_boxes mix_bounds /\
  validate_mesh_config (fun _ => None) ms_config = Ok tt /\ says ms_config ms_settings /\ from_json false 0 ms_config = Ok mix_bounds /\ admissible mix_bounds 10 10 /\
  labels_apart boxes [Point (Scalar ms_feed); Point (Vector ms_vector)] /\
  sampled_wind_dir (fun _ => []) wd_nc wd_bearing mix_bounds 2 ("ERA5_wind_dir", ms_wind) ms_feed /\ sampled_oras5 (fun _ => []) wv_oras mix_bounds 2 ("oras5_currents", ms_oras) ms_vector /\
  exists em, generate (fun _ => None) false 0 (fun _ => []) (fun _ => false) ms_construct 100 ms_config = Ok em /\ shown em = [[("wind_dir", 180); ("uC", 1 # 2); ("vC", 4)]; [("wind_dir", 190); ("uC", 1 # 2); ("vC", 4)]]%Q.
Proof.
  split; [exact gf_noisy|]. split; [exact boxes_grow|]. split; [exact boxes_lawful|]. split; [exact boxes_rectangles|]. split; [exact PropsWhole.wh_world|].
  split; [vm_compute; reflexivity|]. split; [exact ms_says|]. split; [vm_compute; reflexivity|]. split; [|split; [exact ms_apart|split; [exact ms_described|split; [exact ms_oras_described|]]]].
  - split; [|split; [reflexivity|split; [reflexivity|]]].
    + split; [cbn; lra|]. right. do 2 eexists. split; [reflexivity|]. discriminate.
    + intros [H _]. cbn in H. lra.
  - eexists. split; [vm_compute; reflexivity|]. vm_compute. reflexivity.
Qed.
(** A chart that builds with factors 1 and 1, and not with 2 and 1. *)
Definition ms_ice (a : Z) : json := tab_config [("visual_iced", [("file", JStr "chart.tiff"); ("in_proj", JStr "EPSG:3976"); ("x_col", JStr "x"); ("y_col", JStr "y"); ("downsample_factors", JArr [JInt a; JInt 1])])].
Example C102_ice_case : asks_sampled (ms_ice 2) "visual_iced" /\ validate_mesh_config (fun _ => None) (ms_ice 2) = Ok tt /\
  (exists em, generate (fun _ => None) false 0 (fun _ => []) (fun _ => false) ms_construct 100 (ms_ice 1) = Ok em) /\
  generate (fun _ => None) false 0 (fun _ => []) (fun _ => false) ms_construct 100 (ms_ice 2) = Err ValueError.
Proof.
  split; [|split; [vm_compute; reflexivity|split; [eexists; vm_compute; reflexivity|vm_compute; reflexivity]]].
  unfold ms_ice, tab_config. do 7 eexists. split; [reflexivity|]. split; [left; reflexivity|]. split; [reflexivity|]. split; [cbn; repeat split; letters|].
  split; [reflexivity|]. split; [unfold dict_ok; nodup_keys|]. split; [reflexivity|]. split; [left; discriminate|]. split; [reflexivity|cbn; tauto].
Qed.
