(** Property theorem C101: downsampled wave heights in the whole way to the mesh.  Parameters
    as in PropsWaveSources.v.  The proofs are in WaveSampleProofs.v. *)
From Coq Require Import Permutation.
From Verif Require Import Shapes ShapeProofs Base Geo Graph Cell Loaders AddLoader VecLoader Builder Env Spec MeshSpec EnvSpec DataSpec QLib Construct ConstructSpec Names PyStr Dates DateSpec Config ConfigSpec Params ParamSpec
  Files FilesSpec FilesProofs PropsFiles Forecast ForecastSpec
  Reproject ReprojectSpec Pipeline PipeSpec ConfigProofs PipeProofs Sources SourcesSpec SourcesProofs PropsSources MixSpec MixProofs PropsMix VecSources VecSourcesSpec VecSourcesProofs PropsVecSources
  Lut LutSpec LutFiles LutFilesSpec LutFilesProofs LutSources TableSpec TableProofs TableFiles PropsLut PropsLutFiles PropsTable ShapeSources ShapeSourcesSpec ShapeSourcesProofs AllSources WholeSpec WholeProofs
  Grf GrfSpec GrfProofs PropsGrf GrfSources GrfSourcesSpec GrfSourcesProofs PropsGrfSources IceSources IceSourcesSpec IceSourcesProofs PropsIceSources WindSources WindSourcesSpec WindSourcesProofs PropsWindSources
  SampleSpec SampleProofs PropsSample WaveSources WaveSourcesSpec WaveSourcesProofs PropsWaveSources Downsample DownSpec VecSampleSpec VecSampleProofs PropsVecSample WaveSampleSpec WaveSampleProofs.
From Verif Require ShapeSpec PropsWhole.
Open Scope string_scope.
Open Scope Z_scope.

(** For a validated configuration of sources as in C100, wave heights of ECMWF also
    downsampled by any factors: building ends with a mesh that survives writing and reading;
    its cells tile the region with exactly their contacts; and every cell is quartered and
    holds values as called for by all sources, where each downsampled forecast counts as its
    blocks. *)
Definition described_all (o : planar) (P : Type) inside glob proj strict open_wave open_oras bearing open_amsr open_icenet open_ice read_table read_shapes read_csv open_nc sqrt dsin dcos cos sin noise b min_dp (src : string * params) (s : origin o) : Prop :=
  described_blocks o P inside glob proj strict open_wave open_oras bearing open_amsr open_icenet open_ice read_table read_shapes read_csv open_nc sqrt dsin dcos cos sin noise b min_dp src s \/
  exists f, s = Point (Scalar f) /\ sampled_wave glob strict open_wave b min_dp src f.
Theorem C101_whole_partial : forall (o : planar) edge P inside, grows o -> lawful o P inside -> rectangles o inside ->
  forall files pad now glob ft sqrt dsin dcos cos sin noise proj strict open_wave open_oras bearing open_amsr open_icenet open_ice read_csv open_nc read_table read_shapes cfg s b ss0, noisy noise ->
  validate_mesh_config files cfg = Ok tt -> says cfg s -> from_json pad now cfg = Ok b ->
  admissible b (s_width s) (s_height s) -> in_world inside b ->
  (s_lat_min s < s_lat_max s)%Q -> (s_lat_max s - s_lat_min s < 360)%Q -> 0 <= s_points s ->
  Forall2 (described_all o P inside glob proj strict open_wave open_oras bearing open_amsr open_icenet open_ice read_table read_shapes read_csv open_nc sqrt dsin dcos cos sin noise b (s_points s)) (s_loaders s) ss0 ->
  labels_apart o ss0 ->
  exists ss fuel em em',
    Forall2 (described_all o P inside glob proj strict open_wave open_oras bearing open_amsr open_icenet open_ice read_table read_shapes read_csv open_nc sqrt dsin dcos cos sin noise b (s_points s)) (s_loaders s) ss /\
    map (labels o) ss = map (labels o) ss0 /\
    (forall fuel', (fuel <= fuel')%nat ->
       generate files pad now glob ft (construct_wave sqrt proj strict open_wave open_oras bearing open_nc open_amsr open_icenet open_ice cos sin noise o edge dsin dcos read_csv read_table read_shapes) fuel' cfg = Ok em) /\
    load_from_json (to_json em) = Ok em' /\
    map e_id (em_cells em') = map e_id (em_cells em) /\ map e_data (em_cells em') = map e_data (em_cells em) /\
    map e_bounds (em_cells em') = map without_times (map e_bounds (em_cells em)) /\
    NoDup (map e_id (em_cells em')) /\ env_tiles (region b) (em_cells em') /\
    (~ spans_globe b -> lists_contacts touches (em_cells em') (em_graph em')) /\
    (spans_globe b -> lists_contacts touches_mod (em_cells em') (em_graph em')) /\
    (forall c, In c (em_cells em) -> as_offered o edge sqrt ss b (s_width s) (s_height s) (s_depth s) c).
Proof.
  intros o edge P inside Gr La Re files pad now glob ft sqrt dsin dcos cos sin noise proj strict open_wave open_oras bearing open_amsr open_icenet open_ice read_csv open_nc read_table read_shapes cfg s b ss0 No Hv Hs Hb Ha Hw Hl Hl' Hp Hf Hn.
  set (construct := construct_wave sqrt proj strict open_wave open_oras bearing open_nc open_amsr open_icenet open_ice cos sin noise o edge dsin dcos read_csv read_table read_shapes).
  apply (whole_offered o edge Gr files pad now glob ft construct sqrt
    (described_all o P inside glob proj strict open_wave open_oras bearing open_amsr open_icenet open_ice read_table read_shapes read_csv open_nc sqrt dsin dcos cos sin noise) cfg s b ss0 Hv Hs Hb Ha Hl Hl' Hp); [|exact Hf|exact Hn].
  intros k src s0 R Pl [[[[Ds|(f & -> & Ds)]|[(f & -> & Ds)|(v & -> & Ds)]]|(v & -> & Ds)]|(f & -> & Ds)] Fn.
  - destruct (wind_offered o edge P inside La Re glob sqrt dsin dcos cos sin noise proj bearing open_amsr open_icenet open_ice read_csv open_nc read_table read_shapes b (s_points s) k src s0 No Hw R Pl Ds Fn) as (s' & t & Of & A & Dt & Al).
    exists s', t. split; [apply offers_wave; exact Of|]. split; [exact A|]. split; [left; left; left; left; exact Dt|exact Al].
  - destruct (sampled_supplied glob sqrt proj open_nc construct b (s_points s) k src f R) as (g & S & Dg & N); [|exact Ds|].
    { intros p files0 name cls kept ds d G. unfold construct. destruct G; try reflexivity. repeat destruct H as [[= <- <-]|H]; try reflexivity. destruct H. }
    exists (Point (Scalar g)), (Point (Scalar g)). split; [exact S|]. split; [apply agree_refl|]. split; [left; left; left; right; eexists; split; [reflexivity|exact Dg]|exact N].
  - destruct (wave_supplied glob sqrt strict open_wave construct b (s_points s) k src f R) as (f' & g & S & A & Dg & N); [reflexivity|exact Ds|].
    exists (Point (Scalar f')), (Point (Scalar g)). split; [exact S|]. split; [exact A|]. split; [left; left; right; left; eexists; split; [reflexivity|exact Dg]|exact N].
  - destruct (oras5_supplied glob sqrt open_oras construct b (s_points s) k src v R (Fn v eq_refl)) as (v' & w & S & A & Dg & N); [reflexivity|exact Ds|].
    exists (Point (Vector v')), (Point (Vector w)). split; [exact S|]. split; [exact A|]. split; [left; left; right; right; eexists; split; [reflexivity|exact Dg]|exact N].
  - destruct (sampled_vector_supplied glob sqrt dsin dcos open_nc construct b (s_points s) k src v R (Fn v eq_refl)) as (w & S & Dw & N); [|exact Ds|].
    { intros p files0 name cls kept ds d G. unfold construct. destruct G; reflexivity. }
    exists (Point (Vector w)), (Point (Vector w)). split; [exact S|]. split; [apply vagree_refl|]. split; [left; right; eexists; split; [reflexivity|exact Dw]|exact N].
  - destruct (sampled_wave_supplied glob sqrt strict open_wave construct b (s_points s) k src f R) as (f' & g & S & A & Dg & N); [reflexivity|exact Ds|].
    exists (Point (Scalar f')), (Point (Scalar g)). split; [exact S|]. split; [exact A|]. split; [right; eexists; split; [reflexivity|exact Dg]|exact N].
Qed.
Print Assumptions C101_whole_partial.

(** ** A case *)
(** Forecasts for 3:00 and 6:00 with heights up to the east of the region. *)
Definition ws_grid (z : Z) : xrds := mkXr [(8, 0%nat); (6, 1%nat); (4, 2%nat); (2, 3%nat)]%Q [(3, 0%nat); (6, 1%nat); (18, 2%nat); (21, 3%nat)]%Q None
  (fun i j _ => [Some (inject_Z (if Nat.eqb j 3 then 9 else z + Z.of_nat i))]).
Definition ws_open (f : string) : res xrds := if String.eqb f wv_a then Ok (ws_grid 1) else if String.eqb f wv_b then Ok (ws_grid 3) else Err FileNotFoundError.
Definition ws_own (agg : string) : params := [("files", JArr [JStr wv_b; JStr wv_old; JStr wv_a]); ("downsample_factors", JArr [JInt 2; JInt 2]); ("aggregate_type", JStr agg)].
Definition ws_params (agg : string) : list (string * params) := [("ecmwf_sig_wave_height", ws_own agg)].
Definition ws_config (agg : string) : json := tab_config (ws_params agg).
Definition ws_settings (agg : string) : settings := mkSettings 0 10 0 20 "2017-02-01" "2017-02-04" 10 10 1 2 (ws_params agg).
Definition ws_down (agg : string) (z : Z) : xrds := match downsample (fun q => q) agg (2, 2) (from_south (ws_grid z)) with Ok ds => ds | Err _ => ws_grid z end.
Definition ws_feed (agg : string) : feed := mkFeed "swh" true agg 2 [] FillParent (for_day wv_day (ws_down agg 3) ++ for_day wv_day (ws_down agg 1))%list.
Lemma ws_says agg : says (ws_config agg) (ws_settings agg).
Proof.
  unfold ws_config, tab_config. do 4 eexists. split; [reflexivity|]. split; [reflexivity|]. split.
  - unfold region_says, ConfigSpec.number_at, text_at, only_keys. cbn [s_lat_min s_lat_max s_long_min s_long_max s_start s_end s_width s_height ws_settings].
    repeat split; try (eexists; split; [reflexivity|]; match goal with |- ConfigSpec.number (JInt ?z) _ => exact (num_int z) end).
    cbn [In]. intros k v H. repeat (destruct H as [[= <- _]|H]; [tauto|]). destruct H.
  - split; [reflexivity|]. split.
    + cbn [map ws_params ws_own s_loaders ws_settings]. repeat (apply Forall2_cons; [eexists; split; [reflexivity|]; unfold text_at, only_keys; cbn [fst snd]; repeat split;
        cbn [In]; intros k v H; repeat (destruct H as [[= <- _]|H]; [tauto|]); destruct H|]). apply Forall2_nil.
    + split; [reflexivity|]. unfold whole_at, only_keys. cbn [s_depth s_points ws_settings]. repeat split.
      * eexists. split; [reflexivity|constructor].
      * eexists. split; [reflexivity|constructor].
      * cbn [In]. intros k v H. repeat (destruct H as [[= <- _]|H]; [tauto|]). destruct H.
Qed.
Lemma ws_described agg : In agg ["MIN"; "MAX"; "MEAN"; "MEDIAN"; "COUNT"] -> sampled_wave (fun _ => []) true ws_open mix_bounds 2 ("ecmwf_sig_wave_height", ws_own agg) (ws_feed agg).
Proof.
  intros Ag.
  exists "", [wv_b; wv_old; wv_a], [wv_b; wv_a], (x_lat (ws_grid 1)), (x_long (ws_grid 1)), 2, 2, [for_day wv_day (ws_down agg 3); for_day wv_day (ws_down agg 1)].
  split; [cbn; repeat split; letters|]. split.
  { constructor; cbn [fst snd f_name f_agg f_min f_conds f_fill ws_feed].
    - unfold dict_ok, ws_own. nodup_keys.
    - reflexivity.
    - reflexivity.
    - exact Ag.
    - reflexivity.
    - exists "EPSG:4326". split; reflexivity.
    - reflexivity.
    - lia.
    - discriminate.
    - reflexivity.
    - reflexivity. }
  split; [reflexivity|]. split; [apply wv_forecasts; cbn; tauto|]. split.
  { right. intros f g v w If Ig C V W. apply wv_times in V as ->; [|destruct If as [<-|[<-|[]]]; cbn; tauto]. apply wv_times in W as ->; [|destruct Ig as [<-|[<-|[]]]; cbn; tauto].
    destruct If as [<-|[<-|[]]], Ig as [<-|[<-|[]]]; vm_compute in C; try discriminate; vm_compute; discriminate. }
  split. { intros i j x y L X Y; do 5 (try destruct i as [|i]); do 5 (try destruct j as [|j]); cbn in X, Y; try discriminate; try lia; try (destruct i; discriminate); try (destruct j; discriminate); injection X as <-; injection Y as <-; cbn; lra. }
  split. { intros i j x y L X Y; do 5 (try destruct i as [|i]); do 5 (try destruct j as [|j]); cbn in X, Y; try discriminate; try lia; try (destruct i; discriminate); try (destruct j; discriminate); injection X as <-; injection Y as <-; cbn; lra. }
  split. { intros x I. cbn in I. repeat (destruct I as [<-|I]; [cbn; lra|]). destruct I. }
  assert (K : forall z, in_blocks agg 2 2 (from_south (ws_grid z)) (ws_down agg z)).
  { intros z. destruct (downsample_blocks (fun q => q) agg 2 2 (from_south (ws_grid z))) as (ds' & E & H); [lia|lia|discriminate|exact Ag|]. unfold ws_down. rewrite E. exact H. }
  split; [|split; [|reflexivity]].
  - constructor; [|constructor; [|constructor]]; [exists (hours (2017, 1, 31) (wv_made wv_b) + wv_for wv_b), (ws_grid 3), (ws_down agg 3)|exists (hours (2017, 1, 31) (wv_made wv_a) + wv_for wv_a), (ws_grid 1), (ws_down agg 1)].
    + split; [apply wv_times; [cbn; tauto|reflexivity]|]. do 4 (split; [reflexivity|]). split; [apply K|]. f_equal.
    + split; [apply wv_times; [cbn; tauto|reflexivity]|]. do 4 (split; [reflexivity|]). split; [apply K|]. f_equal.
  - cbn [List.concat ws_feed f_data]. rewrite app_nil_r. reflexivity.
Qed.
Notation ws_construct := (construct_wave (fun q => q) ic_proj true ws_open wv_oras wd_bearing wd_nc ic_amsr ic_icenet ic_chart (fun q => 1 - q)%Q (fun q => q) gf_noise boxes edge_boxes (fun q => q) (fun q => q) vs_csv (fun _ => Err FileNotFoundError) tab_shapes).
Lemma ws_apart agg : labels_apart boxes [Point (Scalar (ws_feed agg))].
Proof.
  split; [|split].
  - intros s n [<-|[]] [<-|[]]; (split; [commaless|cbn; intuition discriminate]).
  - intros v [E|[]]. discriminate.
  - intros [|[|i]] [|[|j]] v t n Ne Hi Hj I; cbn in Hi, Hj; try discriminate; congruence.
Qed.
(** The hypotheses hold; the cells hold the means of the blocks. *)
Example C101_case :
  noisy gf_noise /\ grows boxes /\ lawful boxes (Q * Q) in_boxes /\ rectangles boxes in_boxes /\ in_world (o := boxes) in_boxes mix_bounds /\
  validate_mesh_config (fun _ => None) (ws_config "MEAN") = Ok tt /\ says (ws_config "MEAN") (ws_settings "MEAN") /\ from_json false 0 (ws_config "MEAN") = Ok mix_bounds /\ admissible mix_bounds 10 10 /\
  labels_apart boxes [Point (Scalar (ws_feed "MEAN"))] /\
  Forall2 (sampled_wave (fun _ => []) true ws_open mix_bounds 2) (s_loaders (ws_settings "MEAN")) [ws_feed "MEAN"] /\
  exists em, generate (fun _ => None) false 0 (fun _ => []) (fun _ => false) ws_construct 100 (ws_config "MEAN") = Ok em /\ shown em = [[("swh", 7 # 2)]; [("swh", 25 # 4)]]%Q.
Proof.
  split; [exact gf_noisy|]. split; [exact boxes_grow|]. split; [exact boxes_lawful|]. split; [exact boxes_rectangles|]. split; [exact PropsWhole.wh_world|].
  split; [vm_compute; reflexivity|]. split; [exact (ws_says "MEAN")|]. split; [vm_compute; reflexivity|]. split; [|split; [exact (ws_apart "MEAN")|split]].
  - split; [|split; [reflexivity|split; [reflexivity|]]].
    + split; [cbn; lra|]. right. do 2 eexists. split; [reflexivity|]. discriminate.
    + intros [H _]. cbn in H. lra.
  - constructor; [apply ws_described; cbn; tauto|constructor].
  - eexists. split; [vm_compute; reflexivity|]. vm_compute. reflexivity.
Qed.

(** Heights from outside the region (finding): the forecasts are not trimmed before they are
    taken in blocks, so that a block across the edge of the region carries heights from
    outside it: a cell holds as largest a height greater than all in the region. *)
Theorem C101_outside_refuted : exists cfg em x,
  generate (fun _ => None) false 0 (fun _ => []) (fun _ => false) ws_construct 100 cfg = Ok em /\
  (exists s f, says cfg s /\ Forall2 (sampled_wave (fun _ => []) true ws_open (em_bounds em) (s_points s)) (s_loaders s) [f] /\ f_agg f = "MAX") /\
  (exists c, In c (em_cells em) /\ sget (e_data c) "swh" = Some (JNum (Some x))) /\
  forall file ds p, ws_open file = Ok ds -> In p (xr_points ds) -> mem (region (em_bounds em)) (p_long p) (p_lat p) -> exists y, p_vals p = [Some y] /\ (y < x)%Q.
Proof.
  destruct (generate (fun _ => None) false 0 (fun _ => []) (fun _ => false) ws_construct 100 (ws_config "MAX")) as [em|] eqn:E; [|vm_compute in E; discriminate].
  vm_compute in E. injection E as <-. exists (ws_config "MAX"). eexists. exists 9%Q. split; [vm_compute; reflexivity|]. split.
  { exists (ws_settings "MAX"), (ws_feed "MAX"). split; [exact (ws_says "MAX")|]. split; [constructor; [apply (ws_described "MAX"); cbn; tauto|constructor]|reflexivity]. }
  split. { eexists. split; [right; left; reflexivity|reflexivity]. }
  intros file ds p O I M. unfold ws_open in O. destruct (String.eqb file wv_a); [|destruct (String.eqb file wv_b); [|discriminate]]; injection O as <-; vm_compute in I;
    repeat (destruct I as [<-|I]; [first [eexists; split; [reflexivity|vm_compute; reflexivity] | exfalso; destruct M as [M _]; cbn in M; lra]|]); destruct I.
Qed.
Print Assumptions C101_outside_refuted.
