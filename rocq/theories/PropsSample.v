(** Property theorem C98: downsampled grids in the whole way to the mesh.  Parameters as in
    PropsWindSources.v.  The proofs are in SampleProofs.v. *)
From Coq Require Import Permutation.
From Verif Require Import Shapes ShapeProofs Base Geo Graph Cell Loaders AddLoader VecLoader Builder Env Spec MeshSpec EnvSpec DataSpec QLib Construct ConstructSpec Names PyStr Dates DateSpec Config ConfigSpec Params ParamSpec
  Files FilesSpec FilesProofs PropsFiles Forecast ForecastSpec
  Reproject ReprojectSpec Pipeline PipeSpec ConfigProofs PipeProofs Sources SourcesSpec SourcesProofs PropsSources MixSpec MixProofs PropsMix VecSources VecSourcesSpec VecSourcesProofs PropsVecSources
  Lut LutSpec LutFiles LutFilesSpec LutFilesProofs LutSources TableSpec TableProofs TableFiles PropsLut PropsLutFiles PropsTable ShapeSources ShapeSourcesSpec ShapeSourcesProofs AllSources WholeSpec WholeProofs
  Grf GrfSpec GrfProofs PropsGrf GrfSources GrfSourcesSpec GrfSourcesProofs PropsGrfSources IceSources IceSourcesSpec IceSourcesProofs PropsIceSources WindSources WindSourcesSpec WindSourcesProofs PropsWindSources
  Downsample DownSpec DownProofs PropsDown SampleSpec SampleProofs.
From Verif Require ShapeSpec PropsWhole.
Open Scope string_scope.
Open Scope Z_scope.

(** For a validated configuration of sources as in C97, those of C79 on grids also
    downsampled by any factors: building ends with a mesh that survives writing and reading;
    its cells tile the region with exactly their contacts; and every cell is quartered and
    holds values as called for by all sources, where a downsampled grid counts as its
    blocks. *)
Definition described_sampled (o : planar) (P : Type) inside glob proj bearing open_amsr open_icenet open_ice read_table read_shapes read_csv open_nc sqrt dsin dcos cos sin noise b min_dp (src : string * params) (s : origin o) : Prop :=
  described_wind o P inside glob proj bearing open_amsr open_icenet open_ice read_table read_shapes read_csv open_nc sqrt dsin dcos cos sin noise b min_dp src s \/
  exists f, s = Point (Scalar f) /\ sampled_feed glob open_nc sqrt b min_dp src f.
Theorem C98_whole_partial : forall (o : planar) edge P inside, grows o -> lawful o P inside -> rectangles o inside ->
  forall files pad now glob ft sqrt dsin dcos cos sin noise proj bearing open_amsr open_icenet open_ice read_csv open_nc read_table read_shapes cfg s b ss0, noisy noise ->
  validate_mesh_config files cfg = Ok tt -> says cfg s -> from_json pad now cfg = Ok b ->
  admissible b (s_width s) (s_height s) -> in_world inside b ->
  (s_lat_min s < s_lat_max s)%Q -> (s_lat_max s - s_lat_min s < 360)%Q -> 0 <= s_points s ->
  Forall2 (described_sampled o P inside glob proj bearing open_amsr open_icenet open_ice read_table read_shapes read_csv open_nc sqrt dsin dcos cos sin noise b (s_points s)) (s_loaders s) ss0 ->
  labels_apart o ss0 ->
  exists ss fuel em em',
    Forall2 (described_sampled o P inside glob proj bearing open_amsr open_icenet open_ice read_table read_shapes read_csv open_nc sqrt dsin dcos cos sin noise b (s_points s)) (s_loaders s) ss /\
    map (labels o) ss = map (labels o) ss0 /\
    (forall fuel', (fuel <= fuel')%nat ->
       generate files pad now glob ft (construct_wind sqrt proj bearing open_nc open_amsr open_icenet open_ice cos sin noise o edge dsin dcos read_csv read_table read_shapes) fuel' cfg = Ok em) /\
    load_from_json (to_json em) = Ok em' /\
    map e_id (em_cells em') = map e_id (em_cells em) /\ map e_data (em_cells em') = map e_data (em_cells em) /\
    map e_bounds (em_cells em') = map without_times (map e_bounds (em_cells em)) /\
    NoDup (map e_id (em_cells em')) /\ env_tiles (region b) (em_cells em') /\
    (~ spans_globe b -> lists_contacts touches (em_cells em') (em_graph em')) /\
    (spans_globe b -> lists_contacts touches_mod (em_cells em') (em_graph em')) /\
    (forall c, In c (em_cells em) -> as_offered o edge sqrt ss b (s_width s) (s_height s) (s_depth s) c).
Proof.
  intros o edge P inside Gr La Re files pad now glob ft sqrt dsin dcos cos sin noise proj bearing open_amsr open_icenet open_ice read_csv open_nc read_table read_shapes cfg s b ss0 No Hv Hs Hb Ha Hw Hl Hl' Hp Hf Hn.
  set (construct := construct_wind sqrt proj bearing open_nc open_amsr open_icenet open_ice cos sin noise o edge dsin dcos read_csv read_table read_shapes).
  apply (whole_offered o edge Gr files pad now glob ft construct sqrt
    (described_sampled o P inside glob proj bearing open_amsr open_icenet open_ice read_table read_shapes read_csv open_nc sqrt dsin dcos cos sin noise) cfg s b ss0 Hv Hs Hb Ha Hl Hl' Hp); [|exact Hf|exact Hn].
  intros k src s0 R Pl [Ds|(f & -> & Ds)] Fn.
  - destruct (wind_offered o edge P inside La Re glob sqrt dsin dcos cos sin noise proj bearing open_amsr open_icenet open_ice read_csv open_nc read_table read_shapes b (s_points s) k src s0 No Hw R Pl Ds Fn) as (s' & t & Of & A & Dt & Al).
    exists s', t. split; [exact Of|]. split; [exact A|]. split; [left; exact Dt|exact Al].
  - destruct (sampled_supplied glob sqrt proj open_nc construct b (s_points s) k src f R) as (g & S & Dg & N); [|exact Ds|].
    { intros p files0 name cls kept ds d G. unfold construct. destruct G; try reflexivity. repeat destruct H as [[= <- <-]|H]; try reflexivity. destruct H. }
    exists (Point (Scalar g)), (Point (Scalar g)). split; [exact S|]. split; [apply agree_refl|]. split; [right; eexists; split; [reflexivity|exact Dg]|exact N].
Qed.
Print Assumptions C98_whole_partial.

(** Downsampling when asked to count keeps every n-th latitude and every m-th longitude with
    their values. *)
Theorem C61_count : forall sqrt m n ds, 0 < m -> 0 < n -> (m, n) <> (1, 1) -> exists ds', downsample sqrt "COUNT" (m, n) ds = Ok ds' /\ first_of_blocks m n ds ds'.
Proof. exact counted. Qed.
Print Assumptions C61_count.

(** ** A case *)
(** Four by four points, one unknown. *)
Definition sp_grid : xrds := mkXr [(2, 0%nat); (4, 1%nat); (6, 2%nat); (8, 3%nat)]%Q [(3, 0%nat); (6, 1%nat); (8, 2%nat); (14, 3%nat)]%Q None
  (fun i j _ => [if Nat.eqb (i + j) 0 then None else if Nat.eqb j 2 then Some (inject_Z (Z.of_nat (100 + i))) else Some (inject_Z (Z.of_nat (10 * i + j)))]).
Definition sp_nc (cls : string) (files : list string) : res (list string * xrds) := match files with ["gebco.nc"] => Ok (["elevation"], sp_grid) | _ => Err FileNotFoundError end.
Definition sp_own : params := [("file", JStr "gebco.nc"); ("downsample_factors", JArr [JInt 2; JInt 2]); ("aggregate_type", JStr "MAX")].
Definition sp_params : list (string * params) := [("gebco", sp_own)].
Definition sp_config : json := tab_config sp_params.
Definition sp_settings : settings := mkSettings 0 10 0 20 "2017-02-01" "2017-02-04" 10 10 1 2 sp_params.
Definition sp_down : xrds := match downsample (fun q => q) "MAX" (2, 2) sp_grid with Ok ds => ds | Err _ => sp_grid end.
Definition sp_feed : feed := mkFeed "elevation" true "MAX" 2 [] FillParent (xr_points sp_down).
Lemma sp_says : says sp_config sp_settings.
Proof.
  unfold sp_config, tab_config. do 4 eexists. split; [reflexivity|]. split; [reflexivity|]. split.
  - unfold region_says, ConfigSpec.number_at, text_at, only_keys. cbn [s_lat_min s_lat_max s_long_min s_long_max s_start s_end s_width s_height sp_settings].
    repeat split; try (eexists; split; [reflexivity|]; match goal with |- ConfigSpec.number (JInt ?z) _ => exact (num_int z) end).
    cbn [In]. intros k v H. repeat (destruct H as [[= <- _]|H]; [tauto|]). destruct H.
  - split; [reflexivity|]. split.
    + cbn [map sp_params sp_own s_loaders sp_settings]. repeat (apply Forall2_cons; [eexists; split; [reflexivity|]; unfold text_at, only_keys; cbn [fst snd]; repeat split;
        cbn [In]; intros k v H; repeat (destruct H as [[= <- _]|H]; [tauto|]); destruct H|]). apply Forall2_nil.
    + split; [reflexivity|]. unfold whole_at, only_keys. cbn [s_depth s_points sp_settings]. repeat split.
      * eexists. split; [reflexivity|constructor].
      * eexists. split; [reflexivity|constructor].
      * cbn [In]. intros k v H. repeat (destruct H as [[= <- _]|H]; [tauto|]). destruct H.
Qed.
Lemma sp_described : sampled_feed (fun _ => []) sp_nc (fun q => q) mix_bounds 2 ("gebco", sp_own) sp_feed.
Proof.
  destruct (downsample_made (fun q => q) "MAX" 2 2 sp_grid) as (ds' & E & H); [lia|lia|discriminate|cbn; tauto|].
  exists "gebco", "GEBCODataLoader", "elevation", ["elevation"], ["gebco.nc"], ["gebco.nc"], sp_grid, 2, 2, (xr_points sp_grid), sp_grid, ds'.
  assert (O : ordered sp_grid).
  { split; [|split; [|discriminate]]; intros i j x y L X Y; do 5 (try destruct i as [|i]); do 5 (try destruct j as [|j]); cbn in X, Y; try discriminate; try lia; try (destruct i; discriminate); try (destruct j; discriminate); injection X as <-; injection Y as <-; cbn; lra. }
  split; [cbn; repeat split; left; reflexivity|]. split.
  { constructor; cbn [fst snd f_name f_agg f_min f_conds f_fill sp_feed].
    - unfold dict_ok. nodup_keys.
    - reflexivity.
    - reflexivity.
    - cbn. tauto.
    - reflexivity.
    - exists "EPSG:4326". split; reflexivity.
    - reflexivity.
    - lia.
    - discriminate.
    - reflexivity.
    - reflexivity. }
  split; [exists "gebco.nc"; split; reflexivity|]. split; [reflexivity|]. split; [reflexivity|]. split; [cbn; intuition discriminate|]. split; [split; [discriminate|intros X; contradiction]|].
  split; [constructor; [apply O|apply O|apply Permutation_refl]|]. split.
  { apply ConstructProofs.selected_all. intros p I. vm_compute in I. repeat (destruct I as [<-|I]; [split; [split; split; vm_compute; first [reflexivity|discriminate]|exact Logic.I]|]). destruct I. }
  split; [exact O|]. split; [exact H|]. split; [|reflexivity]. unfold sp_feed, sp_down. cbn [f_data]. rewrite E. reflexivity.
Qed.
Notation sp_construct := (construct_wind (fun q => q) ic_proj wd_bearing sp_nc ic_amsr ic_icenet ic_chart (fun q => 1 - q)%Q (fun q => q) gf_noise boxes edge_boxes (fun q => q) (fun q => q) vs_csv (fun _ => Err FileNotFoundError) tab_shapes).
Notation sp_origins := [Point (Scalar sp_feed)] (only parsing).
Lemma sp_apart : labels_apart boxes sp_origins.
Proof.
  split; [|split].
  - intros s n [<-|[]] [<-|[]]. split; [intros a b; do 13 (try destruct a as [|? a]); cbn; discriminate|cbn; intuition discriminate].
  - intros v [E|[]]; discriminate.
  - intros [|[|i]] [|[|j]] v t n Ne Hi Hj I; cbn in Hi, Hj; try discriminate; congruence.
Qed.
(** The hypotheses hold; the cells hold the blocks. *)
Example C98_case :
  noisy gf_noise /\ grows boxes /\ lawful boxes (Q * Q) in_boxes /\ rectangles boxes in_boxes /\ in_world (o := boxes) in_boxes mix_bounds /\
  validate_mesh_config (fun _ => None) sp_config = Ok tt /\ says sp_config sp_settings /\ from_json false 0 sp_config = Ok mix_bounds /\ admissible mix_bounds 10 10 /\
  labels_apart boxes sp_origins /\ Forall2 (sampled_feed (fun _ => []) sp_nc (fun q => q) mix_bounds 2) (s_loaders sp_settings) [sp_feed] /\
  exists em, generate (fun _ => None) false 0 (fun _ => []) (fun _ => false) sp_construct 100 sp_config = Ok em /\ shown em = [[("elevation", 31)]; [("elevation", 103)]]%Q.
Proof.
  split; [exact gf_noisy|]. split; [exact boxes_grow|]. split; [exact boxes_lawful|]. split; [exact boxes_rectangles|]. split; [exact PropsWhole.wh_world|].
  split; [vm_compute; reflexivity|]. split; [exact sp_says|]. split; [vm_compute; reflexivity|]. split; [|split; [exact sp_apart|split]].
  - split; [|split; [reflexivity|split; [reflexivity|]]].
    + split; [cbn; lra|]. right. do 2 eexists. split; [reflexivity|]. discriminate.
    + intros [H _]. cbn in H. lra.
  - constructor; [exact sp_described|constructor].
  - eexists. split; [vm_compute; reflexivity|]. vm_compute. reflexivity.
Qed.

(** Blocks across an edge (finding): the greatest value a cell holds is greater than all
    values of the file in the cell; it is that of a point in the next cell. *)
Theorem C98_edge_refuted : exists cfg em c v ds,
  generate (fun _ => None) false 0 (fun _ => []) (fun _ => false) sp_construct 100 cfg = Ok em /\
  (exists s f, says cfg s /\ Forall2 (sampled_feed (fun _ => []) sp_nc (fun q => q) (em_bounds em) (s_points s)) (s_loaders s) [f] /\ f_agg f = "MAX") /\
  sp_nc "GEBCODataLoader" ["gebco.nc"] = Ok (["elevation"], ds) /\
  In c (em_cells em) /\ sget (e_data c) "elevation" = Some (JNum (Some v)) /\
  (exists p, In p (xr_points ds) /\ belongs (e_bounds c) p) /\
  (forall p, In p (xr_points ds) -> belongs (e_bounds c) p -> exists q, p_vals p = [Some q] /\ q < v)%Q.
Proof.
  destruct (generate (fun _ => None) false 0 (fun _ => []) (fun _ => false) sp_construct 100 sp_config) as [em|] eqn:E; [|vm_compute in E; discriminate].
  vm_compute in E. injection E as <-. exists sp_config. eexists. do 2 eexists. exists sp_grid. split; [vm_compute; reflexivity|]. split.
  { exists sp_settings, sp_feed. split; [exact sp_says|]. split; [constructor; [exact sp_described|constructor]|reflexivity]. }
  split; [reflexivity|]. split; [right; left; reflexivity|]. split; [reflexivity|]. split.
  { eexists. split; [right; right; right; left; reflexivity|]. cbn. unfold belongs, mem, on_date. cbn. repeat split; lra. }
  intros p I B. vm_compute in I. repeat (destruct I as [<-|I]; [first [exfalso; destruct B as [B _]; cbn in B; unfold mem in B; cbn in B; lra | eexists; split; [reflexivity|vm_compute; reflexivity]]|]). destruct I.
Qed.
Print Assumptions C98_edge_refuted.
