(** Property theorem C97: from configured wind directions to the values of cells.
    Parameters as in PropsWhole.v, PropsGrfSources.v and PropsIceSources.v; [bearing v u] is
    the angle of the vector (u, v) in degrees.  The proofs are in WindSourcesProofs.v. *)
From Coq Require Import Permutation.
From Verif Require Import Shapes ShapeProofs Base Geo Graph Cell Loaders AddLoader VecLoader Builder Env Spec MeshSpec EnvSpec DataSpec QLib Construct ConstructSpec Names PyStr Dates DateSpec Config ConfigSpec Params ParamSpec
  Files FilesSpec FilesProofs PropsFiles Forecast ForecastSpec
  Reproject ReprojectSpec Pipeline PipeSpec ConfigProofs PipeProofs Sources SourcesSpec SourcesProofs PropsSources MixSpec MixProofs PropsMix VecSources VecSourcesSpec VecSourcesProofs PropsVecSources
  Lut LutSpec LutFiles LutFilesSpec LutFilesProofs LutSources TableSpec TableProofs TableFiles PropsLut PropsLutFiles PropsTable ShapeSources ShapeSourcesSpec ShapeSourcesProofs AllSources WholeSpec WholeProofs
  Grf GrfSpec GrfProofs PropsGrf GrfSources GrfSourcesSpec GrfSourcesProofs PropsGrfSources IceSources IceSourcesSpec IceSourcesProofs PropsIceSources WindSources WindSourcesSpec WindSourcesProofs.
From Verif Require ShapeSpec PropsWhole.
Open Scope string_scope.
Open Scope Z_scope.

(** For a validated configuration of sources as in C96 and wind directions: building ends
    with a mesh that survives writing and reading; its cells tile the region with exactly
    their contacts; and every cell is quartered and holds values as called for by all
    sources, the directions of the winds of the period, in [0, 360), among them. *)
Definition described_wind (o : planar) (P : Type) inside glob proj bearing open_amsr open_icenet open_ice read_table read_shapes read_csv open_nc sqrt dsin dcos cos sin noise b min_dp (src : string * params) (s : origin o) : Prop :=
  described_ice o P inside glob proj open_amsr open_icenet open_ice read_table read_shapes read_csv open_nc sqrt dsin dcos cos sin noise b min_dp src s \/
  exists f, s = Point (Scalar f) /\ wind_dir_feed glob open_nc bearing b min_dp src f.
Lemma wind_offered (o : planar) edge P inside (La : lawful o P inside) (Re : rectangles o inside) glob sqrt dsin dcos cos sin noise proj bearing open_amsr open_icenet open_ice read_csv open_nc read_table read_shapes b min_dp k src s0 :
  noisy noise -> in_world inside b -> plain_region b -> within b b ->
  described_wind o P inside glob proj bearing open_amsr open_icenet open_ice read_table read_shapes read_csv open_nc sqrt dsin dcos cos sin noise b min_dp src s0 ->
  (forall v, s0 = Point (Vector v) -> fit_names (v_names v)) ->
  exists s' t, offers o edge sqrt glob (construct_wind sqrt proj bearing open_nc open_amsr open_icenet open_ice cos sin noise o edge dsin dcos read_csv read_table read_shapes) b min_dp k src s' /\ oagree o b s' t /\
    described_wind o P inside glob proj bearing open_amsr open_icenet open_ice read_table read_shapes read_csv open_nc sqrt dsin dcos cos sin noise b min_dp src t /\ oalike o t s0.
Proof.
  intros No Hw.
  set (construct := construct_wind sqrt proj bearing open_nc open_amsr open_icenet open_ice cos sin noise o edge dsin dcos read_csv read_table read_shapes).
  intros R Pl [[[Ds|(s1 & -> & Ds)]|(f & -> & Ds)]|(f & -> & Ds)] Fn.
  - destruct (origin_offered o edge sqrt dsin dcos P inside La Re proj glob read_csv open_nc read_table read_shapes b Hw Pl min_dp k src s0 R Fn Ds) as (s' & t & Of & A & Dt & Al).
    exists s', t. split; [eapply offers_wind, offers_ice, offers_every; exact Of|]. split; [exact A|]. split; [left; left; left; exact Dt|exact Al].
  - destruct s1 as [f|v]; cbn [describes_field] in Ds.
    + destruct (field_supplied glob sqrt proj noise construct b min_dp k src f R No) as (f' & g & S & A & Dg & N); [reflexivity|exact Ds|].
      exists (Point (Scalar f')), (Point (Scalar g)). split; [exact S|]. split; [exact A|]. split; [left; left; right; eexists; split; [reflexivity|exact Dg]|exact N].
    + destruct (vector_field_supplied glob sqrt cos sin noise construct b min_dp k src v R No (Fn v eq_refl)) as (v' & w & S & A & Dg & N); [reflexivity|exact Ds|].
      exists (Point (Vector v')), (Point (Vector w)). split; [exact S|]. split; [exact A|]. split; [left; left; right; eexists; split; [reflexivity|exact Dg]|exact N].
  - assert (H : exists f', supplies glob construct sqrt b min_dp k src f' /\ agree b f' f).
    { destruct Ds as [Ds|[Ds|Ds]].
      - apply (amsr_supplied glob sqrt proj open_amsr construct b min_dp k src f R); [reflexivity|exact Ds].
      - apply (visual_ice_supplied glob sqrt proj open_ice construct b min_dp k src f R); [reflexivity|exact Ds].
      - apply (icenet_supplied glob sqrt proj open_icenet construct b min_dp k src f R); [reflexivity|exact Ds]. }
    destruct H as (f' & S & A). exists (Point (Scalar f')), (Point (Scalar f)). split; [exact S|]. split; [exact A|]. split; [left; right; eexists; split; [reflexivity|exact Ds]|reflexivity].
  - destruct (wind_dir_supplied glob sqrt proj bearing open_nc construct b min_dp k src f R) as (f' & g & S & A & Dg & N); [reflexivity|exact Ds|].
    exists (Point (Scalar f')), (Point (Scalar g)). split; [exact S|]. split; [exact A|]. split; [right; eexists; split; [reflexivity|exact Dg]|exact N].
Qed.
Theorem C97_whole_partial : forall (o : planar) edge P inside, grows o -> lawful o P inside -> rectangles o inside ->
  forall files pad now glob ft sqrt dsin dcos cos sin noise proj bearing open_amsr open_icenet open_ice read_csv open_nc read_table read_shapes cfg s b ss0, noisy noise ->
  validate_mesh_config files cfg = Ok tt -> says cfg s -> from_json pad now cfg = Ok b ->
  admissible b (s_width s) (s_height s) -> in_world inside b ->
  (s_lat_min s < s_lat_max s)%Q -> (s_lat_max s - s_lat_min s < 360)%Q -> 0 <= s_points s ->
  Forall2 (described_wind o P inside glob proj bearing open_amsr open_icenet open_ice read_table read_shapes read_csv open_nc sqrt dsin dcos cos sin noise b (s_points s)) (s_loaders s) ss0 ->
  labels_apart o ss0 ->
  exists ss fuel em em',
    Forall2 (described_wind o P inside glob proj bearing open_amsr open_icenet open_ice read_table read_shapes read_csv open_nc sqrt dsin dcos cos sin noise b (s_points s)) (s_loaders s) ss /\
    map (labels o) ss = map (labels o) ss0 /\
    (forall fuel', (fuel <= fuel')%nat ->
       generate files pad now glob ft (construct_wind sqrt proj bearing open_nc open_amsr open_icenet open_ice cos sin noise o edge dsin dcos read_csv read_table read_shapes) fuel' cfg = Ok em) /\
    load_from_json (to_json em) = Ok em' /\
    map e_id (em_cells em') = map e_id (em_cells em) /\ map e_data (em_cells em') = map e_data (em_cells em) /\
    map e_bounds (em_cells em') = map without_times (map e_bounds (em_cells em)) /\
    NoDup (map e_id (em_cells em')) /\ env_tiles (region b) (em_cells em') /\
    (~ spans_globe b -> lists_contacts touches (em_cells em') (em_graph em')) /\
    (spans_globe b -> lists_contacts touches_mod (em_cells em') (em_graph em')) /\
    (forall c, In c (em_cells em) -> as_offered o edge sqrt ss b (s_width s) (s_height s) (s_depth s) c).
Proof.
  intros o edge P inside Gr La Re files pad now glob ft sqrt dsin dcos cos sin noise proj bearing open_amsr open_icenet open_ice read_csv open_nc read_table read_shapes cfg s b ss0 No Hv Hs Hb Ha Hw Hl Hl' Hp Hf Hn.
  set (construct := construct_wind sqrt proj bearing open_nc open_amsr open_icenet open_ice cos sin noise o edge dsin dcos read_csv read_table read_shapes).
  apply (whole_offered o edge Gr files pad now glob ft construct sqrt
    (described_wind o P inside glob proj bearing open_amsr open_icenet open_ice read_table read_shapes read_csv open_nc sqrt dsin dcos cos sin noise) cfg s b ss0 Hv Hs Hb Ha Hl Hl' Hp); [|exact Hf|exact Hn].
  intros k src s0 R Pl Ds Fn. apply (wind_offered o edge P inside La Re glob); assumption.
Qed.
Print Assumptions C97_whole_partial.

(** A configuration that names MODIS (finding): it is never built, whatever else it says. *)
Theorem C97_modis_refuted : forall o edge files pad now glob ft sqrt dsin dcos cos sin noise proj bearing open_amsr open_icenet open_ice read_csv open_nc read_table read_shapes fuel cfg,
  asks_for cfg "modis" -> forall em,
  generate files pad now glob ft (construct_wind sqrt proj bearing open_nc open_amsr open_icenet open_ice cos sin noise o edge dsin dcos read_csv read_table read_shapes) fuel cfg <> Ok em.
Proof.
  intros o edge files pad now glob ft sqrt dsin dcos cos sin noise proj bearing open_amsr open_icenet open_ice read_csv open_nc read_table read_shapes fuel cfg A.
  apply (modis_fails files pad now glob ft _ sqrt proj open_nc fuel cfg); [|exact A]. intros k p b. reflexivity.
Qed.
Print Assumptions C97_modis_refuted.

(** ** A case *)
(** Winds to the west, now to the north, now to the south; one to the east; one unknown. *)
Definition wd_grid : xrds := mkXr [(8, 0%nat); (2, 1%nat)]%Q [(3, 0%nat); (13, 1%nat)]%Q None
  (fun i j _ => match i, j with 0%nat, 0%nat => [Some (-6); Some 1] | 1%nat, 0%nat => [Some (-6); Some (-1)] | 0%nat, _ => [Some 6; Some 1] | _, _ => [None; Some 1] end)%Q.
(** Close to the arctangent for angles so small. *)
Definition wd_bearing (v u : Q) : Q := (if qltb u 0 then (if qltb v 0 then -180 else 180) + 60 * v / u else 60 * v / u)%Q.
Definition wd_nc (cls : string) (files : list string) : res (list string * xrds) := match files with ["wave_data_2017-02-02.nc"] => Ok (["u10"; "v10"], wd_grid) | _ => Err FileNotFoundError end.
Definition wd_params : list (string * params) := [("ERA5_wind_dir", [("files", JArr [JStr "wave_data_2017-02-02.nc"; JStr "wave_data_2017-03-02.nc"])])].
Definition wd_config : json := tab_config wd_params.
Definition wd_settings : settings := mkSettings 0 10 0 20 "2017-02-01" "2017-02-04" 10 10 1 2 wd_params.
Definition wd_convert (l : list (option Q)) : list (option Q) := wind_dir wd_bearing l.
Definition wd_feed : feed := mkFeed "wind_dir" true "MEAN" 2 [] FillParent (map (fun p => mkP (p_lat p) (p_long p) (p_time p) (wd_convert (p_vals p))) (xr_points wd_grid)).
Lemma wd_says : says wd_config wd_settings.
Proof.
  unfold wd_config, tab_config. do 4 eexists. split; [reflexivity|]. split; [reflexivity|]. split.
  - unfold region_says, ConfigSpec.number_at, text_at, only_keys. cbn [s_lat_min s_lat_max s_long_min s_long_max s_start s_end s_width s_height wd_settings].
    repeat split; try (eexists; split; [reflexivity|]; match goal with |- number (JInt ?z) _ => exact (num_int z) end).
    cbn [In]. intros k v H. repeat (destruct H as [[= <- _]|H]; [tauto|]). destruct H.
  - split; [reflexivity|]. split.
    + cbn [map wd_params s_loaders wd_settings]. repeat (apply Forall2_cons; [eexists; split; [reflexivity|]; unfold text_at, only_keys; cbn [fst snd]; repeat split;
        cbn [In]; intros k v H; repeat (destruct H as [[= <- _]|H]; [tauto|]); destruct H|]). apply Forall2_nil.
    + split; [reflexivity|]. unfold whole_at, only_keys. cbn [s_depth s_points wd_settings]. repeat split.
      * eexists. split; [reflexivity|constructor].
      * eexists. split; [reflexivity|constructor].
      * cbn [In]. intros k v H. repeat (destruct H as [[= <- _]|H]; [tauto|]). destruct H.
Qed.
Lemma wd_described : wind_dir_feed (fun _ => []) wd_nc wd_bearing mix_bounds 2 ("ERA5_wind_dir", [("files", JArr [JStr "wave_data_2017-02-02.nc"; JStr "wave_data_2017-03-02.nc"])]) wd_feed.
Proof.
  exists ["wave_data_2017-02-02.nc"; "wave_data_2017-03-02.nc"], ["wave_data_2017-02-02.nc"], ["u10"; "v10"], wd_grid, (wind_dir wd_bearing).
  split; [cbn; repeat split; letters|]. split.
  { constructor; cbn [fst snd f_name f_agg f_min f_conds f_fill wd_feed].
    - unfold dict_ok. nodup_keys.
    - reflexivity.
    - reflexivity.
    - cbn. tauto.
    - reflexivity.
    - exists "EPSG:4326". split; reflexivity.
    - split; eexists; reflexivity.
    - left. reflexivity.
    - reflexivity.
    - reflexivity. }
  split; [reflexivity|]. split; [exact vs_period|]. split; [reflexivity|].
  split. { intros [|[|i]] [|[|j]] x y L X Y; cbn in *; try lia; try discriminate; try (destruct j; discriminate); injection X as <-; injection Y as <-; cbn; lra. }
  split; [split; [discriminate|intros X; contradiction]|]. split; [apply wind_dir_from|]. split; [|reflexivity].
  exists (f_data wd_feed). split; [|apply Permutation_refl]. cbn [f_data wd_feed].
  assert (A : forall l, (forall p, In p l -> -180 <= p_long p < 180)%Q -> Forall2 (fun p q => ImportSpec.moved p q /\ p_vals q = wind_dir wd_bearing (p_vals p)) l
    (map (fun p => mkP (p_lat p) (p_long p) (p_time p) (wd_convert (p_vals p))) l)).
  { induction l as [|p l IH]; intros B; [constructor|]. cbn [map]. constructor; [|apply IH; intros q I; apply B; right; exact I]. specialize (B p (or_introl eq_refl)).
    split; [|reflexivity]. split; [reflexivity|]. split; [reflexivity|]. cbn [p_long]. split; [exists 0; change (inject_Z 0) with 0%Q; lra|lra]. }
  apply A. intros p I. vm_compute in I. repeat (destruct I as [<-|I]; [cbn; lra|]). destruct I.
Qed.
Notation wd_construct := (construct_wind (fun q => q) ic_proj wd_bearing wd_nc ic_amsr ic_icenet ic_chart (fun q => 1 - q)%Q (fun q => q) gf_noise boxes edge_boxes (fun q => q) (fun q => q) vs_csv (fun _ => Err FileNotFoundError) tab_shapes).
Notation wd_origins := [Point (Scalar wd_feed)] (only parsing).
Lemma wd_apart : labels_apart boxes wd_origins.
Proof.
  split; [|split].
  - intros s n [<-|[]] [<-|[]]. split; [intros a b; do 13 (try destruct a as [|? a]); cbn; discriminate|cbn; intuition discriminate].
  - intros v [E|[]]; discriminate.
  - intros [|[|i]] [|[|j]] v t n Ne Hi Hj I; cbn in Hi, Hj; try discriminate; congruence.
Qed.
(** The hypotheses hold; the directions stand in the cells. *)
Definition shown (em : emesh) : list (list (string * Q)) :=
  map (fun c => map (fun kv => (fst kv, match snd kv with JNum (Some q) => Qred q | _ => -1 end)) (e_data c))%Q (em_cells em).
Example C97_case :
  noisy gf_noise /\ grows boxes /\ lawful boxes (Q * Q) in_boxes /\ rectangles boxes in_boxes /\ in_world (o := boxes) in_boxes mix_bounds /\
  validate_mesh_config (fun _ => None) wd_config = Ok tt /\ says wd_config wd_settings /\ from_json false 0 wd_config = Ok mix_bounds /\ admissible mix_bounds 10 10 /\
  labels_apart boxes wd_origins /\ Forall2 (wind_dir_feed (fun _ => []) wd_nc wd_bearing mix_bounds 2) (s_loaders wd_settings) [wd_feed] /\
  exists em, generate (fun _ => None) false 0 (fun _ => []) (fun _ => false) wd_construct 100 wd_config = Ok em /\ shown em = [[("wind_dir", 180)]; [("wind_dir", 190)]]%Q.
Proof.
  split; [exact gf_noisy|]. split; [exact boxes_grow|]. split; [exact boxes_lawful|]. split; [exact boxes_rectangles|]. split; [exact PropsWhole.wh_world|].
  split; [vm_compute; reflexivity|]. split; [exact wd_says|]. split; [vm_compute; reflexivity|]. split; [|split; [exact wd_apart|split]].
  - split; [|split; [reflexivity|split; [reflexivity|]]].
    + split; [cbn; lra|]. right. do 2 eexists. split; [reflexivity|]. discriminate.
    + intros [H _]. cbn in H. lra.
  - constructor; [exact wd_described|constructor].
  - eexists. split; [vm_compute; reflexivity|]. vm_compute. reflexivity.
Qed.
(** A MODIS source among others, accepted by the schema. *)
Example C97_modis_case : let cfg := tab_config [("Modis", [("file", JStr "modis.nc")])] in
  validate_mesh_config (fun _ => None) cfg = Ok tt /\ asks_for cfg "modis" /\
  generate (fun _ => None) false 0 (fun _ => []) (fun _ => false) wd_construct 100 cfg = Err AttributeError.
Proof.
  split; [vm_compute; reflexivity|]. split; [|vm_compute; reflexivity].
  do 4 eexists. split; [reflexivity|]. split; [left; reflexivity|]. split; [reflexivity|].
  split; [cbn; repeat split; try (left; reflexivity); right; exists 12%nat; (split; [lia|]); left; split; reflexivity|]. split; [reflexivity|]. unfold dict_ok. nodup_keys.
Qed.

(** The mean of directions (finding): all winds in a cell come from within 20 degrees of 0,
    the direction the cell holds is the opposite one. *)
Theorem C97_mean_refuted : exists cfg f em c v,
  generate (fun _ => None) false 0 (fun _ => []) (fun _ => false) wd_construct 100 cfg = Ok em /\
  (exists s, says cfg s /\ Forall2 (wind_dir_feed (fun _ => []) wd_nc wd_bearing (em_bounds em) (s_points s)) (s_loaders s) [f]) /\
  In c (em_cells em) /\ (exists p, In p (f_data f) /\ belongs (e_bounds c) p) /\
  (forall p, In p (f_data f) -> belongs (e_bounds c) p -> exists a, p_vals p = [Some a] /\ close_to 0 a) /\
  sget (e_data c) "wind_dir" = Some (JNum (Some v)) /\ ~ close_to 0 v /\ close_to 180 v.
Proof.
  destruct (generate (fun _ => None) false 0 (fun _ => []) (fun _ => false) wd_construct 100 wd_config) as [em|] eqn:E; [|vm_compute in E; discriminate].
  vm_compute in E. injection E as <-. exists wd_config, wd_feed. do 3 eexists. split; [vm_compute; reflexivity|]. split.
  { exists wd_settings. split; [exact wd_says|]. constructor; [exact wd_described|constructor]. }
  split; [left; reflexivity|]. split.
  { eexists. split; [left; reflexivity|]. cbn. unfold belongs, mem, on_date. cbn. repeat split; lra. }
  split.
  { intros p I B. vm_compute in I. destruct I as [<-|[<-|[<-|[<-|[]]]]].
    - eexists. split; [reflexivity|]. exists 1. vm_compute. split; reflexivity.
    - exfalso. destruct B as [B _]. cbn in B. unfold mem in B. cbn in B. lra.
    - eexists. split; [reflexivity|]. exists 0. vm_compute. split; reflexivity.
    - exfalso. destruct B as [B _]. cbn in B. unfold mem in B. cbn in B. lra. }
  split; [reflexivity|]. split.
  - intros (n & H1 & H2). 
    assert (A : (inject_Z (9 * n) < inject_Z 5)%Q) by (rewrite inject_Z_mult; change (inject_Z 9) with 9%Q; change (inject_Z 5) with 5%Q; lra).
    assert (B : (inject_Z 4 < inject_Z (9 * n))%Q) by (rewrite inject_Z_mult; change (inject_Z 9) with 9%Q; change (inject_Z 4) with 4%Q; lra).
    rewrite <- Zlt_Qlt in A, B. lia.
  - exists 0. vm_compute. split; reflexivity.
Qed.
Print Assumptions C97_mean_refuted.
