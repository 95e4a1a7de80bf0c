(** Property theorem C99: from configured wave heights of ECMWF and currents of ORAS5 to the
    values of cells.  Parameters as in PropsSample.v; [strict] means pandas of version 2 or
    later.  The proofs are in WaveSourcesProofs.v. *)
From Coq Require Import Permutation.
From Verif Require Import Shapes ShapeProofs Base Geo Graph Cell Loaders AddLoader VecLoader Builder Env Spec MeshSpec EnvSpec DataSpec QLib Construct ConstructSpec Names PyStr Dates DateSpec Config ConfigSpec Params ParamSpec
  Files FilesSpec FilesProofs PropsFiles Forecast ForecastSpec
  Reproject ReprojectSpec Pipeline PipeSpec ConfigProofs PipeProofs Sources SourcesSpec SourcesProofs PropsSources MixSpec MixProofs PropsMix VecSources VecSourcesSpec VecSourcesProofs PropsVecSources
  Lut LutSpec LutFiles LutFilesSpec LutFilesProofs LutSources TableSpec TableProofs TableFiles PropsLut PropsLutFiles PropsTable ShapeSources ShapeSourcesSpec ShapeSourcesProofs AllSources WholeSpec WholeProofs
  Grf GrfSpec GrfProofs PropsGrf GrfSources GrfSourcesSpec GrfSourcesProofs PropsGrfSources IceSources IceSourcesSpec IceSourcesProofs PropsIceSources WindSources WindSourcesSpec WindSourcesProofs PropsWindSources
  SampleSpec SampleProofs PropsSample WaveSources WaveSourcesSpec WaveSourcesProofs.
From Verif Require ShapeSpec PropsWhole.
Open Scope string_scope.
Open Scope Z_scope.

(** For a validated configuration of sources as in C98, wave heights and currents: building
    ends with a mesh that survives writing and reading; its cells tile the region with
    exactly their contacts; and every cell is quartered and holds values as called for by
    all sources, the heights forecast by the last run before the period among them.  With
    pandas 2 or later, the hours of the forecasts must be in the order of their names from
    the last to the first. *)
Definition described_waves (o : planar) (P : Type) inside glob proj strict open_wave open_oras bearing open_amsr open_icenet open_ice read_table read_shapes read_csv open_nc sqrt dsin dcos cos sin noise b min_dp (src : string * params) (s : origin o) : Prop :=
  described_sampled o P inside glob proj bearing open_amsr open_icenet open_ice read_table read_shapes read_csv open_nc sqrt dsin dcos cos sin noise b min_dp src s \/
  (exists f, s = Point (Scalar f) /\ wave_feed glob strict open_wave b min_dp src f) \/
  exists v, s = Point (Vector v) /\ oras5_feed glob open_oras b min_dp src v.
Theorem C99_whole_partial : forall (o : planar) edge P inside, grows o -> lawful o P inside -> rectangles o inside ->
  forall files pad now glob ft sqrt dsin dcos cos sin noise proj strict open_wave open_oras bearing open_amsr open_icenet open_ice read_csv open_nc read_table read_shapes cfg s b ss0, noisy noise ->
  validate_mesh_config files cfg = Ok tt -> says cfg s -> from_json pad now cfg = Ok b ->
  admissible b (s_width s) (s_height s) -> in_world inside b ->
  (s_lat_min s < s_lat_max s)%Q -> (s_lat_max s - s_lat_min s < 360)%Q -> 0 <= s_points s ->
  Forall2 (described_waves o P inside glob proj strict open_wave open_oras bearing open_amsr open_icenet open_ice read_table read_shapes read_csv open_nc sqrt dsin dcos cos sin noise b (s_points s)) (s_loaders s) ss0 ->
  labels_apart o ss0 ->
  exists ss fuel em em',
    Forall2 (described_waves o P inside glob proj strict open_wave open_oras bearing open_amsr open_icenet open_ice read_table read_shapes read_csv open_nc sqrt dsin dcos cos sin noise b (s_points s)) (s_loaders s) ss /\
    map (labels o) ss = map (labels o) ss0 /\
    (forall fuel', (fuel <= fuel')%nat ->
       generate files pad now glob ft (construct_wave sqrt proj strict open_wave open_oras bearing open_nc open_amsr open_icenet open_ice cos sin noise o edge dsin dcos read_csv read_table read_shapes) fuel' cfg = Ok em) /\
    load_from_json (to_json em) = Ok em' /\
    map e_id (em_cells em') = map e_id (em_cells em) /\ map e_data (em_cells em') = map e_data (em_cells em) /\
    map e_bounds (em_cells em') = map without_times (map e_bounds (em_cells em)) /\
    NoDup (map e_id (em_cells em')) /\ env_tiles (region b) (em_cells em') /\
    (~ spans_globe b -> lists_contacts touches (em_cells em') (em_graph em')) /\
    (spans_globe b -> lists_contacts touches_mod (em_cells em') (em_graph em')) /\
    (forall c, In c (em_cells em) -> as_offered o edge sqrt ss b (s_width s) (s_height s) (s_depth s) c).
Proof.
  intros o edge P inside Gr La Re files pad now glob ft sqrt dsin dcos cos sin noise proj strict open_wave open_oras bearing open_amsr open_icenet open_ice read_csv open_nc read_table read_shapes cfg s b ss0 No Hv Hs Hb Ha Hw Hl Hl' Hp Hf Hn.
  set (construct := construct_wave sqrt proj strict open_wave open_oras bearing open_nc open_amsr open_icenet open_ice cos sin noise o edge dsin dcos read_csv read_table read_shapes).
  apply (whole_offered o edge Gr files pad now glob ft construct sqrt
    (described_waves o P inside glob proj strict open_wave open_oras bearing open_amsr open_icenet open_ice read_table read_shapes read_csv open_nc sqrt dsin dcos cos sin noise) cfg s b ss0 Hv Hs Hb Ha Hl Hl' Hp); [|exact Hf|exact Hn].
  intros k src s0 R Pl [[Ds|(f & -> & Ds)]|[(f & -> & Ds)|(v & -> & Ds)]] Fn.
  - destruct (wind_offered o edge P inside La Re glob sqrt dsin dcos cos sin noise proj bearing open_amsr open_icenet open_ice read_csv open_nc read_table read_shapes b (s_points s) k src s0 No Hw R Pl Ds Fn) as (s' & t & Of & A & Dt & Al).
    exists s', t. split; [apply offers_wave; exact Of|]. split; [exact A|]. split; [left; left; exact Dt|exact Al].
  - destruct (sampled_supplied glob sqrt proj open_nc construct b (s_points s) k src f R) as (g & S & Dg & N); [|exact Ds|].
    { intros p files0 name cls kept ds d G. unfold construct. destruct G; try reflexivity. repeat destruct H as [[= <- <-]|H]; try reflexivity. destruct H. }
    exists (Point (Scalar g)), (Point (Scalar g)). split; [exact S|]. split; [apply agree_refl|]. split; [left; right; eexists; split; [reflexivity|exact Dg]|exact N].
  - destruct (wave_supplied glob sqrt strict open_wave construct b (s_points s) k src f R) as (f' & g & S & A & Dg & N); [reflexivity|exact Ds|].
    exists (Point (Scalar f')), (Point (Scalar g)). split; [exact S|]. split; [exact A|]. split; [right; left; eexists; split; [reflexivity|exact Dg]|exact N].
  - destruct (oras5_supplied glob sqrt open_oras construct b (s_points s) k src v R (Fn v eq_refl)) as (v' & w & S & A & Dg & N); [reflexivity|exact Ds|].
    exists (Point (Vector v')), (Point (Vector w)). split; [exact S|]. split; [exact A|]. split; [right; right; eexists; split; [reflexivity|exact Dg]|exact N].
Qed.
Print Assumptions C99_whole_partial.

(** A configuration that names ORAS5 when its files are on their own grid (finding): it is
    never built, whatever else it says. *)
Theorem C99_oras5_refuted : forall o edge files pad now glob ft sqrt dsin dcos cos sin noise proj strict open_wave open_oras bearing open_amsr open_icenet open_ice read_csv open_nc read_table read_shapes fuel cfg,
  (forall l, exists e, open_oras l = Ok OnGrid \/ open_oras l = Err e) -> asks_for cfg "oras5_currents" -> forall em,
  generate files pad now glob ft (construct_wave sqrt proj strict open_wave open_oras bearing open_nc open_amsr open_icenet open_ice cos sin noise o edge dsin dcos read_csv read_table read_shapes) fuel cfg <> Ok em.
Proof.
  intros o edge files pad now glob ft sqrt dsin dcos cos sin noise proj strict open_wave open_oras bearing open_amsr open_icenet open_ice read_csv open_nc read_table read_shapes fuel cfg Og A.
  apply (source_fails files pad now glob ft _ fuel cfg "oras5_currents"); [|exact A]. intros n p min_dp cls p1 p' k b r Sn G D.
  destruct (oras5_never glob n p min_dp cls p1 p' sqrt open_oras k b Og Sn G D) as (-> & N). apply N.
Qed.
Print Assumptions C99_oras5_refuted.

(** ** A case *)
(** Forecasts made on 31 January at 18:00 for 3:00 and 6:00 on the next day, and older
    ones; currents. *)
Definition wv_grid (z : Z) : xrds := mkXr [(8, 0%nat); (2, 1%nat)]%Q [(3, 0%nat); (13, 1%nat)]%Q None (fun i j _ => [if Nat.eqb (i + j) 2 then None else Some (inject_Z (z + Z.of_nat j))]).
Definition wv_a : string := "20170131180000-9h-wave-fc.grib2".
Definition wv_b : string := "20170131180000-12h-wave-fc.grib2".
Definition wv_c : string := "20170131180000-15h-wave-fc.grib2".
Definition wv_old : string := "20170131060000-24h-wave-fc.grib2".
Definition wv_open (f : string) : res xrds := if String.eqb f wv_a then Ok (wv_grid 1) else if String.eqb f wv_b then Ok (wv_grid 3) else if String.eqb f wv_c then Ok (wv_grid 5) else Err FileNotFoundError.
Definition wv_currents : xrds := mkXr [(2, 0%nat); (8, 1%nat)]%Q [(3, 0%nat); (13, 1%nat)]%Q None (fun i j _ => [Some (inject_Z (Z.of_nat i)); Some 4])%Q.
Definition wv_oras (l : list string) : res oras5_file := match l with ["c.nc"] => Ok (OnAxes wv_currents) | _ => Ok OnGrid end.
Definition wv_own (l : list string) : params := [("files", JArr (map JStr l))].
Definition wv_params (l : list string) : list (string * params) := [("ecmwf_sig_wave_height", wv_own l); ("oras5_currents", cu_params)].
Definition wv_settings (l : list string) : settings := mkSettings 0 10 0 20 "2017-02-01" "2017-02-04" 10 10 1 2 (wv_params l).
Definition wv_feed (d : data) : feed := mkFeed "swh" true "MEAN" 2 [] FillParent d.
Definition wv_vector : vfeed := mkVFeed ["uC"; "vC"] true "MEAN" 2 [] (xr_points wv_currents).
Definition wv_day : Z := ord (2017, 2, 1).
Lemma wv_says l : says (tab_config (wv_params l)) (wv_settings l).
Proof.
  unfold tab_config. do 4 eexists. split; [reflexivity|]. split; [reflexivity|]. split.
  - unfold region_says, ConfigSpec.number_at, text_at, only_keys. cbn [s_lat_min s_lat_max s_long_min s_long_max s_start s_end s_width s_height wv_settings].
    repeat split; try (eexists; split; [reflexivity|]; match goal with |- ConfigSpec.number (JInt ?z) _ => exact (num_int z) end).
    cbn [In]. intros k v H. repeat (destruct H as [[= <- _]|H]; [tauto|]). destruct H.
  - split; [reflexivity|]. split.
    + cbn [map wv_params s_loaders wv_settings]. repeat (apply Forall2_cons; [eexists; split; [reflexivity|]; unfold text_at, only_keys; cbn [fst snd]; repeat split;
        cbn [In]; intros k v H; repeat (destruct H as [[= <- _]|H]; [tauto|]); destruct H|]). apply Forall2_nil.
    + split; [reflexivity|]. unfold whole_at, only_keys. cbn [s_depth s_points wv_settings]. repeat split.
      * eexists. split; [reflexivity|constructor].
      * eexists. split; [reflexivity|constructor].
      * cbn [In]. intros k v H. repeat (destruct H as [[= <- _]|H]; [tauto|]). destruct H.
Qed.
Lemma wv_january : a_date (2017, 1, 31).
Proof. repeat split; try (exists 31; split; [apply ml_31; cbn; tauto|lia]); cbn; lia. Qed.
Definition wv_made (f : string) : Z := if String.eqb f wv_old then 6 else 18.
Definition wv_for (f : string) : Z := if String.eqb f wv_a then 9 else if String.eqb f wv_b then 12 else if String.eqb f wv_c then 15 else 24.
Lemma wv_name f : In f [wv_a; wv_b; wv_c; wv_old] -> name_ecmwf "" f (2017, 1, 31) (wv_made f) (wv_for f).
Proof.
  intros [<-|[<-|[<-|[<-|[]]]]].
  - exists "2017", "01", "31", "18", "9", "h", "wave", "fc.grib2". a_name.
  - exists "2017", "01", "31", "18", "12", "h", "wave", "fc.grib2". a_name.
  - exists "2017", "01", "31", "18", "15", "h", "wave", "fc.grib2". a_name.
  - exists "2017", "01", "31", "06", "24", "h", "wave", "fc.grib2". a_name.
Qed.
Lemma some_inj {A} (x y : A) : Some x = Some y -> x = y.
Proof. congruence. Qed.
Lemma wv_times f v : In f [wv_a; wv_b; wv_c; wv_old] -> (made_at "" f v <-> v = hours (2017, 1, 31) (wv_made f)) /\ (valid_at "" f v <-> v = hours (2017, 1, 31) (wv_made f) + wv_for f).
Proof.
  intros I. pose proof (wv_name f I) as N. destruct (made_ok "" f (2017, 1, 31) (wv_made f) (wv_for f) (or_introl eq_refl) N wv_january) as (M1 & M2). split; split.
  - intros (date & h & n & N' & A & ->). pose proof (proj1 (made_ok "" f date h n (or_introl eq_refl) N' A)) as M. symmetry. exact (some_inj _ _ (eq_trans (eq_sym M1) M)).
  - intros ->. exists (2017, 1, 31), (wv_made f), (wv_for f). split; [exact N|]. split; [exact wv_january|reflexivity].
  - intros (date & h & n & N' & A & ->). pose proof (proj2 (made_ok "" f date h n (or_introl eq_refl) N' A)) as M. symmetry. exact (some_inj _ _ (eq_trans (eq_sym M2) M)).
  - intros ->. exists (2017, 1, 31), (wv_made f), (wv_for f). split; [exact N|]. split; [exact wv_january|reflexivity].
Qed.
(** Two forecasts of the last run, and an older one. *)
Lemma wv_forecasts f g : In f [wv_a; wv_b; wv_c] -> In g [wv_a; wv_b; wv_c] -> forecasts mix_bounds "" [f; wv_old; g] [f; g].
Proof.
  intros If Ig. exists (2017, 2, 1), (2017, 2, 4), (hours (2017, 1, 31) 18).
  assert (K : forall h, In h [wv_a; wv_b; wv_c] -> In h [wv_a; wv_b; wv_c; wv_old] /\ made_at "" h (hours (2017, 1, 31) 18) /\ exists v, valid_at "" h v /\ hours (2017, 2, 1) 0 <= v <= hours (2017, 2, 4) 0).
  { intros h I. assert (J : In h [wv_a; wv_b; wv_c; wv_old]) by (cbn in *; tauto). split; [exact J|]. split; [apply (wv_times h _ J); destruct I as [<-|[<-|[<-|[]]]]; vm_compute; reflexivity|].
    exists (hours (2017, 1, 31) (wv_made h) + wv_for h). split; [apply (wv_times h _ J); reflexivity|]. destruct I as [<-|[<-|[<-|[]]]]; vm_compute; split; discriminate. }
  assert (O : In wv_old [wv_a; wv_b; wv_c; wv_old]) by (cbn; tauto).
  assert (All : forall h, In h [f; wv_old; g] -> In h [wv_a; wv_b; wv_c; wv_old]) by (intros h [<-|[<-|[<-|[]]]]; [apply K, If|exact O|apply K, Ig]).
  split; [left; reflexivity|]. split; [intros h I; apply All in I; do 3 eexists; split; [apply wv_name; exact I|exact wv_january]|]. split; [reflexivity|]. split; [|split; [discriminate|]].
  - split; [exists f; split; [left; reflexivity|apply K, If]|]. split; [vm_compute; reflexivity|]. intros h c I M _. apply All in I. apply (wv_times h c I) in M as ->. unfold hours, wv_made. destruct (String.eqb h wv_old); lia.
  - constructor; [apply K, If|]. apply pk_drop; [intros (M & _); apply (wv_times wv_old _ O) in M; vm_compute in M; discriminate|]. constructor; [apply K, Ig|constructor].
Qed.
Lemma wv_described strict f g : In f [wv_a; wv_b; wv_c] -> In g [wv_a; wv_b; wv_c] -> strict = false \/ hours_in_order "" [f; g] ->
  exists df dg, wv_open f = Ok df /\ wv_open g = Ok dg /\
  wave_feed (fun _ => []) strict wv_open mix_bounds 2 ("ecmwf_sig_wave_height", wv_own [f; wv_old; g]) (wv_feed (for_day wv_day df ++ for_day wv_day dg)%list).
Proof.
  intros If Ig Or.
  assert (K : forall h, In h [wv_a; wv_b; wv_c] -> In h [wv_a; wv_b; wv_c; wv_old] /\ exists z, wv_open h = Ok (wv_grid z) /\ (hours (2017, 1, 31) (wv_made h) + wv_for h) / 24 = wv_day).
  { intros h I. split; [cbn in *; tauto|]. destruct I as [<-|[<-|[<-|[]]]]; eexists; (split; [reflexivity|vm_compute; reflexivity]). }
  destruct (K f If) as (Jf & zf & Of & Tf), (K g Ig) as (Jg & zg & Og & Tg). exists (wv_grid zf), (wv_grid zg). split; [exact Of|]. split; [exact Og|].
  exists "", [f; wv_old; g], [f; g], [(8, 0%nat); (2, 1%nat)]%Q, [(3, 0%nat); (13, 1%nat)]%Q, [for_day wv_day (wv_grid zf); for_day wv_day (wv_grid zg)].
  split; [cbn; repeat split; letters|]. split.
  { constructor; cbn [fst snd f_name f_agg f_min f_conds f_fill wv_feed].
    - unfold dict_ok. nodup_keys.
    - reflexivity.
    - reflexivity.
    - cbn. tauto.
    - reflexivity.
    - exists "EPSG:4326". split; reflexivity.
    - split; eexists; reflexivity.
    - left. reflexivity.
    - reflexivity.
    - reflexivity. }
  split; [reflexivity|]. split; [apply wv_forecasts; assumption|]. split; [exact Or|].
  split. { intros [|[|i]] [|[|j]] x y L X Y; cbn in *; try lia; try discriminate; try (destruct j; discriminate); injection X as <-; injection Y as <-; cbn; lra. }
  split. { intros [|[|i]] [|[|j]] x y L X Y; cbn in *; try lia; try discriminate; try (destruct j; discriminate); injection X as <-; injection Y as <-; cbn; lra. }
  split. { intros x [<-|[<-|[]]]; cbn; lra. }
  split; [|split; [|reflexivity]].
  - constructor; [|constructor; [|constructor]]; [exists (hours (2017, 1, 31) (wv_made f) + wv_for f), (wv_grid zf)|exists (hours (2017, 1, 31) (wv_made g) + wv_for g), (wv_grid zg)].
    + split; [apply (wv_times f _ Jf); reflexivity|]. split; [exact Of|]. repeat (split; [reflexivity|]). rewrite Tf. reflexivity.
    + split; [apply (wv_times g _ Jg); reflexivity|]. split; [exact Og|]. repeat (split; [reflexivity|]). rewrite Tg. reflexivity.
  - cbn [List.concat wv_feed f_data]. rewrite app_nil_r. reflexivity.
Qed.
Lemma wv_oras_described : oras5_feed (fun _ => []) wv_oras mix_bounds 2 ("oras5_currents", cu_params) wv_vector.
Proof.
  exists ["c.nc"], wv_currents. split; [cbn; repeat split; letters|]. split; [apply cu_settled; reflexivity|]. split; [reflexivity|]. split; [reflexivity|].
  split; [split; [discriminate|intros X; contradiction]|].
  split. { intros [|[|i]] [|[|j]] x y L X Y; cbn in *; try lia; try discriminate; try (destruct j; discriminate); injection X as <-; injection Y as <-; cbn; lra. }
  split. { intros [|[|i]] [|[|j]] x y L X Y; cbn in *; try lia; try discriminate; try (destruct j; discriminate); injection X as <-; injection Y as <-; cbn; lra. }
  split; [|repeat split; apply Permutation_refl]. intros p I. vm_compute in I. repeat (destruct I as [<-|I]; [reflexivity|]). destruct I.
Qed.
Notation wv_construct strict := (construct_wave (fun q => q) ic_proj strict wv_open wv_oras wd_bearing wd_nc ic_amsr ic_icenet ic_chart (fun q => 1 - q)%Q (fun q => q) gf_noise boxes edge_boxes (fun q => q) (fun q => q) vs_csv (fun _ => Err FileNotFoundError) tab_shapes).
Lemma wv_apart d : labels_apart boxes [Point (Scalar (wv_feed d)); Point (Vector wv_vector)].
Proof.
  split; [|split].
  - intros s n [<-|[<-|[]]]; [intros [<-|[]]|intros [<-|[<-|[]]]]; (split; [commaless|cbn; intuition discriminate]).
  - intros v [E|[E|[]]]; [discriminate|]. injection E as <-. split; [cbn [v_names wv_vector]; nodup_keys|cbn; lia].
  - intros [|[|[|i]]] [|[|[|j]]] v t n Ne Hi Hj I; cbn in Hi, Hj; try discriminate; try congruence. injection Hi as <-. injection Hj as <-. cbn in I |- *. destruct I as [<-|[<-|[]]]; intuition discriminate.
Qed.
(** The hypotheses hold, with either pandas; the heights stand in the cells. *)
Example C99_case : exists d,
  labels_apart boxes [Point (Scalar (wv_feed d)); Point (Vector wv_vector)] /\ wave_feed (fun _ => []) true wv_open mix_bounds 2 ("ecmwf_sig_wave_height", wv_own [wv_b; wv_old; wv_a]) (wv_feed d) /\
  oras5_feed (fun _ => []) wv_oras mix_bounds 2 ("oras5_currents", cu_params) wv_vector /\
  noisy gf_noise /\ grows boxes /\ lawful boxes (Q * Q) in_boxes /\ rectangles boxes in_boxes /\ in_world (o := boxes) in_boxes mix_bounds /\
  let cfg := tab_config (wv_params [wv_b; wv_old; wv_a]) in
  validate_mesh_config (fun _ => None) cfg = Ok tt /\ says cfg (wv_settings [wv_b; wv_old; wv_a]) /\ from_json false 0 cfg = Ok mix_bounds /\ admissible mix_bounds 10 10 /\
  exists em, generate (fun _ => None) false 0 (fun _ => []) (fun _ => false) (wv_construct true) 100 cfg = Ok em /\ shown em = [[("swh", 2); ("uC", 1 # 2); ("vC", 4)]; [("swh", 3); ("uC", 1 # 2); ("vC", 4)]]%Q.
Proof.
  destruct (wv_described true wv_b wv_a) as (df & dg & _ & _ & D); [cbn; tauto|cbn; tauto| |].
  { right. intros f g v w If Ig C V W. apply wv_times in V as ->; [|destruct If as [<-|[<-|[]]]; cbn; tauto]. apply wv_times in W as ->; [|destruct Ig as [<-|[<-|[]]]; cbn; tauto].
    destruct If as [<-|[<-|[]]], Ig as [<-|[<-|[]]]; vm_compute in C; try discriminate; vm_compute; discriminate. }
  exists (for_day wv_day df ++ for_day wv_day dg)%list. split; [apply wv_apart|]. split; [exact D|]. split; [exact wv_oras_described|].
  split; [exact gf_noisy|]. split; [exact boxes_grow|]. split; [exact boxes_lawful|]. split; [exact boxes_rectangles|]. split; [exact PropsWhole.wh_world|]. cbv zeta.
  split; [vm_compute; reflexivity|]. split; [apply wv_says|]. split; [vm_compute; reflexivity|]. split.
  - split; [|split; [reflexivity|split; [reflexivity|]]].
    + split; [cbn; lra|]. right. do 2 eexists. split; [reflexivity|]. discriminate.
    + intros [H _]. cbn in H. lra.
  - eexists. split; [vm_compute; reflexivity|]. vm_compute. reflexivity.
Qed.

(** Forecasts for 6:00 and 9:00 (finding): with pandas 2 or later the mesh is not built, but
    before it is. *)
Theorem C99_order_refuted : exists cfg s f v em,
  validate_mesh_config (fun _ => None) cfg = Ok tt /\ says cfg s /\ from_json false 0 cfg = Ok mix_bounds /\ labels_apart boxes [Point (Scalar f); Point (Vector v)] /\
  (exists src src', s_loaders s = [src; src'] /\ wave_feed (fun _ => []) false wv_open mix_bounds 2 src f /\ oras5_feed (fun _ => []) wv_oras mix_bounds 2 src' v) /\
  generate (fun _ => None) false 0 (fun _ => []) (fun _ => false) (wv_construct false) 100 cfg = Ok em /\
  generate (fun _ => None) false 0 (fun _ => []) (fun _ => false) (wv_construct true) 100 cfg = Err KeyError.
Proof.
  destruct (wv_described false wv_b wv_c) as (df & dg & _ & _ & D); [cbn; tauto|cbn; tauto|left; reflexivity|].
  exists (tab_config (wv_params [wv_b; wv_old; wv_c])), (wv_settings [wv_b; wv_old; wv_c]), (wv_feed (for_day wv_day df ++ for_day wv_day dg)%list), wv_vector. eexists.
  split; [vm_compute; reflexivity|]. split; [apply wv_says|]. split; [vm_compute; reflexivity|]. split; [apply wv_apart|]. split.
  - do 2 eexists. split; [reflexivity|]. split; [exact D|exact wv_oras_described].
  - split; vm_compute; reflexivity.
Qed.
Print Assumptions C99_order_refuted.
