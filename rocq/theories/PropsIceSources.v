(** Property theorem C96: from configured sea ice to the values of cells.  Parameters as in
    PropsWhole.v and PropsGrfSources.v; [open_amsr], [open_icenet] and [open_ice] read the
    files.  The proofs are in IceSourcesProofs.v and WholeProofs.v. *)
From Coq Require Import Permutation.
From Verif Require Import Shapes ShapeProofs Base Geo Graph Cell Loaders AddLoader VecLoader Builder Env Spec MeshSpec EnvSpec DataSpec QLib Construct ConstructSpec Names PyStr Dates DateSpec Config ConfigSpec Params ParamSpec
  Files FilesSpec FilesProofs PropsFiles Forecast ForecastSpec
  Reproject ReprojectSpec Pipeline PipeSpec ConfigProofs PipeProofs Sources SourcesSpec SourcesProofs PropsSources MixSpec MixProofs PropsMix VecSources VecSourcesSpec VecSourcesProofs PropsVecSources
  Lut LutSpec LutFiles LutFilesSpec LutFilesProofs LutSources TableSpec TableProofs TableFiles PropsLut PropsLutFiles PropsTable ShapeSources ShapeSourcesSpec ShapeSourcesProofs AllSources WholeSpec WholeProofs
  Grf GrfSpec GrfProofs PropsGrf GrfSources GrfSourcesSpec GrfSourcesProofs PropsGrfSources IceSources IceSourcesSpec IceSourcesProofs.
From Verif Require ShapeSpec PropsWhole.
Open Scope string_scope.
Open Scope Z_scope.

(** For a validated configuration of sources as in C95 and sea ice of AMSR, IceNet and
    Visual_Ice: building ends with a mesh that survives writing and reading; its cells tile
    the region with exactly their contacts; and every cell is quartered and holds values as
    called for by all rows, polygons, points of the fields, known values of the grids where
    the projection puts them, and predictions. *)
Definition described_ice (o : planar) (P : Type) inside glob proj open_amsr open_icenet open_ice read_table read_shapes read_csv open_nc sqrt dsin dcos cos sin noise b min_dp (src : string * params) (s : origin o) : Prop :=
  described o P inside glob read_table read_shapes read_csv open_nc sqrt dsin dcos cos sin noise b min_dp src s \/
  exists f, s = Point (Scalar f) /\ describes_ice glob proj open_amsr open_icenet open_ice b min_dp src f.
Theorem C96_whole_partial : forall (o : planar) edge P inside, grows o -> lawful o P inside -> rectangles o inside ->
  forall files pad now glob ft sqrt dsin dcos cos sin noise proj open_amsr open_icenet open_ice read_csv open_nc read_table read_shapes cfg s b ss0, noisy noise ->
  validate_mesh_config files cfg = Ok tt -> says cfg s -> from_json pad now cfg = Ok b ->
  admissible b (s_width s) (s_height s) -> in_world inside b ->
  (s_lat_min s < s_lat_max s)%Q -> (s_lat_max s - s_lat_min s < 360)%Q -> 0 <= s_points s ->
  Forall2 (described_ice o P inside glob proj open_amsr open_icenet open_ice read_table read_shapes read_csv open_nc sqrt dsin dcos cos sin noise b (s_points s)) (s_loaders s) ss0 ->
  labels_apart o ss0 ->
  exists ss fuel em em',
    Forall2 (described_ice o P inside glob proj open_amsr open_icenet open_ice read_table read_shapes read_csv open_nc sqrt dsin dcos cos sin noise b (s_points s)) (s_loaders s) ss /\
    map (labels o) ss = map (labels o) ss0 /\
    (forall fuel', (fuel <= fuel')%nat ->
       generate files pad now glob ft (construct_ice sqrt proj open_amsr open_icenet open_ice cos sin noise o edge dsin dcos read_csv open_nc read_table read_shapes) fuel' cfg = Ok em) /\
    load_from_json (to_json em) = Ok em' /\
    map e_id (em_cells em') = map e_id (em_cells em) /\ map e_data (em_cells em') = map e_data (em_cells em) /\
    map e_bounds (em_cells em') = map without_times (map e_bounds (em_cells em)) /\
    NoDup (map e_id (em_cells em')) /\ env_tiles (region b) (em_cells em') /\
    (~ spans_globe b -> lists_contacts touches (em_cells em') (em_graph em')) /\
    (spans_globe b -> lists_contacts touches_mod (em_cells em') (em_graph em')) /\
    (forall c, In c (em_cells em) -> as_offered o edge sqrt ss b (s_width s) (s_height s) (s_depth s) c).
Proof.
  intros o edge P inside Gr La Re files pad now glob ft sqrt dsin dcos cos sin noise proj open_amsr open_icenet open_ice read_csv open_nc read_table read_shapes cfg s b ss0 No Hv Hs Hb Ha Hw Hl Hl' Hp Hf Hn.
  destruct (from_json_says pad now cfg s b Hs Hb) as (F1 & F2 & F3 & F4 & F5 & _).
  assert (R : plain_region b).
  { destruct Ha as (((V1 & V2 & V3 & V4) & V5) & _). split; [exact V3|]. split; [exact V1|]. split; [exact V4|]. split; [rewrite F1, F2; exact Hl|exact V5]. }
  assert (Pl : within b b).
  { destruct R as (R1 & R2 & R3 & R4 & R5). unfold within. repeat split; lra. }
  set (construct := construct_ice sqrt proj open_amsr open_icenet open_ice cos sin noise o edge dsin dcos read_csv open_nc read_table read_shapes).
  set (D := described_ice o P inside glob proj open_amsr open_icenet open_ice read_table read_shapes read_csv open_nc sqrt dsin dcos cos sin noise b (s_points s)) in *.
  assert (One : forall k src s0, D src s0 -> (forall v, s0 = Point (Vector v) -> fit_names (v_names v)) ->
    exists s' t, offers o edge sqrt glob construct b (s_points s) k src s' /\ oagree o b s' t /\ D src t /\ oalike o t s0).
  { intros k src s0 [[Ds|(s1 & -> & Ds)]|(f & -> & Ds)] Fn.
    - destruct (origin_offered o edge sqrt dsin dcos P inside La Re proj glob read_csv open_nc read_table read_shapes b Hw Pl (s_points s) k src s0 R Fn Ds) as (s' & t & Of & A & Dt & Al).
      exists s', t. split; [eapply offers_ice, offers_every; exact Of|]. split; [exact A|]. split; [left; left; exact Dt|exact Al].
    - destruct s1 as [f|v]; cbn [describes_field] in Ds.
      + destruct (field_supplied glob sqrt proj noise construct b (s_points s) k src f R No) as (f' & g & S & A & Dg & N); [reflexivity|exact Ds|].
        exists (Point (Scalar f')), (Point (Scalar g)). split; [exact S|]. split; [exact A|]. split; [left; right; eexists; split; [reflexivity|exact Dg]|exact N].
      + destruct (vector_field_supplied glob sqrt cos sin noise construct b (s_points s) k src v R No (Fn v eq_refl)) as (v' & w & S & A & Dg & N); [reflexivity|exact Ds|].
        exists (Point (Vector v')), (Point (Vector w)). split; [exact S|]. split; [exact A|]. split; [left; right; eexists; split; [reflexivity|exact Dg]|exact N].
    - assert (H : exists f', supplies glob construct sqrt b (s_points s) k src f' /\ agree b f' f).
      { destruct Ds as [Ds|[Ds|Ds]].
        - apply (amsr_supplied glob sqrt proj open_amsr construct b (s_points s) k src f R); [reflexivity|exact Ds].
        - apply (visual_ice_supplied glob sqrt proj open_ice construct b (s_points s) k src f R); [reflexivity|exact Ds].
        - apply (icenet_supplied glob sqrt proj open_icenet construct b (s_points s) k src f R); [reflexivity|exact Ds]. }
      destruct H as (f' & S & A). exists (Point (Scalar f')), (Point (Scalar f)). split; [exact S|]. split; [exact A|]. split; [right; eexists; split; [reflexivity|exact Ds]|reflexivity]. }
  assert (All : forall srcs ss0 k, Forall2 D srcs ss0 -> (forall v, In (Point (Vector v)) ss0 -> fit_names (v_names v)) ->
    exists ss ts, List.length ss = List.length srcs /\
      (forall i src t, nth_error srcs i = Some src -> nth_error ss i = Some t -> offers o edge sqrt glob construct b (s_points s) (k + i) src t) /\
      Forall2 (oagree o b) ss ts /\ Forall2 D srcs ts /\ Forall2 (oalike o) ts ss0).
  { clear - One. intros srcs ss0 k F. revert k. induction F as [|src s0 srcs ss0 Ds F IH]; intros k Fn.
    - exists [], []. split; [reflexivity|]. split; [intros [|i] ? ? E; discriminate|]. repeat split; constructor.
    - destruct (One k src s0 Ds) as (s' & t & Pr & A & Dt & Al).
      { intros v ->. apply Fn. left. reflexivity. }
      destruct (IH (S k)) as (ss & ts & Le & Prs & Ag & De & As); [intros v I; apply Fn; right; exact I|].
      exists (s' :: ss), (t :: ts). split; [cbn; rewrite Le; reflexivity|]. split; [|repeat split; constructor; assumption].
      intros [|i] s1 f1 X1 X2; cbn in X1, X2.
      + injection X1 as <-. injection X2 as <-. rewrite Nat.add_0_r. exact Pr.
      + replace (k + S i)%nat with (S k + i)%nat by lia. apply Prs; assumption. }
  destruct (All (s_loaders s) ss0 0%nat Hf) as (ss & ts & Le & Pr & Ag & De & Al).
  { intros v I. split; [apply (proj1 (proj2 Hn)), I|]. intros n In. apply (proj1 Hn (Point (Vector v)) n I In). }
  assert (At : labels_apart o ts).
  { apply (oalike_apart o ss0); [|exact Hn]. clear - Al. induction Al; constructor; [apply oalike_sym; assumption|assumption]. }
  assert (As : labels_apart o ss).
  { apply (oalike_apart o ts); [|exact At]. clear - Ag. induction Ag; constructor; [apply oalike_sym; eapply oagree_alike; eassumption|assumption]. }
  destruct (C90_generated_partial o edge Gr files pad now glob ft construct sqrt cfg s b ss Hv Hs Hb Ha Hl Hl' Hp Le Pr As)
    as (fuel & em & em' & G & L & _ & _ & _ & _ & I & Da & B & N & T & C1 & C2 & C).
  exists ts, fuel, em, em'. split; [exact De|]. split; [clear - Al; induction Al as [|t s0 ts ss0 A Al IH]; [reflexivity|cbn [map]; rewrite IH; f_equal; apply oalike_labels, A]|].
  repeat (split; [assumption|]).
  intros c Ic. apply (oagree_offered o edge sqrt b ss ts); [apply R|apply Ha|apply Ha|exact Ag|apply C, Ic].
Qed.
Print Assumptions C96_whole_partial.

(** ** A case *)
(** Three days of AMSR, the last after the period; two forecasts; a chart. *)
Definition ic_proj (s out : string) (x y : Q) : Q * Q :=
  if String.eqb s "EPSG:3412" then (x / 1000, y / 1000)%Q else if String.eqb s "EPSG:3976" then (x / 100, y / 100)%Q else (x, y).
Definition ic_name (day : string) : string := "ice/asi-AMSR2-s6250-201702" ++ day ++ "-v5.4.nc".
Definition ic_amsr (f : string) : res amsr_ds :=
  if String.eqb f (ic_name "02") then Ok ([(2000, 0%nat); (8000, 1%nat)]%Q, [(3000, 0%nat); (7000, 1%nat); (13000, 2%nat)]%Q, fun i j => if Nat.eqb j 1 then None else Some (inject_Z (Z.of_nat (10 * i + j))))
  else if String.eqb f (ic_name "03") then Ok ([(2000, 0%nat); (8000, 1%nat)]%Q, [(3000, 0%nat); (7000, 1%nat); (13000, 2%nat)]%Q, fun i j => Some (inject_Z (Z.of_nat (20 * i + j))))
  else Err FileNotFoundError.
Definition ic_forecast : icenet_ds := mkIce [day_number (2017, 1, 30); day_number (2017, 1, 31)] 93 [(2, 3); (8, 13)]%Q (fun run l k => Some (inject_Z l / 100)%Q).
Definition ic_icenet (f : string) : res icenet_ds := if String.eqb f "south_daily_forecast.2017-01-31.nc" then Ok ic_forecast else Err FileNotFoundError.
Definition ic_chart_ds : xrds := mkXr [(200, 0%nat); (900, 1%nat)]%Q [(300, 0%nat); (1300, 1%nat)]%Q None (fun i j _ => [if Nat.eqb (i + j) 2 then None else Some (inject_Z (Z.of_nat (i + j)) / 4)%Q]).
Definition ic_chart (f : string) : res xrds := if String.eqb f "chart.tiff" then Ok ic_chart_ds else Err FileNotFoundError.
Definition ic_condition : json := JObj [("SIC", JObj [("threshold", JInt 5); ("lower_bound", JFloat (1#10)); ("upper_bound", JFloat (9#10))])].
Definition ic_params (columns : params) : list (string * params) :=
  [("AMSR", [("files", JArr (map JStr [ic_name "02"; ic_name "03"; ic_name "06"])); ("hemisphere", JStr "South"); ("splitting_conditions", JArr [ic_condition])]);
   ("icenet", [("files", JArr (map JStr ["south_daily_forecast.2017-01-29.nc"; "south_daily_forecast.2017-01-31.nc"; "south_daily_forecast.2017-02-01.nc"])); ("data_name", JStr "forecast"); ("aggregate_type", JStr "MAX")]);
   ("visual_iced", [("file", JStr "chart.tiff"); ("in_proj", JStr "EPSG:3976"); ("data_name", JStr "chart"); ("value_fill_types", JInt 0)] ++ columns)%list].
Definition ic_columns : params := [("x_col", JStr "x"); ("y_col", JStr "y")].
Definition ic_config : json := tab_config (ic_params ic_columns).
Definition ic_settings : settings := mkSettings 0 10 0 20 "2017-02-01" "2017-02-04" 10 10 1 2 (ic_params ic_columns).
Lemma ic_says : says ic_config ic_settings.
Proof.
  unfold ic_config, tab_config. do 4 eexists. split; [reflexivity|]. split; [reflexivity|]. split.
  - unfold region_says, ConfigSpec.number_at, text_at, only_keys. cbn [s_lat_min s_lat_max s_long_min s_long_max s_start s_end s_width s_height ic_settings].
    repeat split; try (eexists; split; [reflexivity|]; match goal with |- number (JInt ?z) _ => exact (num_int z) end).
    cbn [In]. intros k v H. repeat (destruct H as [[= <- _]|H]; [tauto|]). destruct H.
  - split; [reflexivity|]. split.
    + cbn [map ic_params s_loaders ic_settings]. repeat (apply Forall2_cons; [eexists; split; [reflexivity|]; unfold text_at, only_keys; cbn [fst snd]; repeat split;
        cbn [In]; intros k v H; repeat (destruct H as [[= <- _]|H]; [tauto|]); destruct H|]). apply Forall2_nil.
    + split; [reflexivity|]. unfold whole_at, only_keys. cbn [s_depth s_points ic_settings]. repeat split.
      * eexists. split; [reflexivity|constructor].
      * eexists. split; [reflexivity|constructor].
      * cbn [In]. intros k v H. repeat (destruct H as [[= <- _]|H]; [tauto|]). destruct H.
Qed.
Lemma in_february d : 1 <= d <= 28 -> a_date (2017, 2, d).
Proof.
  intros H. split; [|unfold year_ok; cbn [fst]; lia]. exists 28. split; [|exact H]. apply ml_28. intros [[m M] _]. lia.
Qed.
Lemma in_january d : 1 <= d <= 31 -> a_date (2017, 1, d).
Proof. intros H. split; [|unfold year_ok; cbn [fst]; lia]. exists 31. split; [|exact H]. apply ml_31. cbn. tauto. Qed.
Lemma ic_amsr_name day d : In (day, d) [("02", 2); ("03", 3); ("06", 6)] -> name_amsr (ic_name day) (2017, 2, d) /\ a_date (2017, 2, d).
Proof.
  intros I. split; [|apply in_february; cbn in I; destruct I as [I|[I|[I|[]]]]; injection I as _ <-; lia].
  exists "ice/asi-AMSR2-s6250", "2017", "02", day, "v5.4.nc". destruct I as [I|[I|[I|[]]]]; injection I as <- <-; a_name.
Qed.
Lemma ic_icenet_name f m d : In (f, (m, d)) [("south_daily_forecast.2017-01-29.nc", (1, 29)); ("south_daily_forecast.2017-01-31.nc", (1, 31)); ("south_daily_forecast.2017-02-01.nc", (2, 1))] ->
  name_icenet f (2017, m, d) /\ a_date (2017, m, d).
Proof.
  intros [I|[I|[I|[]]]]; injection I as <- <- <-.
  - split; [|apply in_january; lia]. exists "south_daily_forecast", "2017-01-29", "nc". a_name. exists "2017", "01", "29". a_name; right; reflexivity.
  - split; [|apply in_january; lia]. exists "south_daily_forecast", "2017-01-31", "nc". a_name. exists "2017", "01", "31". a_name; right; reflexivity.
  - split; [|apply in_february; lia]. exists "south_daily_forecast", "2017-02-01", "nc". a_name. exists "2017", "02", "01". a_name; right; reflexivity.
Qed.
Lemma amsr_once f a c : name_amsr f a -> a_date a -> name_amsr f c -> a_date c -> day_number a = day_number c.
Proof. intros N A M C. pose proof (amsr_date_ok f a N A) as E. rewrite (amsr_date_ok f c M C) in E. injection E as E. symmetry. exact E. Qed.
Lemma icenet_once f a c : name_icenet f a -> a_date a -> name_icenet f c -> a_date c -> day_number a = day_number c.
Proof. intros N A M C. pose proof (icenet_date_ok f a N A) as E. rewrite (icenet_date_ok f c M C) in E. injection E as E. symmetry. exact E. Qed.
Definition ic_amsr_feed : feed := mkFeed "SIC" false "MEAN" 2 [mkCond 5 (1#10) (9#10) false] FillParent
  [mkP (2000 / 1000) (3000 / 1000) (Some (day_number (2017, 2, 2)%Z)) [Some 0]; mkP (2000 / 1000) (3000 / 1000) (Some (day_number (2017, 2, 3)%Z)) [Some 0];
   mkP (2000 / 1000) (7000 / 1000) (Some (day_number (2017, 2, 3)%Z)) [Some 1];
   mkP (2000 / 1000) (13000 / 1000) (Some (day_number (2017, 2, 2)%Z)) [Some 2]; mkP (2000 / 1000) (13000 / 1000) (Some (day_number (2017, 2, 3)%Z)) [Some 2];
   mkP (8000 / 1000) (3000 / 1000) (Some (day_number (2017, 2, 2)%Z)) [Some 10]; mkP (8000 / 1000) (3000 / 1000) (Some (day_number (2017, 2, 3)%Z)) [Some 20];
   mkP (8000 / 1000) (7000 / 1000) (Some (day_number (2017, 2, 3)%Z)) [Some 21];
   mkP (8000 / 1000) (13000 / 1000) (Some (day_number (2017, 2, 2)%Z)) [Some 12]; mkP (8000 / 1000) (13000 / 1000) (Some (day_number (2017, 2, 3)%Z)) [Some 22]]%Q.
Definition ic_icenet_feed : feed := mkFeed "forecast" false "MAX" 2 [] FillParent (predictions ic_forecast (day_number (2017, 1, 31)) (day_number (2017, 2, 1)) 3).
Definition ic_chart_feed : feed := mkFeed "chart" false "MEAN" 2 [] (FillNum 0)
  [mkP (200 / 100) (300 / 100) None [Some (inject_Z 0 / 4 * 100)]; mkP (200 / 100) (1300 / 100) None [Some (inject_Z 1 / 4 * 100)]; mkP (900 / 100) (300 / 100) None [Some (inject_Z 1 / 4 * 100)]]%Q.
Definition ic_origins : list (origin boxes) := map (fun f => Point (Scalar f)) [ic_amsr_feed; ic_icenet_feed; ic_chart_feed].
Ltac within_range := let p := fresh in let H := fresh in intros p H; cbn in H; repeat (destruct H as [<-|H]; [cbn; split; vm_compute; discriminate|]); destruct H.
Lemma ic_feeds : Forall2 (describes_ice (fun _ => []) ic_proj ic_amsr ic_icenet ic_chart mix_bounds 2) (s_loaders ic_settings) [ic_amsr_feed; ic_icenet_feed; ic_chart_feed].
Proof.
  assert (Pd : period mix_bounds (2017, 2, 1) (2017, 2, 4)) by (split; [apply in_february; lia|split; [apply in_february; lia|reflexivity]]).
  apply Forall2_cons; [|apply Forall2_cons; [|apply Forall2_cons; [|apply Forall2_nil]]].
  - left. exists [ic_name "02"; ic_name "03"; ic_name "06"], [ic_name "02"; ic_name "03"], "EPSG:3412", "EPSG:4326", (2017, 2, 1), (2017, 2, 4),
      [(2000, 0%nat); (8000, 1%nat)]%Q, [(3000, 0%nat); (7000, 1%nat); (13000, 2%nat)]%Q,
      [(day_number (2017, 2, 2), fun i j => if Nat.eqb j 1 then None else Some (inject_Z (Z.of_nat (10 * i + j)))); (day_number (2017, 2, 3), fun i j => Some (inject_Z (Z.of_nat (20 * i + j))))].
    split. { cbn. repeat split; right; [exists 0%nat | exists 12%nat | exists 18%nat | exists 17%nat]; (split; [lia|]); left; split; reflexivity. }
    split. { constructor; cbn [fst snd f_name f_agg f_min f_conds f_fill ic_amsr_feed].
      * unfold dict_ok. nodup_keys.
      * reflexivity.
      * reflexivity.
      * cbn. tauto.
      * reflexivity.
      * left. reflexivity.
      * left. reflexivity.
      * cbn. eexists. split; [reflexivity|]. constructor; [|constructor]. do 2 eexists. split; [reflexivity|]. split; [reflexivity|].
        unfold ConfigSpec.number_at. repeat split; eexists; (split; [reflexivity|]); first [exact (num_float _)|exact (num_int 5)].
      * reflexivity. }
    split; [reflexivity|]. split. { exists "South". split; [reflexivity|]. right. split; [|reflexivity]. cbn. repeat split; try (left; reflexivity). right. exists 18%nat. split; [lia|]. left. split; reflexivity. }
    split; [reflexivity|]. split; [discriminate|]. split; [exact Pd|]. split. { intros f [<-|[<-|[<-|[]]]]; eexists; apply ic_amsr_name; cbn; tauto. }
    split; [discriminate|]. split.
    + apply pk_keep; [|apply pk_keep; [|apply pk_drop; [|apply pk_nil]]].
      * exists (2017, 2, 2). destruct (ic_amsr_name "02" 2) as (N & A); [cbn; tauto|]. split; [exact N|]. split; [exact A|]. cbn. lia.
      * exists (2017, 2, 3). destruct (ic_amsr_name "03" 3) as (N & A); [cbn; tauto|]. split; [exact N|]. split; [exact A|]. cbn. lia.
      * intros (date & N & A & _ & L). destruct (ic_amsr_name "06" 6) as (N' & A'); [cbn; tauto|]. pose proof (amsr_once _ _ _ N A N' A') as E.
        apply ord_le in L; [|apply A|apply Pd]. change (day_number date) with (ord date) in E. rewrite E in L. vm_compute in L. apply L. reflexivity.
    + split; [|split; [reflexivity|split; [reflexivity|within_range]]].
      apply Forall2_cons; [|apply Forall2_cons; [|apply Forall2_nil]]; eexists; (split; [apply ic_amsr_name; cbn; tauto|]); (split; [apply in_february; lia|]); split; reflexivity.
  - right. right. exists ["south_daily_forecast.2017-01-29.nc"; "south_daily_forecast.2017-01-31.nc"; "south_daily_forecast.2017-02-01.nc"], (2017, 2, 1), (2017, 2, 4), "south_daily_forecast.2017-01-31.nc", (2017, 1, 31), ic_forecast, (day_number (2017, 1, 31)).
    split; [cbn; repeat split; left; reflexivity|].
    split. { constructor; cbn [fst snd f_name f_agg f_min f_conds f_fill ic_icenet_feed].
      * unfold dict_ok. nodup_keys.
      * cbn. split; [reflexivity|]. cbn. intuition discriminate.
      * reflexivity.
      * cbn. tauto.
      * reflexivity.
      * exists "EPSG:4326". split; reflexivity.
      * split; eexists; reflexivity.
      * left. reflexivity.
      * reflexivity.
      * reflexivity. }
    split; [reflexivity|]. split; [exact Pd|]. split; [vm_compute; discriminate|]. split. { intros f [<-|[<-|[<-|[]]]]; eexists; apply ic_icenet_name; cbn; tauto. }
    split; [cbn; tauto|]. destruct (ic_icenet_name "south_daily_forecast.2017-01-31.nc" 1 31) as (N & A); [cbn; tauto|]. split; [exact N|]. split; [exact A|]. split; [split; [cbn; lia|discriminate]|].
    split. { intros f date [<-|[<-|[<-|[]]]] N1 A1 [L1 L2].
      * right. destruct (ic_icenet_name "south_daily_forecast.2017-01-29.nc" 1 29) as (N2 & A2); [cbn; tauto|]. pose proof (icenet_once _ _ _ N1 A1 N2 A2) as E. change (day_number date) with (ord date) in E.
        split; [apply ord_le; [apply A1|apply A|rewrite E; vm_compute; discriminate]|]. intros ->. vm_compute in E. discriminate.
      * left. reflexivity.
      * exfalso. destruct (ic_icenet_name "south_daily_forecast.2017-02-01.nc" 2 1) as (N2 & A2); [cbn; tauto|]. pose proof (icenet_once _ _ _ N1 A1 N2 A2) as E.
        apply L2. destruct date as [[y m] d]. cbn [day_number] in E. destruct A1 as [A1 _], A2 as [A2 _]. apply CalProofs.calendar_valid in A1, A2. exact (CalProofs.ord_inj y m d 2017 2 1 A1 A2 E). }
    split; [reflexivity|]. split. { split; [cbn; tauto|]. split; [vm_compute; reflexivity|]. intros r [<-|[<-|[]]] _; vm_compute; discriminate. }
    split; [vm_compute; reflexivity|]. split; [vm_compute; reflexivity|]. split; reflexivity.
  - right. left. exists "chart.tiff", "EPSG:3976", "EPSG:4326", ic_chart_ds.
    split; [cbn; repeat split; left; reflexivity|].
    split. { constructor; cbn [fst snd f_name f_agg f_min f_conds f_fill ic_chart_feed].
      * unfold dict_ok. nodup_keys.
      * cbn. split; [reflexivity|]. cbn. intuition discriminate.
      * reflexivity.
      * cbn. tauto.
      * reflexivity.
      * left. reflexivity.
      * left. reflexivity.
      * reflexivity.
      * right. left. exists 0%Q. split; [exact (num_int 0)|reflexivity]. }
    split; [eexists; split; reflexivity|]. split; [exists "chart"; right; reflexivity|]. split; [reflexivity|]. split; [reflexivity|]. split; [reflexivity|]. split; [discriminate|]. split; [reflexivity|]. split; [reflexivity|].
    split; [reflexivity|]. split; [intros; reflexivity|]. split; [reflexivity|]. split; [reflexivity|within_range].
Qed.
Notation ic_described := (described_ice boxes (Q * Q) in_boxes (fun _ => []) ic_proj ic_amsr ic_icenet ic_chart (fun _ => Err FileNotFoundError) tab_shapes vs_csv vs_nc (fun q => q) (fun q => q) (fun q => q) (fun q => 1 - q)%Q (fun q => q) gf_noise mix_bounds 2).
Notation ic_construct := (construct_ice (fun q => q) ic_proj ic_amsr ic_icenet ic_chart (fun q => 1 - q)%Q (fun q => q) gf_noise boxes edge_boxes (fun q => q) (fun q => q) vs_csv vs_nc (fun _ => Err FileNotFoundError) tab_shapes).
Lemma ic_apart : labels_apart boxes ic_origins.
Proof.
  split; [|split].
  - intros s n I H. cbn in I. assert (N : n = "SIC" \/ n = "forecast" \/ n = "chart") by (destruct I as [<-|[<-|[<-|[]]]]; cbn in H; intuition congruence).
    destruct N as [->|[->| ->]]; (split; [intros a b; do 13 (try destruct a as [|? a]); cbn; discriminate|cbn; intuition discriminate]).
  - intros v [E|[E|[E|[]]]]; discriminate.
  - intros [|[|[|[|i]]]] [|[|[|[|j]]]] v t n Ne Hi Hj I; cbn in Hi, Hj; try discriminate; try congruence;
    injection Hi as <-; injection Hj as <-; cbn in I |- *; intuition congruence.
Qed.
(** The hypotheses hold; all ice stands in the cells. *)
Example C96_case :
  noisy gf_noise /\ grows boxes /\ lawful boxes (Q * Q) in_boxes /\ rectangles boxes in_boxes /\ in_world (o := boxes) in_boxes mix_bounds /\
  validate_mesh_config (fun _ => None) ic_config = Ok tt /\ says ic_config ic_settings /\ from_json false 0 ic_config = Ok mix_bounds /\ admissible mix_bounds 10 10 /\
  labels_apart boxes ic_origins /\ Forall2 ic_described (s_loaders ic_settings) ic_origins /\
  exists em, generate (fun _ => None) false 0 (fun _ => []) (fun _ => false) ic_construct 100 ic_config = Ok em /\
    map (fun c => map (fun kv => (fst kv, match snd kv with JNum (Some q) => Qred q | _ => -1 end)) (e_data c))%Q (em_cells em) =
      map (fun l => combine ["SIC"; "forecast"; "chart"] l) [[15; 3; 25]; [21; 3; 0]; [0; 3; 0]; [1; 3; 0]; [17; 3; 0]; [19#2; 3; 0]; [2; 3; 25]; [19#2; 3; 0]]%Q.
Proof.
  split; [exact gf_noisy|]. split; [exact boxes_grow|]. split; [exact boxes_lawful|]. split; [exact boxes_rectangles|]. split; [exact PropsWhole.wh_world|].
  split; [vm_compute; reflexivity|]. split; [exact ic_says|]. split; [vm_compute; reflexivity|]. split; [|split; [exact ic_apart|split]].
  - split; [|split; [reflexivity|split; [reflexivity|]]].
    + split; [cbn; lra|]. right. do 2 eexists. split; [reflexivity|]. discriminate.
    + intros [H _]. cbn in H. lra.
  - assert (H := ic_feeds). unfold ic_origins. clear - H. induction H as [|src f l m D H IH]; [constructor|]. cbn [map]. constructor; [|exact IH]. right. exists f. split; [reflexivity|exact D].
  - eexists. split; [vm_compute; reflexivity|]. vm_compute. reflexivity.
Qed.

(** A Visual_Ice source whose columns are left to their defaults (finding): the defaults
    name 'lat' and 'long', the file has 'x' and 'y'; no region can be built. *)
Theorem C96_columns_refuted : forall glob sqrt proj open_ice b min_dp k src file ds s out f, same_name (fst src) "visual_iced" -> settled_moved (snd src) min_dp "SIC" f ->
  lists_files glob (snd src) [file] -> (exists stem, file = stem ++ ".nc" \/ file = stem ++ ".tiff") -> open_ice file = Ok ds ->
  text_or (snd src) "in_proj" "EPSG:4326" s -> text_or (snd src) "out_proj" "EPSG:4326" out -> s <> out ->
  sget (snd src) "x_col" = None -> sget (snd src) "y_col" = None ->
  exists cls p p', get_dataloader glob (fst src) (snd src) min_dp = Ok (cls, p) /\ add_default_params cls p = Ok p' /\
    cls = "VisualIcedDataLoader" /\ construct_visual_iced sqrt proj open_ice k p' b = Err KeyError.
Proof.
  intros glob sqrt proj open_ice b min_dp k src file ds s out f Sn St Lf (stem & Hf) Op Ti To Ne Xc Yc.
  destruct (filed_source glob src min_dp "visual_iced" "VisualIcedDataLoader" ["files"] [file] Sn eq_refl) as (p1 & E1 & Ef & Em & G).
  { cbn. tauto. } { apply St. } { exact Lf. } { intros r [<-|[]]; left; reflexivity. }
  set (p' := base_defaults "VisualIcedDataLoader" p1). exists "VisualIcedDataLoader", p1, p'. split; [exact E1|]. split; [reflexivity|]. split; [reflexivity|].
  assert (Vx : sget p' "x_col" = Some (JStr "lat")) by (unfold p'; rewrite sget_base, G, Xc by (cbn; intuition discriminate); reflexivity).
  assert (Vy : sget p' "y_col" = Some (JStr "long")) by (unfold p'; rewrite sget_base, G, Yc by (cbn; intuition discriminate); reflexivity).
  assert (Vi : sget p' "in_proj" = Some (JStr s)).
  { unfold p'. rewrite sget_base, G by (cbn; intuition discriminate). unfold text_or in Ti. destruct (sget (snd src) "in_proj"); [subst; reflexivity|]. rewrite Ti. reflexivity. }
  assert (Rd := moved_reads (snd src) p1 p' "VisualIcedDataLoader" [file] min_dp s out "lat" "long" "SIC" f Ef Em G (fun k _ => eq_refl) Vi Vx Vy To St).
  destruct Rd as [Rf (o & Rn & Rn') Ra Ra' Rm Ri Ro Rx Ry Rs Rfa].
  unfold construct_visual_iced. rewrite Rf. cbn [bind]. rewrite Op. cbn [bind]. unfold import_visual_iced.
  assert (En : (let e := last (split "." file) "" in String.eqb e "tiff" || String.eqb e "nc") = true).
  { cbv zeta. destruct Hf as [->| ->].
    - change (stem ++ ".nc") with (stem ++ String "." "nc"). rewrite ReprojectProofs.last_ending; [reflexivity|]. intros K. cbn in K. intuition discriminate.
    - change (stem ++ ".tiff") with (stem ++ String "." "tiff"). rewrite ReprojectProofs.last_ending; [reflexivity|]. intros K. cbn in K. intuition discriminate. }
  cbv zeta in En. cbv zeta. rewrite En. cbn [bind]. set (g := mkGridded _ _ _ _).
  unfold construct_gridded. rewrite Rfa. cbn [bind]. rewrite Ra. cbn [bind]. rewrite Rm. cbn [bind]. change (downsample_gridded (1, 1) (f_agg f) g) with (@Ok gridded g). cbn [bind].
  rewrite Ri. cbn [bind]. rewrite Ro. cbn [bind]. rewrite Rn. cbn [bind]. destruct (String.eqb_spec s out) as [E|_]; [contradiction|].
  rewrite Rs. cbn [bind py_true]. rewrite Rx. cbn [bind]. rewrite Ry. cbn [bind]. unfold reproject_xr, reproject_df, column_of, g, table_of. cbn [n_x n_y n_vars n_ds].
  destruct (timed _); reflexivity.
Qed.
Print Assumptions C96_columns_refuted.
Example C96_columns_case : validate_mesh_config (fun _ => None) (tab_config (ic_params [])) = Ok tt /\
  generate (fun _ => None) false 0 (fun _ => []) (fun _ => false) ic_construct 100 (tab_config (ic_params [])) = Err KeyError.
Proof. split; vm_compute; reflexivity. Qed.
