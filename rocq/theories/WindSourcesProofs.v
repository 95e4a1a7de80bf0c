(** Proofs for C97. *)
From Coq Require Import Permutation.
From Verif Require Import Shapes ShapeProofs Base Geo Graph Cell Loaders AddLoader VecLoader Builder Env Spec MeshSpec EnvSpec DataSpec QLib Construct ConstructSpec Names PyStr Dates DateSpec Config ConfigSpec Params ParamSpec ParamProofs
  Files FilesSpec FilesProofs PropsFiles Import ImportSpec PropsImport Downsample Forecast ForecastSpec
  Reproject ReprojectSpec Pipeline PipeSpec ConfigProofs PipeProofs Sources SourcesSpec SourcesProofs PropsSources MixSpec MixProofs PropsMix VecSources VecSourcesSpec VecSourcesProofs PropsVecSources
  Lut LutSpec LutFiles LutFilesSpec LutFilesProofs LutSources TableSpec TableProofs TableFiles PropsLut PropsLutFiles PropsTable ShapeSources ShapeSourcesSpec ShapeSourcesProofs AllSources WholeSpec WholeProofs
  Grf GrfSpec GrfProofs PropsGrf GrfSources GrfSourcesSpec GrfSourcesProofs PropsGrfSources IceSources IceSourcesSpec IceSourcesProofs WindSources WindSourcesSpec.
Open Scope string_scope.
Open Scope Z_scope.

Lemma wind_dir_from bearing l : from_where bearing l (wind_dir bearing l).
Proof.
  unfold from_where, wind_dir. destruct l as [|[u|] [|[v|] [|? ?]]]; try reflexivity.
  exists (qmod (180 + bearing v u) 360), (- Qfloor ((180 + bearing v u) / 360)). split; [reflexivity|]. unfold qmod.
  set (x := (180 + bearing v u)%Q). pose proof (Qfloor_le (x / 360)) as L. pose proof (Qlt_floor (x / 360)) as H.
  assert (E : (x == 360 * (x / 360))%Q) by (field; lra). rewrite inject_Z_plus in H. rewrite inject_Z_opp.
  set (y := (x / 360)%Q) in *. set (z := inject_Z (Qfloor y)) in *. change (inject_Z 1) with 1%Q in H.
  split; [split; lra|]. unfold x in *. lra.
Qed.

Lemma wind_dir_supplied glob sq proj bearing open_nc construct b min_dp k src f : plain_region b ->
  (forall p, construct k "ERA5WindDirDataLoader" p b = construct_wind_dir sq proj bearing open_nc k p b) -> wind_dir_feed glob open_nc bearing b min_dp src f ->
  exists f' g, supplies glob construct sq b min_dp k src f' /\ agree b f' g /\ wind_dir_feed glob open_nc bearing b min_dp src g /\ f_name g = f_name f.
Proof.
  intros R Hc (files & kept & vars & ds & convert & Sn & St & Lf & Pe & Op & De & Da & Cv & Tk & X).
  destruct (made_ready glob src min_dp "era5_wind_dir" "ERA5WindDirDataLoader" files "wind_dir" f Sn eq_refl) as (p' & (p1 & E1 & E2) & Rd); auto.
  { cbn. tauto. } { intros p. reflexivity. }
  assert (Pc := St). destruct Rd as [Rf (o & Rn & Rn') Ra Ra' Rm (s & Ri & Ro) (x & y & Rx & Ry) Rfa Ru].
  destruct (era5_got (wind_dir bearing) b ds R De Da) as (ds' & Ei & (Or & Pg & Be & d & Td & Sd)).
  destruct (construct_xr_same b ds' R Or Pg Be) as (ds'' & Ec & Pp).
  assert (By : by_date b files = Ok kept).
  { destruct Pe as (first & last & C1 & C2 & Tr & N & Ne & Pk). unfold by_date. rewrite Tr. assert (E := C67_era5 first last files kept C1 C2 N Pk). destruct kept; [contradiction|exact E]. }
  exists (mkFeed (f_name f) (f_xr f) (f_agg f) (f_min f) (f_conds f) (f_fill f) (xr_points ds')), (mkFeed (f_name f) (f_xr f) (f_agg f) (f_min f) (f_conds f) (f_fill f) d).
  destruct St. split; [|split; [|split; [|reflexivity]]].
  - split; [|split; [exact st_known|split; [exact st_min|split; [exact st_conds|exact st_fill]]]].
    exists "ERA5WindDirDataLoader", p1, p'. split; [exact E1|]. split; [exact E2|]. split; [|split; [exact Ra'|cbn; intuition discriminate]].
    rewrite Hc. unfold construct_wind_dir, construct_dataset. rewrite Rf. cbn [bind]. rewrite By. cbn [bind]. rewrite Op. cbn [bind snd]. rewrite Ei. cbn [bind fst snd].
    rewrite Rfa. cbn [bind]. rewrite Ra. cbn [bind]. rewrite Rm. cbn [bind].
    unfold downsample. cbn [fst snd Z.eqb Pos.eqb andb bind]. rewrite Ri. cbn [bind]. rewrite Ro. cbn [bind]. rewrite Rn. cbn [bind]. rewrite String.eqb_refl.
    rewrite (named_scalar o "wind_dir" (f_name f) ds') by (try exact Rn'; cbn; intuition discriminate). cbn [bind]. rewrite Ec. cbn [bind]. rewrite Pp.
    unfold feed_loader. cbn [f_xr f_name f_agg f_min f_data]. rewrite X. reflexivity.
  - repeat split; auto; intros; cbn [f_data] in *; apply (selected_within (belongs b) (belongs a) _ _ (fun p => inside_belongs b a p H) Sd); assumption.
  - exists files, kept, vars, ds, (wind_dir bearing). split; [exact Sn|]. split; [constructor; assumption|]. repeat (split; [assumption|]).
    split; [apply wind_dir_from|]. split; [exact Td|exact X].
Qed.

(** ** Everything else as before *)
Lemma offers_wind o edge sq cos sin noise proj bearing open_amsr open_icenet open_ice glob dsin dcos read_csv open_nc read_table read_shapes b min_dp k src s :
  offers o edge sq glob (construct_ice sq proj open_amsr open_icenet open_ice cos sin noise o edge dsin dcos read_csv open_nc read_table read_shapes) b min_dp k src s ->
  offers o edge sq glob (construct_wind sq proj bearing open_nc open_amsr open_icenet open_ice cos sin noise o edge dsin dcos read_csv read_table read_shapes) b min_dp k src s.
Proof.
  assert (X : forall cls p r, construct_ice sq proj open_amsr open_icenet open_ice cos sin noise o edge dsin dcos read_csv open_nc read_table read_shapes k cls p b = Ok r ->
    construct_wind sq proj bearing open_nc open_amsr open_icenet open_ice cos sin noise o edge dsin dcos read_csv read_table read_shapes k cls p b = Ok r).
  { intros cls p r E. unfold construct_wind. destruct (String.eqb_spec cls "ERA5WindDirDataLoader") as [->|N1]; [|destruct (String.eqb_spec cls "MODISDataLoader") as [->|N2]; [|exact E]];
      exfalso; unfold construct_ice, construct_every, construct_all, construct_any, construct_source, construct_grid, import_grid in E; cbn [String.eqb Ascii.eqb Bool.eqb existsb vector_classes era5_waves table_classes orb] in E;
      (destruct (attr_files p); [|discriminate]); discriminate. }
  destruct s as [[f|v]|t]; cbn [offers provides]; intros ((cls & p & p' & S1 & S2 & S3 & S4) & R); (split; [|exact R]); exists cls, p, p'; (split; [exact S1|]); (split; [exact S2|]); (split; [apply X; exact S3|exact S4]).
Qed.

(** ** Sources that each are offered, in the whole way *)
Lemma whole_offered (o : planar) edge (Gr : grows o) files pad now glob ft construct sqrt (D : boundary -> Z -> string * params -> origin o -> Prop) cfg s b ss0 :
  validate_mesh_config files cfg = Ok tt -> says cfg s -> from_json pad now cfg = Ok b ->
  admissible b (s_width s) (s_height s) ->
  (s_lat_min s < s_lat_max s)%Q -> (s_lat_max s - s_lat_min s < 360)%Q -> 0 <= s_points s ->
  (forall k src s0, plain_region b -> within b b -> D b (s_points s) src s0 -> (forall v, s0 = Point (Vector v) -> fit_names (v_names v)) ->
    exists s' t, offers o edge sqrt glob construct b (s_points s) k src s' /\ oagree o b s' t /\ D b (s_points s) src t /\ oalike o t s0) ->
  Forall2 (D b (s_points s)) (s_loaders s) ss0 -> labels_apart o ss0 ->
  exists ss fuel em em',
    Forall2 (D b (s_points s)) (s_loaders s) ss /\ map (labels o) ss = map (labels o) ss0 /\
    (forall fuel', (fuel <= fuel')%nat -> generate files pad now glob ft construct fuel' cfg = Ok em) /\
    load_from_json (to_json em) = Ok em' /\
    map e_id (em_cells em') = map e_id (em_cells em) /\ map e_data (em_cells em') = map e_data (em_cells em) /\
    map e_bounds (em_cells em') = map without_times (map e_bounds (em_cells em)) /\
    NoDup (map e_id (em_cells em')) /\ env_tiles (region b) (em_cells em') /\
    (~ spans_globe b -> lists_contacts touches (em_cells em') (em_graph em')) /\
    (spans_globe b -> lists_contacts touches_mod (em_cells em') (em_graph em')) /\
    (forall c, In c (em_cells em) -> as_offered o edge sqrt ss b (s_width s) (s_height s) (s_depth s) c).
Proof.
  intros Hv Hs Hb Ha Hl Hl' Hp One0 Hf Hn.
  destruct (from_json_says pad now cfg s b Hs Hb) as (F1 & F2 & F3 & F4 & F5 & _).
  assert (R : plain_region b).
  { destruct Ha as (((V1 & V2 & V3 & V4) & V5) & _). split; [exact V3|]. split; [exact V1|]. split; [exact V4|]. split; [rewrite F1, F2; exact Hl|exact V5]. }
  assert (Pl : within b b).
  { destruct R as (R1 & R2 & R3 & R4 & R5). unfold within. repeat split; lra. }
  assert (One := fun k src s0 => One0 k src s0 R Pl). clear One0.
  assert (All : forall srcs ss0 k, Forall2 (D b (s_points s)) srcs ss0 -> (forall v, In (Point (Vector v)) ss0 -> fit_names (v_names v)) ->
    exists ss ts, List.length ss = List.length srcs /\
      (forall i src t, nth_error srcs i = Some src -> nth_error ss i = Some t -> offers o edge sqrt glob construct b (s_points s) (k + i) src t) /\
      Forall2 (oagree o b) ss ts /\ Forall2 (D b (s_points s)) srcs ts /\ Forall2 (oalike o) ts ss0).
  { clear - One. intros srcs ss0 k F. revert k. induction F as [|src s0 srcs ss0 Ds F IH]; intros k Fn.
    - exists [], []. split; [reflexivity|]. split; [intros [|i] ? ? E; discriminate|]. repeat split; constructor.
    - destruct (One k src s0 Ds) as (s' & t & Pr & A & Dt & Al).
      { intros v ->. apply Fn. left. reflexivity. }
      destruct (IH (S k)) as (ss & ts & Le & Prs & Ag & De & As); [intros v I; apply Fn; right; exact I|].
      exists (s' :: ss), (t :: ts). split; [cbn; rewrite Le; reflexivity|]. split; [|repeat split; constructor; assumption].
      intros [|i] s1 f1 X1 X2; cbn in X1, X2.
      + injection X1 as <-. injection X2 as <-. rewrite Nat.add_0_r. exact Pr.
      + replace (k + S i)%nat with (S k + i)%nat by lia. apply Prs; assumption. }
  destruct (All (s_loaders s) ss0 0%nat Hf) as (ss & ts & Le & Pr & Ag & De & Al).
  { intros v I. split; [apply (proj1 (proj2 Hn)), I|]. intros n In. apply (proj1 Hn (Point (Vector v)) n I In). }
  assert (At : labels_apart o ts).
  { apply (oalike_apart o ss0); [|exact Hn]. clear - Al. induction Al; constructor; [apply oalike_sym; assumption|assumption]. }
  assert (As : labels_apart o ss).
  { apply (oalike_apart o ts); [|exact At]. clear - Ag. induction Ag; constructor; [apply oalike_sym; eapply oagree_alike; eassumption|assumption]. }
  destruct (C90_generated_partial o edge Gr files pad now glob ft construct sqrt cfg s b ss Hv Hs Hb Ha Hl Hl' Hp Le Pr As)
    as (fuel & em & em' & G & L & _ & _ & _ & _ & I & Da & B & N & T & C1 & C2 & C).
  exists ts, fuel, em, em'. split; [exact De|]. split; [clear - Al; induction Al as [|t s0 ts ss0 A Al IH]; [reflexivity|cbn [map]; rewrite IH; f_equal; apply oalike_labels, A]|].
  repeat (split; [assumption|]).
  intros c Ic. apply (oagree_offered o edge sqrt b ss ts); [apply R|apply Ha|apply Ha|exact Ag|apply C, Ic].
Qed.

(** ** MODIS *)
Lemma modis_never glob n p min_dp cls p1 p' sq proj open_nc k b : same_name n "modis" -> dict_ok p -> get_dataloader glob n p min_dp = Ok (cls, p1) -> add_default_params cls p1 = Ok p' ->
  cls = "MODISDataLoader" /\ construct_modis sq proj open_nc k p' b = Err AttributeError.
Proof.
  intros Sn D E A. assert (Ec : cls = "MODISDataLoader").
  { unfold get_dataloader in E. rewrite (lower_same_name _ _ Sn) in E. cbv zeta in E. destruct (translate_file_input glob p); [|discriminate]. cbn [bind] in E.
    change (sget requirements (lower "modis")) with (Some ("MODISDataLoader", ["files"])) in E. cbv iota beta in E. destruct (forallb _ _); [|discriminate]. injection E as <- _. reflexivity. }
  split; [exact Ec|]. subst cls. unfold get_dataloader in E. destruct (translate_file_input glob p) as [r|] eqn:T; [|discriminate]. cbn [bind] in E.
  destruct (translate_spec glob p r D T) as (_ & F & _). destruct (sget requirements _) as [[c req]|]; [|discriminate]. destruct (forallb _ req); [|discriminate]. injection E as _ <-.
  cbn [add_default_params String.eqb Ascii.eqb Bool.eqb existsb lut_classes orb] in A. injection A as <-.
  unfold construct_modis, attr. rewrite sget_base, !sget_sset by (cbn; intuition discriminate). cbn [String.eqb Ascii.eqb Bool.eqb]. rewrite F. reflexivity.
Qed.
Lemma modis_fails files pad now glob ft construct sq proj open_nc fuel cfg :
  (forall k p b, construct k "MODISDataLoader" p b = construct_modis sq proj open_nc k p b) -> asks_for cfg "modis" ->
  forall em, generate files pad now glob ft construct fuel cfg <> Ok em.
Proof.
  intros Hc (sources & src & n & p & Hd & Is & Hl & Sn & Hp & D) em E.
  unfold generate in E. destruct (mesh_builder_init files pad now glob ft construct cfg) as [[[b m] depth]|] eqn:M; [|discriminate]. clear E.
  unfold mesh_builder_init in M. destruct (validate_mesh_config files cfg); [|discriminate]. cbn [bind] in M. destruct (from_json pad now cfg) as [b0|]; [|discriminate]. cbn [bind] in M.
  do 4 (match type of M with bind ?x _ = _ => destruct x; [|discriminate] end; cbn [bind] in M).
  match type of M with bind ?x _ = _ => destruct x as [z|]; [|discriminate] end; cbn [bind] in M.
  unfold initialize_meta_data in M. rewrite Hd in M. cbn [as_arr bind] in M.
  destruct (mapM (fun kj => source_metadata glob ft construct b0 z (fst kj) (snd kj)) (combine (seq 0 (List.length sources)) sources)) as [ms|] eqn:Mm; [|discriminate].
  destruct (In_nth_error _ _ Is) as (i & Hi).
  assert (I : In (i, src) (combine (seq 0 (List.length sources)) sources)).
  { clear - Hi. assert (G : forall (l : list json) k i, nth_error l i = Some src -> In ((k + i)%nat, src) (combine (seq k (List.length l)) l)).
    { induction l as [|x l IH]; intros k [|j] E; try discriminate; cbn in E |- *.
      - injection E as ->. left. f_equal. lia.
      - right. replace (k + S j)%nat with (S k + j)%nat by lia. apply IH, E. }
    apply (G sources 0%nat i Hi). }
  destruct (mapM_ok_in _ _ _ Mm _ I) as (md & Em). cbn [fst snd] in Em. unfold source_metadata in Em. rewrite Hl in Em. cbn [bind as_str] in Em. rewrite Hp in Em. cbn [bind as_obj] in Em.
  destruct (get_dataloader glob n p z) as [[cls p1]|] eqn:G; [|discriminate]. cbn [bind fst snd] in Em. destruct (add_default_params cls p1) as [p'|] eqn:A; [|discriminate]. cbn [bind] in Em.
  destruct (modis_never glob n p z cls p1 p' sq proj open_nc i b0 Sn D G A) as (-> & N). rewrite Hc, N in Em. discriminate.
Qed.
