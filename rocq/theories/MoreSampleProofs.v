(** Proofs for C102. *)
From Coq Require Import Permutation Sorted.
From Verif Require TrimProofs.
From Verif Require Import Shapes ShapeProofs Base Geo Graph Cell Loaders AddLoader VecLoader Builder Env Spec MeshSpec EnvSpec DataSpec QLib AggProofs Construct ConstructSpec XrProofs ConstructProofs Names PyStr Dates DateSpec Config ConfigSpec Params ParamSpec ParamProofs
  Files FilesSpec FilesProofs PropsFiles Import ImportSpec ImportProofs PropsImport Downsample DownSpec DownProofs Forecast ForecastSpec ForecastProofs PropsForecast RebuildProofs
  Reproject ReprojectSpec Pipeline PipeSpec ConfigProofs PipeProofs Sources SourcesSpec SourcesProofs PropsSources MixSpec MixProofs PropsMix VecSources VecSourcesSpec VecSourcesProofs PropsVecSources
  Lut LutSpec LutFiles LutFilesSpec LutFilesProofs LutSources TableSpec TableProofs TableFiles PropsLut PropsLutFiles PropsTable ShapeSources ShapeSourcesSpec ShapeSourcesProofs AllSources WholeSpec WholeProofs
  Grf GrfSpec GrfProofs PropsGrf GrfSources GrfSourcesSpec GrfSourcesProofs PropsGrfSources IceSources IceSourcesSpec IceSourcesProofs WindSources WindSourcesSpec WindSourcesProofs
  SampleSpec SampleProofs WaveSources WaveSourcesSpec WaveSourcesProofs WaveSampleSpec VecSampleSpec VecSampleProofs MoreSampleSpec.
From Verif Require NamesSpec.
Open Scope string_scope.
Open Scope Z_scope.

Lemma sampled_wind_dir_supplied glob sq proj bearing open_nc construct b min_dp k src f : plain_region b ->
  (forall p, construct k "ERA5WindDirDataLoader" p b = construct_wind_dir sq proj bearing open_nc k p b) -> sampled_wind_dir glob open_nc bearing b min_dp src f ->
  exists g, supplies glob construct sq b min_dp k src g /\ sampled_wind_dir glob open_nc bearing b min_dp src g /\ f_name g = f_name f.
Proof.
  intros R Hc (files & kept & vars & ds & convert & m & n & d0 & inner0 & ds0 & Sn & St & Lf & Per & Op & De & Da & Cv & _ & _ & _ & _ & _ & X).
  set (cls := "ERA5WindDirDataLoader").
  destruct (filed_source glob src min_dp "era5_wind_dir" cls ["files"] files Sn eq_refl) as (p1 & E1 & Ef & Em & G); [cbn; tauto|apply (ss_dict _ _ _ _ _ _ St)|exact Lf|intros r [<-|[]]; left; reflexivity|].
  set (p' := base_defaults cls p1).
  assert (B : forall k, ~ In k filed -> sget p' k = match sget (snd src) k with Some v => Some v | None => sget (base_list cls) k end) by (intros c Kc; unfold p'; rewrite sget_base, (G c Kc); reflexivity).
  assert (TX : forall k d t, ~ In k filed -> text_or (snd src) k d t -> sget (base_list cls) k = Some (JStr d) -> sget p' k = Some (JStr t)).
  { intros c d t K1 Xx Y. rewrite (B c K1). unfold text_or in Xx. destruct (sget (snd src) c); [subst; reflexivity|]. rewrite Y, Xx. reflexivity. }
  assert (Stt := St). destruct St as [D Na Ag Kn Mi (s & P1 & P2) Fa (Pm & Pn) Mo Co Fi].
  assert (Ra : sget p' "aggregate_type" = Some (JStr (f_agg f))) by (eapply TX; [|exact Ag|reflexivity]; cbn; intuition discriminate).
  assert (Ri : attr_text p' "in_proj" = Ok s) by (apply text_read; eapply TX; [|exact P1|reflexivity]; cbn; intuition discriminate).
  assert (Ro : attr_text p' "out_proj" = Ok s) by (apply text_read; eapply TX; [|exact P2|reflexivity]; cbn; intuition discriminate).
  assert (Rn : exists o, attr_name p' = Ok o /\ match o with None => f_name f = "wind_dir" | Some n => n = f_name f /\ ~ In n ["lat"; "long"; "time"] end).
  { unfold attr_name, attr. rewrite B by (cbn; intuition discriminate). unfold names in Na. destruct (sget (snd src) "data_name") as [[]|]; cbn [sget String.eqb Ascii.eqb Bool.eqb bind base_list];
      try (destruct Na as [Na _]; discriminate); eexists; (split; [reflexivity|]); cbn beta iota; try assumption.
    destruct Na as [[= ->] Xx]. split; [reflexivity|exact Xx]. }
  destruct Rn as (o & Rn & Rn').
  assert (Rf : attr_files p' = Ok files) by (unfold attr_files, attr, p'; rewrite sget_base, Ef; cbn [bind]; apply mapM_strings).
  assert (Rfa : attr_factors p' = Ok (m, n)) by (unfold attr_factors, attr; rewrite B by (cbn; intuition discriminate); rewrite Fa; reflexivity).
  assert (Rm : attr_int p' "min_dp" = Ok (f_min f)) by (unfold attr_int, attr, p'; rewrite sget_base, Em, Mi; reflexivity).
  destruct (era5_got (wind_dir bearing) b ds R De Da) as (inner & Ei & (Or & Pg & Be & d & Td & Sd)).
  destruct (downsample_blocks sq (f_agg f) m n inner Pm Pn Mo Kn) as (ds' & Ed & Hd).
  destruct (construct_xr_same b ds' R) as (ds'' & Ec & Pp).
  { eapply blocks_ordered; [exact Pm|exact Pn|exact Or|exact Hd]. }
  { unfold period_given in *. rewrite (blocks_time _ _ _ _ _ Hd). exact Pg. }
  { eapply blocks_belong; [exact Pm|exact Pn|exact Hd|exact Be]. }
  assert (By : by_date b files = Ok kept).
  { destruct Per as (first & last & C1 & C2 & Tr & N & Ne & Pk). unfold by_date. rewrite Tr. assert (E := C67_era5 first last files kept C1 C2 N Pk). destruct kept; [contradiction|exact E]. }
  exists (mkFeed (f_name f) (f_xr f) (f_agg f) (f_min f) (f_conds f) (f_fill f) (xr_points ds')). split; [|split; [|reflexivity]].
  - cbn [f_name f_xr f_agg f_min f_conds f_fill f_data].
    split; [|split; [cbn in Kn |- *; tauto|split; [exact Mi|split; [exact Co|exact Fi]]]].
    exists cls, p1, p'. split; [exact E1|]. split; [reflexivity|]. split; [|split; [exact Ra|cbn; intuition discriminate]].
    rewrite Hc. unfold construct_wind_dir, construct_dataset. rewrite Rf. cbn [bind]. rewrite By. cbn [bind]. rewrite Op. cbn [bind snd]. rewrite Ei. cbn [bind fst snd].
    rewrite Rfa. cbn [bind]. rewrite (text_read _ _ _ Ra). cbn [bind]. rewrite Rm. cbn [bind]. rewrite Ed. cbn [bind]. rewrite Ri. cbn [bind]. rewrite Ro. cbn [bind]. rewrite Rn. cbn [bind]. rewrite String.eqb_refl.
    rewrite (named_scalar o "wind_dir" (f_name f) ds') by (try exact Rn'; cbn; intuition discriminate). cbn [bind]. rewrite Ec. cbn [bind]. rewrite Pp. unfold feed_loader. cbn [f_xr f_name f_agg f_min]. rewrite X. reflexivity.
  - exists files, kept, vars, ds, (wind_dir bearing), m, n, d, inner, ds'. split; [exact Sn|]. split; [constructor; try assumption; [exists s; auto|auto]|]. do 5 (split; [assumption|]). split; [apply wind_dir_from|]. repeat (split; [assumption|]). split; [reflexivity|exact X].
Qed.
Lemma sampled_oras5_supplied glob sq open_oras construct b min_dp k src v : plain_region b -> fit_names (v_names v) ->
  (forall p, construct k "ORAS5CurrentDataLoader" p b = construct_oras5 sq open_oras k p b) -> sampled_oras5 glob open_oras b min_dp src v ->
  exists w, provides glob construct sq b min_dp k src (Vector w) /\ sampled_oras5 glob open_oras b min_dp src w /\ v_names w = v_names v.
Proof.
  intros R Fn Hc (files & ds & m & n & d0 & inner0 & ds0 & Sn & St & Lf & Op & Da & Ia & Io & Two & _ & _ & _ & _ & _ & _ & X & Cn).
  set (cls := "ORAS5CurrentDataLoader").
  destruct (filed_source glob src min_dp "oras5_currents" cls ["files"] files Sn eq_refl) as (p1 & E1 & Ef & Em & G); [apply ParamProofs.sget_in; vm_compute; reflexivity|apply (vss_dict _ _ _ _ _ _ St)|exact Lf|intros r [<-|[]]; left; reflexivity|].
  set (p' := base_defaults cls p1).
  assert (B : forall k, ~ In k filed -> sget p' k = match sget (snd src) k with Some v => Some v | None => sget (base_list cls) k end) by (intros c Kc; unfold p'; rewrite sget_base, (G c Kc); reflexivity).
  assert (TX : forall k d t, ~ In k filed -> text_or (snd src) k d t -> sget (base_list cls) k = Some (JStr d) -> sget p' k = Some (JStr t)).
  { intros c d t K1 Xx Y. rewrite (B c K1). unfold text_or in Xx. destruct (sget (snd src) c); [subst; reflexivity|]. rewrite Y, Xx. reflexivity. }
  assert (Stt := St). destruct St as [D Na (L1 & L2) (Nc & Cs) Ag Kn Mi (s & P1 & P2) Fa (Pm & Pn) Mo Cd Fi].
  assert (Ra : sget p' "aggregate_type" = Some (JStr (v_agg v))) by (eapply TX; [|exact Ag|reflexivity]; cbn; intuition discriminate).
  assert (Ri : attr_text p' "in_proj" = Ok s) by (apply text_read; eapply TX; [|exact P1|reflexivity]; cbn; intuition discriminate).
  assert (Ro : attr_text p' "out_proj" = Ok s) by (apply text_read; eapply TX; [|exact P2|reflexivity]; cbn; intuition discriminate).
  assert (Rn : exists o, attr_name p' = Ok o /\ match o with None => String.concat "," (v_names v) = String.concat "," ["uC"; "vC"] | Some n => n = String.concat "," (v_names v) /\ ~ In n ["lat"; "long"; "time"] end).
  { unfold attr_name, attr. rewrite B by (cbn; intuition discriminate). unfold vector_names in Na. destruct (sget (snd src) "data_name") as [[]|]; cbn [sget String.eqb Ascii.eqb Bool.eqb bind base_list];
      try (destruct Na as [Na _]; discriminate); eexists; (split; [reflexivity|]); cbn beta iota; try (rewrite Na; reflexivity).
    destruct Na as [[= ->] _]. split; [reflexivity|]. destruct (two_names _ L2) as (a & c & ->). intros I; cbn [String.concat] in I. do 5 (try destruct a as [|? a]); cbn in I; intuition discriminate. }
  destruct Rn as (o & Rn & Rn').
  assert (Gn : forall n, In n (v_names v) -> standard n = false).
  { intros q I. apply nonstandard. unfold vector_names in Na. destruct (sget (snd src) "data_name") as [[]|]; try (rewrite Na in I; apply Cs, I); destruct Na as [_ Na]; apply Na, I. }
  assert (Pc : plain_cols ["uC"; "vC"]) by (split; [exact Nc|intros c I; apply nonstandard, Cs, I]).
  assert (Cc : forall c, In c ["uC"; "vC"] -> NamesSpec.no_comma c) by (intros c I; apply no_comma_chars, Cs, I).
  destruct (plain_got b ds R Ia Io Da) as (inner & Ei & (Or & Pe & Be & d & Gd & Sd)).
  destruct (downsample_blocks sq (v_agg v) m n inner Pm Pn Mo) as (ds' & Ed & Hd); [cbn in Kn |- *; tauto|].
  assert (Wd : forall p, In p (xr_points ds') -> List.length (p_vals p) = 2%nat).
  { apply wide_iff. eapply downsample_wide; [exact Kn|exact Ed|]. apply wide_iff. intros p I. apply Two. apply (Permutation_in _ Gd). apply (TrimProofs.selected_In _ _ _ p Sd) in I. apply I. }
  destruct (construct_xr_same b ds' R) as (ds'' & Ec & Pp).
  { eapply blocks_ordered; [exact Pm|exact Pn|exact Or|exact Hd]. }
  { unfold period_given in *. rewrite (blocks_time _ _ _ _ _ Hd). exact Pe. }
  { eapply blocks_belong; [exact Pm|exact Pn|exact Hd|exact Be]. }
  exists (mkVFeed (v_names v) (v_xr v) (v_agg v) (v_min v) (v_conds v) (xr_points ds')). split; [|split; [|reflexivity]].
  - cbn [provides v_names v_xr v_agg v_min v_conds v_data].
    split; [|split; [cbn in Kn |- *; tauto|split; [exact Mi|split; [intros _; exact Cn|split; [intros p I; rewrite L2; apply Wd, I|split; [exact Cd|exact Fi]]]]]].
    exists cls, p1, p'. split; [exact E1|]. split; [reflexivity|]. split; [|split; [exact Ra|cbn; intuition discriminate]].
    rewrite Hc. unfold construct_oras5, construct_vector_dataset.
    assert (Rf : attr_files p' = Ok files) by (unfold attr_files, attr, p'; rewrite sget_base, Ef; cbn [bind]; apply mapM_strings).
    rewrite Rf. cbn [bind]. rewrite Op. cbn [bind import_oras5]. change (xr_trim b ds) with (import_plain b ds). rewrite Ei. cbn [bind snd fst].
    assert (Rfa : attr_factors p' = Ok (m, n)) by (unfold attr_factors, attr; rewrite B by (cbn; intuition discriminate); rewrite Fa; reflexivity).
    assert (Rm : attr_int p' "min_dp" = Ok (v_min v)) by (unfold attr_int, attr, p'; rewrite sget_base, Em, Mi; reflexivity).
    rewrite Rfa. cbn [bind]. rewrite (text_read _ _ _ Ra). cbn [bind]. rewrite Rm. cbn [bind]. rewrite Ed. cbn [bind]. rewrite Ri. cbn [bind]. rewrite Ro. cbn [bind]. rewrite Rn. cbn [bind]. rewrite String.eqb_refl.
    rewrite (named_grid o ["uC"; "vC"] v ds' Pc Cc L1 L2 Fn Gn Rn'). cbn [bind]. rewrite (names_two _ L2). cbn [bind]. rewrite Ec. cbn [bind]. rewrite Pp.
    unfold vfeed_loader. cbn [v_xr v_names v_agg]. rewrite X. reflexivity.
  - exists files, ds, m, n, d, inner, ds'. split; [exact Sn|]. split; [constructor; try assumption; auto; exists s; auto|]. repeat (split; [assumption|]). split; [reflexivity|]. split; [exact X|exact Cn].
Qed.

(** ** Sea ice on a projected grid is never downsampled *)
Lemma sampled_fails files pad now glob ft construct fuel cfg name :
  (forall n p a m agg min_dp cls p1 p' k b r, same_name n name -> dict_ok p -> sget p "downsample_factors" = Some (JArr [JInt a; JInt m]) -> a <> 1 \/ m <> 1 ->
     text_or p "aggregate_type" "MEAN" agg -> In agg ["MIN"; "MAX"; "MEAN"; "MEDIAN"; "STD"; "COUNT"] ->
     get_dataloader glob n p min_dp = Ok (cls, p1) -> add_default_params cls p1 = Ok p' -> construct k cls p' b <> Ok r) ->
  asks_sampled cfg name -> forall em, generate files pad now glob ft construct fuel cfg <> Ok em.
Proof.
  intros Hc (sources & src & n & p & a & m & agg & Hd & Is & Hl & Sn & Hp & D & Fa & Ne & Ag & Ia) em E.
  unfold generate in E. destruct (mesh_builder_init files pad now glob ft construct cfg) as [[[b x] depth]|] eqn:M; [|discriminate]. clear E.
  unfold mesh_builder_init in M. destruct (validate_mesh_config files cfg); [|discriminate]. cbn [bind] in M. destruct (from_json pad now cfg) as [b0|]; [|discriminate]. cbn [bind] in M.
  do 4 (match type of M with bind ?x _ = _ => destruct x; [|discriminate] end; cbn [bind] in M).
  match type of M with bind ?x _ = _ => destruct x as [z|]; [|discriminate] end; cbn [bind] in M.
  unfold initialize_meta_data in M. rewrite Hd in M. cbn [as_arr bind] in M.
  destruct (mapM (fun kj => source_metadata glob ft construct b0 z (fst kj) (snd kj)) (combine (seq 0 (List.length sources)) sources)) as [ms|] eqn:Mm; [|discriminate].
  destruct (In_nth_error _ _ Is) as (i & Hi).
  assert (I : In (i, src) (combine (seq 0 (List.length sources)) sources)).
  { clear - Hi. assert (G : forall (l : list json) k i, nth_error l i = Some src -> In ((k + i)%nat, src) (combine (seq k (List.length l)) l)).
    { induction l as [|x l IH]; intros k [|j] E; try discriminate; cbn in E |- *.
      - injection E as ->. left. f_equal. lia.
      - right. replace (k + S j)%nat with (S k + j)%nat by lia. apply IH, E. }
    apply (G sources 0%nat i Hi). }
  destruct (mapM_ok_in _ _ _ Mm _ I) as (md & Em). cbn [fst snd] in Em. unfold source_metadata in Em. rewrite Hl in Em. cbn [bind as_str] in Em. rewrite Hp in Em. cbn [bind as_obj] in Em.
  destruct (get_dataloader glob n p z) as [[cls p1]|] eqn:G; [|discriminate]. cbn [bind fst snd] in Em. destruct (add_default_params cls p1) as [p'|] eqn:A; [|discriminate]. cbn [bind] in Em.
  destruct (construct i cls p' b0) as [r|] eqn:C; [|discriminate]. exact (Hc n p a m agg z cls p1 p' i b0 r Sn D Fa Ne Ag Ia G A C).
Qed.
Lemma gridded_never sq proj k p b g a m agg r : attr_factors p = Ok (a, m) -> a <> 1 \/ m <> 1 -> attr_text p "aggregate_type" = Ok agg ->
  In agg ["MIN"; "MAX"; "MEAN"; "MEDIAN"; "STD"; "COUNT"] -> construct_gridded sq proj k p b g <> Ok r.
Proof.
  intros F Ne A I. unfold construct_gridded. rewrite F. cbn [bind]. rewrite A. cbn [bind]. destruct (attr_int p "min_dp"); [|discriminate]. cbn [bind].
  unfold downsample_gridded. cbn [fst snd]. replace ((a =? 1) && (m =? 1))%bool with false by (symmetry; apply andb_false_iff; destruct Ne as [N|N]; [left|right]; apply Z.eqb_neq, N).
  replace (existsb (String.eqb agg) ["MIN"; "MAX"; "MEAN"; "MEDIAN"; "STD"; "COUNT"]) with true by (symmetry; apply existsb_exists; exists agg; split; [exact I|apply String.eqb_refl]). discriminate.
Qed.
Lemma ice_settings glob n name p a m agg min_dp cls p1 p' : (name = "amsr" /\ cls = "AMSRDataLoader" \/ name = "visual_iced" /\ cls = "VisualIcedDataLoader") -> dict_ok p ->
  sget p "downsample_factors" = Some (JArr [JInt a; JInt m]) -> text_or p "aggregate_type" "MEAN" agg ->
  get_dataloader glob n p min_dp = Ok (cls, p1) -> add_default_params cls p1 = Ok p' -> attr_factors p' = Ok (a, m) /\ attr_text p' "aggregate_type" = Ok agg.
Proof.
  intros Hn D F A E Ad. unfold get_dataloader in E. destruct (translate_file_input glob p) as [q|] eqn:T; [|discriminate]. cbn [bind] in E.
  destruct (translate_spec glob p q D T) as (U & _). destruct (sget requirements _) as [[c req]|]; [|discriminate]. destruct (forallb _ req); [|discriminate]. injection E as _ <-.
  assert (Ux := U "downsample_factors" ltac:(cbn; intuition discriminate)). assert (Uy := U "aggregate_type" ltac:(cbn; intuition discriminate)). unfold text_or in A.
  set (p1 := sset (sset q "dataloader_name" (JStr (lower n))) "min_dp" (JInt min_dp)) in *.
  assert (B : sget (base_defaults cls p1) "downsample_factors" = Some (JArr [JInt a; JInt m]) /\ sget (base_defaults cls p1) "aggregate_type" = Some (JStr agg)).
  { rewrite !sget_base. unfold p1. rewrite !sget_sset. cbn [String.eqb Ascii.eqb Bool.eqb]. rewrite Ux, Uy, F. split; [reflexivity|]. destruct (sget p "aggregate_type"); subst; reflexivity. }
  clearbody p1. destruct B as [B1 B2].
  assert (P : sget p' "downsample_factors" = Some (JArr [JInt a; JInt m]) /\ sget p' "aggregate_type" = Some (JStr agg)).
  { destruct Hn as [[_ ->]|[_ ->]].
    - cbn [add_default_params String.eqb Ascii.eqb Bool.eqb] in Ad. unfold amsr_defaults in Ad. cbv zeta in Ad. destruct (sget (base_defaults "AMSRDataLoader" p1) "hemisphere") as [[]|]; try discriminate.
      destruct (String.eqb _ "north"); [|destruct (String.eqb _ "south"); [|discriminate]]; injection Ad as <-; rewrite !sget_sset; cbn [String.eqb Ascii.eqb Bool.eqb]; split; assumption.
    - cbn [add_default_params String.eqb Ascii.eqb Bool.eqb existsb lut_classes orb] in Ad. injection Ad as <-. split; assumption. }
  destruct P as [P1 P2]. unfold attr_factors, attr_text, attr. rewrite P1, P2. split; reflexivity.
Qed.
Lemma ice_class glob n name p min_dp cls p1 : In name ["amsr"; "visual_iced"] -> same_name n name -> get_dataloader glob n p min_dp = Ok (cls, p1) ->
  name = "amsr" /\ cls = "AMSRDataLoader" \/ name = "visual_iced" /\ cls = "VisualIcedDataLoader".
Proof.
  intros I Sn E. unfold get_dataloader in E. rewrite (lower_same_name _ _ Sn) in E. cbv zeta in E. destruct (translate_file_input glob p); [|discriminate]. cbn [bind] in E.
  destruct I as [<-|[<-|[]]]; [left|right]; (split; [reflexivity|]).
  - change (sget requirements (lower "amsr")) with (Some ("AMSRDataLoader", ["files"; "hemisphere"])) in E. cbv iota beta in E. destruct (forallb _ _); [|discriminate]. injection E as <- _. reflexivity.
  - change (sget requirements (lower "visual_iced")) with (Some ("VisualIcedDataLoader", ["files"])) in E. cbv iota beta in E. destruct (forallb _ _); [|discriminate]. injection E as <- _. reflexivity.
Qed.
Lemma ice_never sq proj open_amsr open_ice k p b a m agg r : attr_factors p = Ok (a, m) -> a <> 1 \/ m <> 1 -> attr_text p "aggregate_type" = Ok agg ->
  In agg ["MIN"; "MAX"; "MEAN"; "MEDIAN"; "STD"; "COUNT"] -> construct_amsr sq proj open_amsr k p b <> Ok r /\ construct_visual_iced sq proj open_ice k p b <> Ok r.
Proof.
  intros F Ne A I. assert (N := fun g => gridded_never sq proj k p b g a m agg r F Ne A I). split.
  - unfold construct_amsr. destruct (attr_files p); [|discriminate]. cbn [bind]. destruct (time_range b) as [|t0 [|t1 l]]; try discriminate.
    destruct (amsr_files t0 t1 _); [|discriminate]. cbn [bind]. destruct (mapM _ _) as [[|x xs]|]; try discriminate. cbn [bind]. destruct (forallb _ _); [|discriminate].
    destruct (import_amsr _ _ _ _ _); [|discriminate]. apply N.
  - unfold construct_visual_iced. destruct (attr_files p) as [fs|]; [|discriminate]. cbn [bind]. destruct (match fs with [f] => open_ice f | _ => Err ValueError end); [|discriminate]. cbn [bind].
    destruct (import_visual_iced fs _) as [[g|]|]; try discriminate. apply N.
Qed.
