(** Proofs for C100. *)
From Coq Require Import Permutation.
From Verif Require Import Shapes ShapeProofs Base Geo Graph Cell Loaders AddLoader VecLoader Builder Env Spec MeshSpec EnvSpec DataSpec QLib AggProofs Construct ConstructSpec XrProofs Names PyStr Dates DateSpec Config ConfigSpec Params ParamSpec ParamProofs
  Files FilesSpec FilesProofs PropsFiles Import ImportSpec PropsImport Downsample DownSpec DownProofs PropsDown Forecast ForecastSpec
  Reproject ReprojectSpec Pipeline PipeSpec ConfigProofs PipeProofs Sources SourcesSpec SourcesProofs PropsSources MixSpec MixProofs PropsMix VecSources VecSourcesSpec VecSourcesProofs PropsVecSources
  Lut LutSpec LutFiles LutFilesSpec LutFilesProofs LutSources TableSpec TableProofs TableFiles PropsLut PropsLutFiles PropsTable ShapeSources ShapeSourcesSpec ShapeSourcesProofs AllSources WholeSpec WholeProofs
  Grf GrfSpec GrfProofs PropsGrf GrfSources GrfSourcesSpec GrfSourcesProofs PropsGrfSources IceSources IceSourcesSpec IceSourcesProofs WindSources WindSourcesSpec WindSourcesProofs SampleSpec SampleProofs VecSampleSpec.
From Verif Require NamesSpec.
Open Scope string_scope.
Open Scope Z_scope.

(** ** Blocks of vectors are vectors *)
Definition wide (ds : xrds) : Prop := forall la lo t, In la (x_lat ds) -> In lo (x_long ds) ->
  match x_time ds with None => t = 0%nat | Some ts => In t (map snd ts) end -> List.length (x_val ds (snd la) (snd lo) t) = 2%nat.
Lemma wide_iff ds : wide ds <-> forall p, In p (xr_points ds) -> List.length (p_vals p) = 2%nat.
Proof.
  split.
  - intros W p I. apply xr_point_in in I as (la & lo & Ia & Io & E). specialize (W la lo). destruct (x_time ds) as [ts|].
    + destruct E as (t & It & ->). apply W; auto. apply in_map, It.
    + subst p. apply W; auto.
  - intros H la lo t Ia Io Ht. destruct (x_time ds) as [ts|] eqn:E.
    + apply in_map_iff in Ht as (u & <- & Iu). apply (H (mkP (fst la) (fst lo) (Some (fst u)) (x_val ds (snd la) (snd lo) (snd u)))). apply xr_point_in. exists la, lo. rewrite E. eauto.
    + subst t. apply (H (mkP (fst la) (fst lo) None (x_val ds (snd la) (snd lo) 0%nat))). apply xr_point_in. exists la, lo. rewrite E. auto.
Qed.
Lemma agg_width f ls : ls <> [] -> (forall l, In l ls -> List.length l = 2%nat) -> List.length (agg_cols f ls) = 2%nat.
Proof.
  intros N H. unfold agg_cols. rewrite map_length, seq_length. destruct ls as [|l ls]; [contradiction|]. clear N.
  assert (K : (list_max (map (@List.length _) ls) <= 2)%nat) by (apply list_max_le, Forall_forall; intros x I; apply in_map_iff in I as (l' & <- & I); rewrite (H l'); [lia|right; exact I]).
  change (Nat.max (List.length l) (list_max (map (@List.length _) ls)) = 2)%nat. rewrite (H l (or_introl eq_refl)). lia.
Qed.
Lemma coarse_entry n (axis : list (Q * nat)) c : (0 < n)%nat -> In c (coarse_axis (chunks n axis)) ->
  nth (snd c) (chunks n axis) [] <> [] /\ forall x, In x (nth (snd c) (chunks n axis) []) -> In x axis.
Proof.
  intros N I. apply In_nth_error in I as (i & E). rewrite coarse_axis_nth in E by exact N. destruct (Nat.ltb_spec (i * n) (List.length axis)) as [L|L]; [|discriminate].
  injection E as <-. cbn [snd]. assert (K := chunks_nth n axis i N). destruct (Nat.ltb_spec (i * n) (List.length axis)); [|lia].
  rewrite (nth_error_nth _ _ [] K). split; [apply block_nonempty; assumption|]. intros x Ix. apply In_nth_error in Ix as (r & Ix). rewrite firstn_nth in Ix. destruct (r <? n)%nat; [|discriminate].
  rewrite skipn_nth in Ix. eapply nth_error_In, Ix.
Qed.
Lemma coarsen_lat_wide f n ds ds' : coarsen_lat f n ds = Ok ds' -> wide ds -> wide ds'.
Proof.
  unfold coarsen_lat. destruct (Z.leb_spec n 0); [discriminate|]. intros [= <-] W la lo t Ia Io Ht. cbn [x_lat x_long x_time x_val] in *.
  destruct (coarse_entry (Z.to_nat n) (x_lat ds) la) as (N & S); [lia|exact Ia|]. apply agg_width; [apply map_nonempty, N|].
  intros l I. apply in_map_iff in I as (x & <- & I). apply W; auto.
Qed.
Lemma coarsen_long_wide f n ds ds' : coarsen_long f n ds = Ok ds' -> wide ds -> wide ds'.
Proof.
  unfold coarsen_long. destruct (Z.leb_spec n 0); [discriminate|]. intros [= <-] W la lo t Ia Io Ht. cbn [x_lat x_long x_time x_val] in *.
  destruct (coarse_entry (Z.to_nat n) (x_long ds) lo) as (N & S); [lia|exact Io|]. apply agg_width; [apply map_nonempty, N|].
  intros l I. apply in_map_iff in I as (x & <- & I). apply W; auto.
Qed.
Lemma downsample_wide sq agg f ds ds' : In agg ["MIN"; "MAX"; "MEAN"; "COUNT"] -> downsample sq agg f ds = Ok ds' -> wide ds -> wide ds'.
Proof.
  intros I. unfold downsample. destruct ((fst f =? 1) && (snd f =? 1)) eqn:U; [intros [= <-]; auto|].
  assert (K : forall g, (d <- coarsen_lat g (snd f) ds ;; coarsen_long g (fst f) d) = Ok ds' -> wide ds -> wide ds').
  { intros g E W. destruct (coarsen_lat g (snd f) ds) as [d|] eqn:E1; [|discriminate]. eapply coarsen_long_wide; [exact E|]. eapply coarsen_lat_wide; eassumption. }
  destruct I as [<-|[<-|[<-|[<-|[]]]]]; intros E; try (eapply K; exact E). clear K. intros W. destruct f as [m n]. cbn [fst snd] in *.
  change ((d <- thin_lat n ds ;; thin_long m d) = Ok ds') in E. assert (P : 0 < m /\ 0 < n).
  { unfold thin_lat, thin_long in E. destruct (Z.leb_spec n 0); [discriminate|]. cbn [bind] in E. destruct (Z.leb_spec m 0); [discriminate|]. lia. }
  destruct (counted sq m n ds) as (d' & E' & F); [lia|lia|intros [= -> ->]; discriminate|]. unfold downsample in E'. cbn [fst snd] in E'. rewrite U in E'. change ((d <- thin_lat n ds ;; thin_long m d) = Ok d') in E'.
  rewrite E in E'. injection E' as <-. apply wide_iff. intros p I. rewrite wide_iff in W. apply W. eapply counted_in; eassumption.
Qed.

(** ** Sources *)
Lemma sampled_vector_supplied glob sq dsin dcos open_nc construct b min_dp k src v : plain_region b -> fit_names (v_names v) ->
  (forall p files name cls kept ds d, vector_loader dsin dcos b files name cls kept ds d -> construct k cls p b = construct_vector_grid sq dsin dcos open_nc k cls p b) ->
  sampled_vector glob open_nc dsin dcos b min_dp src v ->
  exists w, provides glob construct sq b min_dp k src (Vector w) /\ sampled_vector glob open_nc dsin dcos b min_dp src w /\ v_names w = v_names v.
Proof.
  intros R Fn Hc (name & cls & cols & vars & files & kept & ds & m & n & d0 & inner0 & ds0 & Sn & St & Lf & Op & Co & Da & Gl & _ & _ & _ & _ & _ & X & Cn).
  destruct (vector_known _ _ _ _ _ _ _ _ _ Gl) as (Ln & Rq & Pcl & Ncsv & Vc).
  destruct (filed_source glob src min_dp name cls ["files"] files Sn Ln Rq (vss_dict _ _ _ _ _ _ St) Lf) as (p1 & E1 & Ef & Em & G). { intros r [<-|[]]; left; reflexivity. }
  set (p' := base_defaults cls p1).
  assert (B : forall k, ~ In k filed -> sget p' k = match sget (snd src) k with Some v => Some v | None => sget (base_list cls) k end) by (intros c Kc; unfold p'; rewrite sget_base, (G c Kc); reflexivity).
  assert (TX : forall k d t, ~ In k filed -> text_or (snd src) k d t -> sget (base_list cls) k = Some (JStr d) -> sget p' k = Some (JStr t)).
  { intros c d t K1 Xx Y. rewrite (B c K1). unfold text_or in Xx. destruct (sget (snd src) c); [subst; reflexivity|]. rewrite Y, Xx. reflexivity. }
  assert (Stt := St). destruct St as [D Na (L1 & L2) (Nc & Cs) Ag Kn Mi (s & P1 & P2) Fa (Pm & Pn) Mo Cd Fi].
  assert (Ra : sget p' "aggregate_type" = Some (JStr (v_agg v))) by (eapply TX; [|exact Ag|reflexivity]; cbn; intuition discriminate).
  assert (Ri : attr_text p' "in_proj" = Ok s) by (apply text_read; eapply TX; [|exact P1|reflexivity]; cbn; intuition discriminate).
  assert (Ro : attr_text p' "out_proj" = Ok s) by (apply text_read; eapply TX; [|exact P2|reflexivity]; cbn; intuition discriminate).
  assert (Rn : exists o, attr_name p' = Ok o /\ match o with None => String.concat "," (v_names v) = String.concat "," cols | Some n => n = String.concat "," (v_names v) /\ ~ In n ["lat"; "long"; "time"] end).
  { unfold attr_name, attr. rewrite B by (cbn; intuition discriminate). unfold vector_names in Na. destruct (sget (snd src) "data_name") as [[]|]; cbn [sget String.eqb Ascii.eqb Bool.eqb bind base_list];
      try (destruct Na as [Na _]; discriminate); eexists; (split; [reflexivity|]); cbn beta iota; try (rewrite Na; reflexivity).
    destruct Na as [[= ->] _]. split; [reflexivity|]. destruct (two_names _ L2) as (a & c & ->). intros I; cbn [String.concat] in I. do 5 (try destruct a as [|? a]); cbn in I; intuition discriminate. }
  destruct Rn as (o & Rn & Rn').
  assert (Gn : forall n, In n (v_names v) -> standard n = false).
  { intros q I. apply nonstandard. unfold vector_names in Na. destruct (sget (snd src) "data_name") as [[]|]; try (rewrite Na in I; apply Cs, I); destruct Na as [_ Na]; apply Na, I. }
  assert (Pc : plain_cols cols) by (split; [exact Nc|intros c I; apply nonstandard, Cs, I]).
  assert (Cc : forall c, In c cols -> NamesSpec.no_comma c) by (intros c I; apply no_comma_chars, Cs, I).
  destruct (vector_got dsin dcos open_nc b files name cls kept ds d0 cols vars R Da Gl Op Co) as (inner & Ei & (Or & Pe & Be & d & Gd & Sd)).
  destruct (downsample_blocks sq (v_agg v) m n inner Pm Pn Mo) as (ds' & Ed & Hd); [cbn in Kn |- *; tauto|].
  assert (Wd : forall p, In p (xr_points ds') -> List.length (p_vals p) = 2%nat).
  { apply wide_iff. eapply downsample_wide; [exact Kn|exact Ed|]. apply wide_iff. intros p I. apply (vector_width _ _ _ _ _ _ _ _ _ _ _ Gd Co L1). apply (TrimProofs.selected_In _ _ _ p Sd) in I. apply I. }
  destruct (construct_xr_same b ds' R) as (ds'' & Ec & Pp).
  { eapply blocks_ordered; [exact Pm|exact Pn|exact Or|exact Hd]. }
  { unfold period_given in *. rewrite (blocks_time _ _ _ _ _ Hd). exact Pe. }
  { eapply blocks_belong; [exact Pm|exact Pn|exact Hd|exact Be]. }
  exists (mkVFeed (v_names v) (v_xr v) (v_agg v) (v_min v) (v_conds v) (xr_points ds')). split; [|split; [|reflexivity]].
  - cbn [provides v_names v_xr v_agg v_min v_conds v_data].
    split; [|split; [cbn in Kn |- *; tauto|split; [exact Mi|split; [intros _; exact Cn|split; [intros p I; rewrite L2; apply Wd, I|split; [exact Cd|exact Fi]]]]]].
    exists cls, p1, p'. split; [exact E1|]. split; [apply Pcl|]. split; [|split; [exact Ra|exact (plain_no_table _ Pcl)]].
    rewrite (Hc _ _ _ _ _ _ _ Gl). unfold construct_vector_grid, construct_vector_dataset.
    assert (Rf : attr_files p' = Ok files) by (unfold attr_files, attr, p'; rewrite sget_base, Ef; cbn [bind]; apply mapM_strings).
    rewrite Rf. cbn [bind]. rewrite Ei. cbn [bind snd fst].
    assert (Rfa : attr_factors p' = Ok (m, n)) by (unfold attr_factors, attr; rewrite B by (cbn; intuition discriminate); rewrite Fa; reflexivity).
    assert (Rm : attr_int p' "min_dp" = Ok (v_min v)) by (unfold attr_int, attr, p'; rewrite sget_base, Em, Mi; reflexivity).
    rewrite Rfa. cbn [bind]. rewrite (text_read _ _ _ Ra). cbn [bind]. rewrite Rm. cbn [bind]. rewrite Ed. cbn [bind]. rewrite Ri. cbn [bind]. rewrite Ro. cbn [bind]. rewrite Rn. cbn [bind]. rewrite String.eqb_refl.
    rewrite (named_grid o cols v ds' Pc Cc L1 L2 Fn Gn Rn'). cbn [bind]. rewrite (names_two _ L2). cbn [bind]. rewrite Ec. cbn [bind]. rewrite Pp.
    unfold vfeed_loader. cbn [v_xr v_names v_agg]. rewrite X. reflexivity.
  - exists name, cls, cols, vars, files, kept, ds, m, n, d, inner, ds'. split; [exact Sn|]. split; [constructor; try assumption; auto; exists s; auto|]. repeat (split; [assumption|]). split; [reflexivity|]. split; [exact X|exact Cn].
Qed.
Lemma vagree_refl b v : vagree b v v.
Proof. repeat split; auto. Qed.
