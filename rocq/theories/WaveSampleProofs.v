(** Proofs for C101. *)
From Coq Require Import Permutation Sorted.
From Verif Require TrimProofs.
From Verif Require Import Shapes ShapeProofs Base Geo Graph Cell Loaders AddLoader VecLoader Builder Env Spec MeshSpec EnvSpec DataSpec QLib AggProofs Construct ConstructSpec ConstructProofs Names PyStr Dates DateSpec Config ConfigSpec Params ParamSpec ParamProofs
  Files FilesSpec FilesProofs PropsFiles Import ImportSpec ImportProofs PropsImport Downsample DownSpec DownProofs Forecast ForecastSpec ForecastProofs PropsForecast RebuildProofs
  Reproject ReprojectSpec Pipeline PipeSpec ConfigProofs PipeProofs Sources SourcesSpec SourcesProofs PropsSources MixSpec MixProofs PropsMix VecSources VecSourcesSpec VecSourcesProofs PropsVecSources
  Lut LutSpec LutFiles LutFilesSpec LutFilesProofs LutSources TableSpec TableProofs TableFiles PropsLut PropsLutFiles PropsTable ShapeSources ShapeSourcesSpec ShapeSourcesProofs AllSources WholeSpec WholeProofs
  Grf GrfSpec GrfProofs PropsGrf GrfSources GrfSourcesSpec GrfSourcesProofs PropsGrfSources IceSources IceSourcesSpec IceSourcesProofs WindSources WindSourcesSpec WindSourcesProofs
  SampleSpec SampleProofs WaveSources WaveSourcesSpec WaveSourcesProofs WaveSampleSpec.
Open Scope string_scope.
Open Scope Z_scope.

(** ** One hour of blocks *)
Definition at_hour (D : xrds) (k : nat) : xrds := mkXr (x_lat D) (x_long D) None (fun i j _ => x_val D i j k).
Lemma hour_rows D ts : x_time D = Some ts -> Permutation (map by_day (xr_points D)) (List.concat (map (fun t => for_day (fst t / 24) (at_hour D (snd t))) ts)).
Proof.
  intros T. destruct D as [lats longs T' val]. cbn [x_time] in T. subst T'. eapply perm_trans; [apply Permutation_map, by_times|]. rewrite map_flat_map, <- flat_map_concat_map.
  apply perm_each. intros t _. unfold for_day, xr_points, at_hour. cbn [x_lat x_long x_time x_val].
  match goal with |- Permutation ?l ?m => replace m with l; [apply Permutation_refl|] end. rewrite !map_flat_map. apply flat_map_ext. intros la. rewrite !map_flat_map. cbn [map]. rewrite flat_map_one, map_map. reflexivity.
Qed.
Lemma each_numbered {A B} (g : A -> Z) (G : Z * nat -> B) (R : A -> B -> Prop) l : forall k0, (forall i f, nth_error l i = Some f -> R f (G (g f, (k0 + i)%nat))) -> Forall2 R l (map G (combine (map g l) (seq k0 (List.length l)))).
Proof.
  induction l as [|x l IH]; intros k0 H; [constructor|]. cbn [map List.length seq combine]. constructor.
  - specialize (H 0%nat x eq_refl). rewrite Nat.add_0_r in H. exact H.
  - apply IH. intros i f E. specialize (H (S i) f E). replace (S k0 + i)%nat with (k0 + S i)%nat by lia. exact H.
Qed.
Lemma hour_blocks agg m n open fs lats longs ts D k f : in_blocks agg m n (mkXr (rev lats) longs ts (x_val (stack open fs))) D -> nth_error fs k = Some f ->
  x_lat (open f) = lats -> x_long (open f) = longs -> in_blocks agg m n (from_south (open f)) (at_hour D k).
Proof.
  intros H E A B. assert (V : forall i j, x_val (stack open fs) i j k = x_val (open f) i j 0%nat) by (intros; cbn [stack x_val]; rewrite (nth_error_nth _ _ _ E); reflexivity).
  unfold in_blocks in *. destruct (String.eqb agg "COUNT").
  - destruct H as (H1 & H2 & H3 & H4). unfold first_of_blocks, from_south, at_hour. cbn [x_lat x_long x_time x_val] in *. rewrite A, B. split; [exact H1|]. split; [exact H2|]. split; [reflexivity|].
    intros i j t. rewrite H4. apply V.
  - destruct H as (H1 & H2 & H3 & H4). unfold downsampled, from_south, at_hour. cbn [x_lat x_long x_time x_val] in *. rewrite A, B. split; [exact H1|]. split; [exact H2|]. split; [reflexivity|].
    intros I J la lo t v bl bo X Y Z W. specialize (H4 I J la lo k v bl bo X Y Z W). unfold block_values in *. cbn [x_val] in *.
    replace (flat_map _ bo) with (flat_map (fun lo0 : Q * nat => map (fun la0 : Q * nat => nth v (x_val (stack open fs) (snd la0) (snd lo0) k) None) bl) bo); [exact H4|].
    apply flat_map_ext. intros lo0. apply map_ext. intros la0. rewrite V. reflexivity.
Qed.
Lemma blocks_axes agg m n ds D : 0 < m -> 0 < n -> increasing (x_lat ds) -> increasing (x_long ds) -> in_blocks agg m n ds D -> increasing (x_lat D) /\ increasing (x_long D).
Proof.
  intros M N A B. unfold in_blocks. destruct (String.eqb agg "COUNT"); intros (Ba & Bo & _).
  - split; [apply (every_increasing (Z.to_nat n) (x_lat ds)); [lia|assumption|assumption]|apply (every_increasing (Z.to_nat m) (x_long ds)); [lia|assumption|assumption]].
  - split; [apply (blocked_increasing (Z.to_nat n) (x_lat ds)); [lia|assumption|assumption]|apply (blocked_increasing (Z.to_nat m) (x_long ds)); [lia|assumption|assumption]].
Qed.
Lemma blocks_longs agg m n ds D lo hi : 0 < m -> in_blocks agg m n ds D -> (forall x, In x (x_long ds) -> lo <= fst x <= hi)%Q -> forall x, In x (x_long D) -> (lo <= fst x <= hi)%Q.
Proof.
  intros M. unfold in_blocks. destruct (String.eqb agg "COUNT"); intros (_ & Bo & _) H x I.
  - apply H. eapply every_in; eassumption.
  - apply In_nth_error in I as (j & E). destruct (blocked_entry _ _ _ _ _ Bo E) as (bo & Bb & Ne & Ex). rewrite Ex. apply qmean_bounds; [apply map_nonempty; exact Ne|].
    intros q Iq. apply in_map_iff in Iq as (u & <- & Iu). destruct (block_in _ _ _ _ _ Bb Iu) as (r & _ & K). apply H. eapply nth_error_In, K.
Qed.

(** ** The source *)
Lemma sampled_wave_supplied glob sq strict open_wave construct b min_dp k src f : plain_region b ->
  (forall p, construct k "ECMWFSigWaveHeightDataLoader" p b = construct_ecmwf sq strict open_wave k p b) -> sampled_wave glob strict open_wave b min_dp src f ->
  exists f' g, supplies glob construct sq b min_dp k src f' /\ agree b f' g /\ sampled_wave glob strict open_wave b min_dp src g /\ f_name g = f_name f.
Proof.
  intros R Hc (dir & files & kept & lats & longs & m & n & rows & Sn & St & Lf & Fo & Or & Da & Io & Lr & Fr & Pm & X).
  set (cls := "ECMWFSigWaveHeightDataLoader").
  destruct (filed_source glob src min_dp "ecmwf_sig_wave_height" cls ["files"] files Sn eq_refl) as (p1 & E1 & Ef & Em & G); [apply ParamProofs.sget_in; vm_compute; reflexivity|apply (ss_dict _ _ _ _ _ _ St)|exact Lf|intros r [<-|[]]; left; reflexivity|].
  set (p' := base_defaults cls p1).
  assert (B : forall k, ~ In k filed -> sget p' k = match sget (snd src) k with Some v => Some v | None => sget (base_list cls) k end) by (intros c Kc; unfold p'; rewrite sget_base, (G c Kc); reflexivity).
  assert (TX : forall k d t, ~ In k filed -> text_or (snd src) k d t -> sget (base_list cls) k = Some (JStr d) -> sget p' k = Some (JStr t)).
  { intros c d t K1 Xx Y. rewrite (B c K1). unfold text_or in Xx. destruct (sget (snd src) c); [subst; reflexivity|]. rewrite Y, Xx. reflexivity. }
  assert (Stt := St). destruct St as [D Na Ag Kn Mi (s & P1 & P2) Fa (Pm' & Pn) Mo Co Fi].
  assert (Ra : sget p' "aggregate_type" = Some (JStr (f_agg f))) by (eapply TX; [|exact Ag|reflexivity]; cbn; intuition discriminate).
  assert (Ri : attr_text p' "in_proj" = Ok s) by (apply text_read; eapply TX; [|exact P1|reflexivity]; cbn; intuition discriminate).
  assert (Ro : attr_text p' "out_proj" = Ok s) by (apply text_read; eapply TX; [|exact P2|reflexivity]; cbn; intuition discriminate).
  assert (Rn : exists o, attr_name p' = Ok o /\ match o with None => f_name f = "swh" | Some n => n = f_name f /\ ~ In n ["lat"; "long"; "time"] end).
  { unfold attr_name, attr. rewrite B by (cbn; intuition discriminate). unfold names in Na. destruct (sget (snd src) "data_name") as [[]|]; cbn [sget String.eqb Ascii.eqb Bool.eqb bind base_list];
      try (destruct Na as [Na _]; discriminate); eexists; (split; [reflexivity|]); cbn beta iota; try assumption.
    destruct Na as [[= ->] Xx]. split; [reflexivity|exact Xx]. }
  destruct Rn as (o & Rn & Rn').
  assert (Rf : attr_files p' = Ok files) by (unfold attr_files, attr, p'; rewrite sget_base, Ef; cbn [bind]; apply mapM_strings).
  assert (Rfa : attr_factors p' = Ok (m, n)) by (unfold attr_factors, attr; rewrite B by (cbn; intuition discriminate); rewrite Fa; reflexivity).
  assert (Rm : attr_int p' "min_dp" = Ok (f_min f)) by (unfold attr_int, attr, p'; rewrite sget_base, Em, Mi; reflexivity).
  destruct (chosen b dir files kept Fo) as (fs & t0 & t1 & T & Ee & Pf & Sf & Vf & Lv).
  assert (Ink : forall g, In g fs <-> In g kept) by (intros g; split; apply Permutation_in; [|symmetry]; exact Pf).
  assert (Nk : fs <> []) by (intros ->; apply Permutation_nil in Pf; destruct Fo as (? & ? & ? & ? & ? & ? & ? & Ne & _); contradiction).
  assert (Op : forall g, In g kept -> exists v ds, valid_at dir g v /\ open_wave g = Ok ds /\ x_lat ds = lats /\ x_long ds = longs /\ x_time ds = None).
  { intros g I. clear - Fr I. induction Fr as [|h d kept rows (v & ds & ds' & A1 & A2 & A3 & A4 & A5 & _) Fr IH]; [destruct I|]. destruct I as [<-|I]; [exists v, ds; auto|apply IH, I]. }
  set (open := opened_or_empty open_wave).
  assert (Ox : forall g, In g fs -> x_lat (open g) = lats /\ x_long (open g) = longs /\ x_time (open g) = None).
  { intros g I. apply Ink in I. destruct (Op g I) as (v & ds & _ & E & A1 & A2 & A3). unfold open, opened_or_empty. rewrite E. auto. }
  assert (Mp : mapM open_wave fs = Ok (map open fs)).
  { assert (Gg : forall l, (forall g, In g l -> In g kept) -> mapM open_wave l = Ok (map open l)).
    { induction l as [|g l IH]; intros H; [reflexivity|]. cbn [mapM map]. destruct (Op g (H g (or_introl eq_refl))) as (v & ds & _ & E & _). rewrite E. cbn [bind].
      rewrite IH by (intros h I; apply H; right; exact I). cbn [bind]. unfold open, opened_or_empty. rewrite E. reflexivity. }
    apply Gg. intros g I. apply Ink, I. }
  assert (Gr : forallb (same_axes (hd (opened_or_empty open_wave "") (map open fs))) (map open fs) = true).
  { apply forallb_forall. intros ds I. apply in_map_iff in I as (g & <- & I). destruct (Ox g I) as (A1 & A2 & _). destruct fs as [|h fs']; [contradiction|]. cbn [map hd]. destruct (Ox h (or_introl eq_refl)) as (B1 & B2 & _).
    unfold same_axes. rewrite A1, A2, B1, B2, !same_axis_refl. reflexivity. }
  assert (Hd : x_lat (stack open fs) = lats /\ x_long (stack open fs) = longs).
  { destruct fs as [|h fs']; [contradiction|]. cbn [stack hd x_lat x_long]. destruct (Ox h (or_introl eq_refl)) as (B1 & B2 & _). auto. }
  destruct Hd as [Hd1 Hd2].
  set (ds := mkXr (rev lats) longs (x_time (stack open fs)) (x_val (stack open fs))).
  assert (Im : import_ecmwf open t0 t1 files = Ok ds).
  { unfold import_ecmwf. rewrite Ee. cbn [bind]. unfold reverse_lat. rewrite Hd1, Hd2, (decreasing_dup _ Da). reflexivity. }
  assert (Val : forall g, In g fs -> exists v, made_for g = Some v /\ valid_hour g = v /\ valid_at dir g v /\ 24 * t0 <= v <= 24 * t1).
  { intros g I. apply Ink in I. destruct (Lv g I) as (v & E & L). exists v. split; [exact E|]. split; [unfold valid_hour; rewrite E; reflexivity|]. split; [apply (Vf g v I), E|exact L]. }
  set (ts := combine (map valid_hour fs) (seq 0 (List.length fs))). assert (Ets : x_time (stack open fs) = Some ts) by reflexivity.
  assert (Mts : map fst ts = map valid_hour fs).
  { unfold ts. clear. generalize 0%nat. induction fs as [|g fs IH]; intros i; [reflexivity|]. cbn [map List.length seq combine fst]. rewrite IH. reflexivity. }
  destruct (downsample_blocks sq (f_agg f) m n ds Pm' Pn Mo Kn) as (ds1 & Ed & Hb).
  assert (Td : x_time ds1 = Some ts) by (rewrite (blocks_time _ _ _ _ _ Hb); exact Ets).
  destruct (blocks_axes (f_agg f) m n ds ds1 Pm' Pn (decreasing_rev _ Da) Io Hb) as (Ia1 & Io1).
  pose proof (blocks_longs (f_agg f) m n ds ds1 (-180) 180 Pm' Hb Lr) as Lr1.
  pose proof (hour_rows ds1 ts Td) as Rows.
  assert (F0 : Forall2 (fun file d => exists v ds ds', valid_at dir file v /\ open_wave file = Ok ds /\ x_lat ds = lats /\ x_long ds = longs /\ x_time ds = None /\ in_blocks (f_agg f) m n (from_south ds) ds' /\ d = for_day (v / 24) ds')
    fs (map (fun t => for_day (fst t / 24) (at_hour ds1 (snd t))) ts)).
  { apply (each_numbered valid_hour (fun t => for_day (fst t / 24) (at_hour ds1 (snd t)))). intros i g E. assert (Ig : In g fs) by (eapply nth_error_In, E).
    destruct (Val g Ig) as (v & _ & -> & Av & _). destruct (Op g (proj1 (Ink g) Ig)) as (w & dg & _ & Eo & A1 & A2 & A3). exists v, dg, (at_hour ds1 i).
    split; [exact Av|]. split; [exact Eo|]. split; [exact A1|]. split; [exact A2|]. split; [exact A3|]. split; [|reflexivity].
    assert (Eg : open g = dg) by (unfold open, opened_or_empty; rewrite Eo; reflexivity). rewrite <- Eg. eapply hour_blocks; [exact Hb|exact E|rewrite Eg; exact A1|rewrite Eg; exact A2]. }
  destruct (Permutation_Forall2 Pf F0) as (rows' & Pr & F1).
  assert (Lg : longs_in_range some_known (xr_points ds1)).
  { intros p I _. apply xr_point_in in I as (la & lo & _ & Il & H). rewrite Td in H. destruct H as (t & _ & ->). cbn [p_long]. apply (Lr1 lo Il). }
  destruct (coverage_xr_ok b ds1 R Lg) as (cv & Ec & _).
  assert (Tr : exists ds', (if qeqb cv 0 then Ok ds1 else trim_hours strict b ds1) = Ok ds' /\ (selected (belongs b) (map by_day (xr_points ds1)) (map by_day (xr_points ds')) \/ map by_day (xr_points ds1) = map by_day (xr_points ds'))).
  { destruct (qeqb cv 0); [exists ds1; split; [reflexivity|right; reflexivity]|]. destruct (hours_trimmed strict b (x_lat ds1) (x_long ds1) ts (x_val ds1) t0 t1 R T Ia1 Io1) as (ds' & Et & Se).
    - intros t I. assert (In (fst t) (map fst ts)) as J by (apply in_map; exact I). rewrite Mts in J. apply in_map_iff in J as (g & <- & Ig). destruct (Val g Ig) as (v & _ & -> & _ & L). exact L.
    - destruct Or as [Or|Or]; [left; exact Or|right]. rewrite Mts. apply sorted_hours; [exact Sf|]. intros g h Ig Ih C. destruct (Val g Ig) as (v & _ & -> & Av & _), (Val h Ih) as (w & _ & -> & Aw & _).
      apply (Or g h v w); try assumption; apply Ink; assumption.
    - exists ds'. rewrite <- Td in Et, Se. destruct ds1. split; [exact Et|left; exact Se]. }
  destruct Tr as (ds' & Et & Se).
  exists (mkFeed (f_name f) (f_xr f) (f_agg f) (f_min f) (f_conds f) (f_fill f) (map by_day (xr_points ds'))), (mkFeed (f_name f) (f_xr f) (f_agg f) (f_min f) (f_conds f) (f_fill f) (map by_day (xr_points ds1))).
  split; [|split; [|split; [|reflexivity]]].
  - split; [|split; [cbn in Kn |- *; tauto|split; [exact Mi|split; [exact Co|exact Fi]]]].
    exists cls, p1, p'. split; [exact E1|]. split; [reflexivity|]. split; [|split; [exact Ra|cbn; intuition discriminate]].
    rewrite Hc. unfold construct_ecmwf, construct_hours. rewrite Rf. cbn [bind]. rewrite T, Ee. cbn [bind]. rewrite Mp. cbn [bind]. rewrite Gr. fold open. rewrite Im. cbn [bind].
    rewrite Rfa. cbn [bind]. rewrite (text_read _ _ _ Ra). cbn [bind]. rewrite Rm. cbn [bind]. rewrite Ed. cbn [bind]. rewrite Ri. cbn [bind]. rewrite Ro. cbn [bind]. rewrite Rn. cbn [bind]. rewrite String.eqb_refl.
    rewrite (named_scalar o "swh" (f_name f) ds1) by (try exact Rn'; cbn; intuition discriminate). cbn [bind]. rewrite Ec. cbn [bind]. rewrite Et. cbn [bind].
    unfold feed_loader. cbn [f_xr f_name f_agg f_min f_data]. rewrite X. reflexivity.
  - eapply agree_selected; [exact Se|reflexivity].
  - exists dir, files, kept, lats, longs, m, n, rows'. split; [exact Sn|]. split; [constructor; try assumption; [exists s; auto|auto]|]. split; [exact Lf|]. split; [exact Fo|]. split; [exact Or|]. split; [exact Da|]. split; [exact Io|]. split; [exact Lr|].
    split; [exact F1|]. split; [|exact X]. cbn [f_data]. eapply perm_trans; [exact Rows|].
    clear - Pr. induction Pr as [|x l l' P IH|x y l|l l' l'' P1 IH1 P2 IH2]; cbn; [constructor|apply Permutation_app_head, IH| |eapply perm_trans; eassumption].
    rewrite !app_assoc. apply Permutation_app_tail, Permutation_app_comm.
Qed.
