(** Property theorem C72: reprojected data.  Statements only. *)
From Verif Require Import Base QLib Geo Cell Loaders Builder Env Construct Names Spec MeshSpec DataSpec ConstructSpec TrimProofs ConstructProofs PropsConstruct Reproject ReprojectSpec ReprojectProofs.
Open Scope Q_scope.

(** C72.  Each row of a DataFrame lies where the projection puts it, with its values. *)
Theorem C72_rows : forall proj x_col y_col n t, well_formed n t -> In x_col (map fst t) -> In y_col (map fst t) -> x_col <> y_col ->
  exists t', reproject_df proj x_col y_col t = Ok t' /\ reprojected proj x_col y_col n t t'.
Proof. exact reproject_df_ok. Qed.
Print Assumptions C72_rows.
(** Columns that are not there raise KeyError. *)
Theorem C72_missing : forall proj x_col y_col t, ~ In x_col (map fst t) \/ ~ In y_col (map fst t) -> reproject_df proj x_col y_col t = Err KeyError.
Proof.
  intros proj x y t H. unfold reproject_df, column_of.
  destruct (sget t x) eqn:X; [|reflexivity]. destruct (sget t y) eqn:Y; [|reflexivity]. exfalso.
  destruct H as [H|H]; apply ParamProofs.sget_none in H; congruence.
Qed.
Print Assumptions C72_missing.
(** Of a Dataset, the points whose values are all known, each once. *)
Theorem C72_grid : forall proj ds d, free_names (n_x ds) (n_y ds) (n_vars ds) ->
  (forall p, In p (xr_points (n_ds ds)) -> List.length (p_vals p) = List.length (n_vars ds)) ->
  selected all_known (xr_points (n_ds ds)) d ->
  exists t', reproject_xr proj (n_x ds) (n_y ds) ds = Ok t' /\ Forall2 (moved proj) d (table_points t').
Proof.
  intros proj ds d F L S. destruct (grid_rows _ _ proj ds F eq_refl eq_refl L) as (t' & E & P & _). exists t'. split; [exact E|].
  rewrite P. rewrite (selected_unique _ _ _ _ S (sel_filter_complete _)).
  clear. generalize (filter complete (xr_points (n_ds ds))). induction l as [|p l IH]; cbn [map]; constructor; [repeat split|exact IH].
Qed.
Print Assumptions C72_grid.
(** Equal projections change nothing. *)
Theorem C72_same : forall proj s x_col y_col t, reproject proj s s x_col y_col t = Ok t.
Proof. intros. unfold reproject. rewrite String.eqb_refl. reflexivity. Qed.
Print Assumptions C72_same.
(** AMSR, from the files to the data kept: the known values of the files of the period
    that lie in the region, if they reach over it. *)
Theorem C72_amsr_partial : forall proj agg data_name b t0 t1 ys xs files, plain_region b -> time_range b = [t0; t1] ->
  (exists f, In f files /\ (t0 <= fst f <= t1)%Z) -> (forall n, data_name = Some n -> ~ In n ["lat"; "long"; "time"]%string) ->
  (forall p, amsr_point proj t0 t1 ys xs files p -> -180 <= p_long p <= 180) ->
  (forall d, (forall p, In p d <-> amsr_point proj t0 t1 ys xs files p) -> reaches all_known b d) ->
  exists d', load_amsr proj (1, 1)%Z agg data_name b t0 t1 ys xs files = Ok d' /\
    forall p, In p d' <-> amsr_point proj t0 t1 ys xs files p /\ belongs b p.
Proof.
  intros proj agg data_name b t0 t1 ys xs files R T F N L H. rewrite load_amsr_steps by assumption.
  match goal with |- exists _, construct_df b ?d = _ /\ _ => set (d0 := d) end.
  assert (A : forall p, In p d0 <-> amsr_point proj t0 t1 ys xs files p) by (intros p; apply amsr_points).
  destruct (C62_rows_partial b d0 R) as (d' & E & S & _).
  - intros p I _. apply L, A, I.
  - exists d'. split; [exact E|]. intros p. rewrite <- A. specialize (S (H d0 A)). rewrite (selected_In _ _ _ _ S). tauto.
Qed.
Print Assumptions C72_amsr_partial.
(** Without a file of the period: FileNotFoundError. *)
Theorem C72_amsr_none : forall proj factors agg data_name b t0 t1 ys xs files, (forall f, In f files -> ~ (t0 <= fst f <= t1)%Z) ->
  load_amsr proj factors agg data_name b t0 t1 ys xs files = Err FileNotFoundError.
Proof.
  intros. unfold load_amsr, import_amsr.
  assert (E : filter (fun f => ((t0 <=? fst f) && (fst f <=? t1))%Z) files = []).
  { induction files as [|f l IH]; [reflexivity|]. cbn [filter]. destruct ((t0 <=? fst f) && (fst f <=? t1))%Z eqn:B.
    - exfalso. apply andb_true_iff in B. apply (H f (or_introl eq_refl)). lia.
    - apply IH. intros; apply H; right; auto. }
  rewrite E. reflexivity.
Qed.
Print Assumptions C72_amsr_none.
(** Visual_Ice files with their projection given: as percentages. *)
Theorem C72_visual_iced_partial : forall proj in_proj out_proj data_name b file ds d, plain_region b -> in_proj <> out_proj ->
  (exists stem, file = (stem ++ ".nc")%string \/ file = (stem ++ ".tiff")%string) -> (forall n, data_name = Some n -> ~ In n ["lat"; "long"; "time"]%string) ->
  (forall p, In p (xr_points ds) -> List.length (p_vals p) = 1%nat) -> selected all_known (xr_points ds) d ->
  (forall p, In p d -> -180 <= fst (proj (p_long p) (p_lat p)) <= 180) ->
  exists d0 d', load_visual_iced proj in_proj out_proj "x" "y" data_name b [file] ds = Ok d' /\
    Forall2 (fun p q => p_long q = fst (proj (p_long p) (p_lat p)) /\ p_lat q = snd (proj (p_long p) (p_lat p)) /\ p_time q = p_time p /\
                        exists v, p_vals p = [Some v] /\ p_vals q = [Some (v * 100)]) d d0 /\
    (reaches all_known b d0 -> selected (belongs b) d0 d').
Proof. exact visual_iced_ok. Qed.
Print Assumptions C72_visual_iced_partial.

(** Cases. *)
Definition half (x y : Q) : Q * Q := (x * (1#2), y * (1#2)).
Example C72_case :
  let t := [("x"%string, [ENum (Some 4); ENum (Some 8)]); ("v"%string, [ENum (Some 1); ENum None]); ("y"%string, [ENum (Some 2); ENum (Some 6)])] in
  well_formed 2 t /\ exists t', reproject_df half "x" "y" t = Ok t' /\ entry_at t' 1 "lat" (ENum (Some (6 * (1#2)))) /\ entry_at t' 1 "v" (ENum None) /\ ~ In "x"%string (map fst t').
Proof.
  cbv zeta. split.
  - split; [cbn; repeat constructor; cbn; intuition discriminate|]. intros c l I. destruct I as [I|[I|[I|[]]]]; inversion I; reflexivity.
  - eexists. split; [reflexivity|]. split; [|split].
    + eexists. split; [cbn; right; left; reflexivity|reflexivity].
    + eexists. split; [cbn; left; reflexivity|reflexivity].
    + cbn. intuition discriminate.
Qed.
(** Four AMSR points, one unknown; the second day is outside the period. *)
Definition amsr_case_files : list amsr_file :=
  [(5%Z, fun i j => match i, j with 0%nat, 0%nat => None | _, _ => Some (inject_Z (Z.of_nat (i + j))) end); (9%Z, fun _ _ => Some 7)].
Example C72_amsr_case : let b := mkB 0 10 0 10 [4; 6]%Z in let ys := [(2, 0%nat); (30, 1%nat)] in let xs := [(2, 0%nat); (10, 1%nat)] in
  plain_region b /\ (forall d, (forall p, In p d <-> amsr_point half 4 6 ys xs amsr_case_files p) -> reaches all_known b d) /\
  match load_amsr half (1, 1)%Z "MEAN" None b 4 6 ys xs amsr_case_files with Ok d => map (fun p => (Qred (p_lat p), Qred (p_long p), p_vals p)) d = [(1, 5, [Some 1])] | Err _ => False end.
Proof.
  cbv zeta. split; [|split].
  - unfold plain_region, times_ok. cbn. repeat split; try lra. right. exists 4%Z, 6%Z. split; [reflexivity|lia].
  - intros d D.
    assert (I1 : In (mkP (2 * (1#2)) (10 * (1#2)) (Some 5%Z) [Some 1]) d).
    { apply D. eexists 5%Z, _, 2, 0%nat, 10, 1%nat, 1. split; [left; reflexivity|]. split; [lia|]. cbn. auto 6. }
    assert (I2 : In (mkP (30 * (1#2)) (2 * (1#2)) (Some 5%Z) [Some 1]) d).
    { apply D. eexists 5%Z, _, 30, 1%nat, 2, 0%nat, 1. split; [left; reflexivity|]. split; [lia|]. cbn. auto 6. }
    assert (K : forall a c t, all_known (mkP a c t [Some 1])) by (intros a c t [E|[]]; discriminate).
    split.
    + exists 5. split; [eexists; eexists; split; [exact I1|]; split; [exact I2|]; split; [apply K|]; split; [apply K|]; cbn; lra|].
      cbn; lra.
    + left. exists 2. split; [eexists; eexists; split; [exact I2|]; split; [exact I1|]; split; [apply K|]; split; [apply K|]; cbn; lra|].
      cbn; lra.
  - vm_compute. reflexivity.
Qed.

(** Findings.  With the default columns, 'lat' and 'long', the latitude is taken for x: a
    projection that leaves places where they are exchanges latitude and longitude. *)
Theorem C72_default_refuted : forall n t k lat long, well_formed n t ->
  entry_at t k "lat" (ENum (Some lat)) -> entry_at t k "long" (ENum (Some long)) ->
  exists t', reproject_df (fun x y => (x, y)) "lat" "long" t = Ok t' /\ entry_at t' k "lat" (ENum (Some long)) /\ entry_at t' k "long" (ENum (Some lat)).
Proof.
  intros n t k lat long W A B.
  destruct (C72_rows (fun x y => (x, y)) "lat" "long" n t W) as (t' & E & R).
  - destruct A as (l & I & _). apply in_map_iff. exists ("lat"%string, l). auto.
  - destruct B as (l & I & _). apply in_map_iff. exists ("long"%string, l). auto.
  - discriminate.
  - exists t'. split; [exact E|]. destruct (rp_place _ _ _ _ _ _ R k lat long A B). auto.
Qed.
Print Assumptions C72_default_refuted.
(** AMSR data cannot be downsampled. *)
Theorem C72_downsample_refuted : forall proj factors agg data_name b t0 t1 ys xs files, factors <> (1, 1)%Z ->
  In agg ["MIN"; "MAX"; "MEAN"; "MEDIAN"; "STD"; "COUNT"]%string -> (exists f, In f files /\ (t0 <= fst f <= t1)%Z) ->
  load_amsr proj factors agg data_name b t0 t1 ys xs files = Err ValueError.
Proof.
  intros proj (a, c) agg data_name b t0 t1 ys xs files N A (f & I & R). unfold load_amsr, import_amsr.
  set (fs := filter (fun f => ((t0 <=? fst f) && (fst f <=? t1))%Z) files).
  assert (J : In f fs) by (apply filter_In; split; [exact I|]; apply andb_true_iff; lia).
  clearbody fs. destruct fs as [|g fs]; [destruct J|]. cbn [bind]. unfold downsample_gridded. cbn [fst snd].
  destruct ((a =? 1) && (c =? 1))%Z eqn:E.
  - apply andb_true_iff in E. exfalso. apply N. f_equal; lia.
  - match goal with |- context [existsb (String.eqb agg) ?l] => assert (X : existsb (String.eqb agg) l = true) end.
    { apply existsb_exists. exists agg. split; [exact A|apply String.eqb_refl]. }
    rewrite X. reflexivity.
Qed.
Print Assumptions C72_downsample_refuted.
(** A csv file in projected coordinates is trimmed before it is reprojected: KeyError, or,
    if the coordinates are called 'lat' and 'long', their values are compared with degrees
    and nothing may be left. *)
Theorem C72_csv_refuted : forall proj in_proj out_proj x_col y_col data_name b t, ~ In "lat"%string (map fst t) \/ ~ In "long"%string (map fst t) ->
  load_csv proj in_proj out_proj x_col y_col data_name b t = Err KeyError.
Proof.
  intros. unfold load_csv, trim_table, column_of. destruct (sget t "lat") eqn:A; [|reflexivity]. destruct (sget t "long") eqn:B; [|reflexivity].
  exfalso. destruct H as [H|H]; apply ParamProofs.sget_none in H; congruence.
Qed.
Print Assumptions C72_csv_refuted.
Theorem C72_csv_metres_refuted : exists t, let b := mkB 0 10 0 10 [0; 1]%Z in
  load_csv (fun x y => (x * (1#1000), y * (1#1000))) "EPSG:3031" "EPSG:4326" "long" "lat" None b t = Ok [] /\
  exists t', reproject_df (fun x y => (x * (1#1000), y * (1#1000))) "long" "lat" t = Ok t' /\ exists p, In p (table_points t') /\ belongs b p.
Proof.
  exists [("lat"%string, [ENum (Some 5000)]); ("long"%string, [ENum (Some 6000)]); ("v"%string, [ENum (Some 1)])]. cbv zeta. split; [vm_compute; reflexivity|].
  eexists. split; [reflexivity|]. eexists. split; [left; reflexivity|]. unfold belongs, row_point. cbn. repeat split; cbn; lra || lia.
Qed.
Print Assumptions C72_csv_metres_refuted.
(** Visual_Ice data never load with the default projection, nor from files of other
    types, nor from several files. *)
Theorem C72_visual_iced_refuted : forall proj s x_col y_col data_name b files ds, exists e, load_visual_iced proj s s x_col y_col data_name b files ds = Err e.
Proof.
  intros. unfold load_visual_iced, import_visual_iced. destruct files as [|f [|g files]]; cbn [bind]; [eexists; reflexivity| |eexists; reflexivity].
  destruct (_ || _); cbn [bind]; [rewrite String.eqb_refl|]; eexists; reflexivity.
Qed.
Print Assumptions C72_visual_iced_refuted.
(** A csv file is first cut to the region and the period; where there is a column 'time',
    rows without a day are dropped. *)
Theorem C72_csv_trim : forall b n t t', long_min b < long_max b -> times_ok (time_range b) -> well_formed n t -> trim_table b t = Ok t' ->
  selected (fun p => belongs b p /\ (In "time"%string (map fst t) -> p_time p <> None)) (table_points t) (table_points t').
Proof.
  intros b n t t' L T W E. unfold trim_table in E. destruct (column_of t "lat") as [l|] eqn:A; [|discriminate]. destruct (column_of t "long") as [l'|]; [|discriminate].
  cbn [bind] in E. injection E as <-. rewrite (keep_points _ n t); [|exact W|intros ->; discriminate].
  apply TrimProofs.selected_filter. intros p. unfold belongs. rewrite !andb_true_iff, TrimProofs.df_spatial_spec, TrimProofs.in_time_spec by auto.
  assert (X : stamped t p = true <-> (In "time"%string (map fst t) -> p_time p <> None)).
  { unfold stamped. destruct (sget t "time") as [c|] eqn:G, (p_time p) as [z|].
    - split; [discriminate|reflexivity].
    - split; [discriminate|]. intros H. exfalso. apply H; [|reflexivity]. destruct (in_dec string_dec "time"%string (map fst t)) as [I|I]; [exact I|].
      apply ParamProofs.sget_none in I. congruence.
    - split; [discriminate|reflexivity].
    - split; [intros _ I|reflexivity]. apply ParamProofs.sget_none in G. contradiction. }
  tauto.
Qed.
Print Assumptions C72_csv_trim.
(** Visual Iced takes exactly one file. *)
Theorem C72_visual_iced_files : forall proj in_proj out_proj x_col y_col data_name b files ds, List.length files <> 1%nat ->
  load_visual_iced proj in_proj out_proj x_col y_col data_name b files ds = Err ValueError.
Proof. intros. unfold load_visual_iced, import_visual_iced. destruct files as [|f [|g l]]; [reflexivity|contradiction|reflexivity]. Qed.
Print Assumptions C72_visual_iced_files.
Example C72_csv_case : let b := mkB 0 10 0 10 [0; 1]%Z in
  let t := [("lat"%string, [ENum (Some 5); ENum (Some 5); ENum (Some 50)]); ("long"%string, [ENum (Some 6); ENum (Some 6); ENum (Some 6)]); ("time"%string, [EDay 0; EDay 7; EDay 0]); ("v"%string, [ENum (Some 1); ENum (Some 2); ENum (Some 3)])] in
  long_min b < long_max b /\ times_ok (time_range b) /\ well_formed 3 t /\ exists t', trim_table b t = Ok t' /\ table_points t' = [mkP 5 6 (Some 0%Z) [Some 1]].
Proof.
  cbv zeta. split; [reflexivity|]. split; [right; exists 0%Z, 1%Z; split; [reflexivity|discriminate]|]. split.
  - split; [repeat constructor; cbn; intuition discriminate|]. intros c l [X|[X|[X|[X|[]]]]]; injection X as <- <-; reflexivity.
  - eexists. split; reflexivity.
Qed.
