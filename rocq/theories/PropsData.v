(** Property theorems C16-C23: data selection, homogeneity, aggregation, filling.
    Statements only; every proof is a lemma of another file. *)
From Verif Require Import Base Geo Graph Cell Loaders Builder Env Spec MeshSpec DataSpec Invariant Consequences Reach MeshFacts TrimProofs XrProofs AggProofs FillProofs Adaptive ChainProofs VectorChain AdaptiveFacts Examples ExamplesData.
Open Scope Z_scope.

(** C16.  Trimming keeps exactly the points of the half-open region and period. *)
Theorem C16_trim_half_open : forall b d, (long_min b < long_max b)%Q -> times_ok (time_range b) ->
  selected (belongs b) d (df_trim b d) /\ selected (belongs b) d (xr_trim_rows b d).
Proof. intros b d L T. rewrite xr_trim_rows_df by auto. split; apply df_trim_selects; auto. Qed.
Print Assumptions C16_trim_half_open.
(** The axis-wise trimming of a Dataset with increasing axes keeps exactly those rows. *)
Theorem C16_xarray_axes : forall b ds, increasing (x_lat ds) -> increasing (x_long ds) ->
  (forall ts, x_time ds = Some ts -> increasing_z ts) ->
  (x_time ds <> None -> exists t0 t1, time_range b = [t0; t1]) ->
  (long_min b < long_max b \/ long_max b < long_min b)%Q ->
  exists ds', xr_trim b ds = Ok ds' /\ xr_points ds' = xr_trim_rows b (xr_points ds).
Proof. exact xr_trim_rows_ok. Qed.
Print Assumptions C16_xarray_axes.
(** In a mesh obtained by any splits the live cells' subsets of a source, one after
    the other, are a permutation of the source's points in the region: every
    point is in exactly one live cell, and counts add up. *)
Theorem C16_points_partitioned : forall b cw ch srcs m k s total,
  admissible b cw ch -> reachable b cw ch srcs m ->
  nth_error srcs k = Some s -> trims_exactly (m_loader s) ->
  selected (belongs b) (m_subset s) total ->
  Permutation (all_subsets k m) total.
Proof. exact data_partition. Qed.
Print Assumptions C16_points_partitioned.
(** One split partitions the cell's points among its four children. *)
Theorem C16_split_partitions : forall b cw ch srcs m k s i c m',
  admissible b cw ch -> reachable b cw ch srcs m ->
  nth_error srcs k = Some s -> trims_exactly (m_loader s) ->
  live_cell m i c -> split_and_replace m i = Ok m' ->
  exists kids, map Some kids = skipn (List.length (cells m)) (cells m') /\ List.length kids = 4%nat /\
    Permutation (flat_map (subset_of k) kids) (subset_of k c).
Proof.
  intros b cw ch srcs m k s i c m' A R N T L E.
  exact (split_partitions k (m_loader s) (m_subset s) (time_range b) m i m' c
    (proj1 (reachable_inv b cw ch srcs m A R)) E L T (proj2 (proj1 A)) (reachable_subsets b cw ch srcs m k s A R N T)).
Qed.
Print Assumptions C16_split_partitions.
(** The three kinds of loaders trim exactly. *)
Theorem C16_loaders_trim_exactly : forall uid name names agg min_dp whole sqrt,
  trims_exactly (scalar_df uid name agg min_dp sqrt) /\ trims_exactly (scalar_xr uid name agg min_dp sqrt) /\
  trims_exactly (vector_df uid names agg min_dp whole sqrt).
Proof. intros. split; [apply df_trims_exactly|split; [apply xr_trims_exactly|apply vector_trims_exactly]]. Qed.
Print Assumptions C16_loaders_trim_exactly.
Example C16_case : exists s, nth_error dx_srcs 0 = Some s /\ trims_exactly (m_loader s) /\
  map (fun c => List.length (subset_of 0 c)) (live_list dx_m1) = [0;0;0;0;1;0;2;1;0]%nat /\
  List.length (all_subsets 0 dx_m1) = 4%nat.
Proof. exists dx_sic. split; [reflexivity|]. split; [apply df_trims_exactly|]. vm_compute. auto. Qed.

(** C17.  Bounds crossing the antimeridian.  For Datasets the rows kept are exactly
    those of the crossing region ... *)
Theorem C17_xarray_crossing : forall b d, (long_max b < long_min b)%Q -> times_ok (time_range b) ->
  (forall p, In p d -> (-180 <= p_long p <= 180)%Q) ->
  selected (belongs_crossing b) d (xr_trim_rows b d).
Proof. exact xr_crossing. Qed.
Print Assumptions C17_xarray_crossing.
(** ... for DataFrames exactly the complementary ones, so the property fails. *)
Theorem C17_dataframe_complement : forall b d, (long_max b < long_min b)%Q -> times_ok (time_range b) ->
  selected (fun p => (lat_min b < p_lat p <= lat_max b)%Q /\
                     ~ (long_min b < p_long p \/ p_long p <= long_max b)%Q /\ on_date b p) d (df_trim b d).
Proof. exact df_crossing. Qed.
Print Assumptions C17_dataframe_complement.
Definition c17_bounds : boundary := mkB 0 10 170 (-170) [].
Theorem C17_dataframe_refuted : exists b d, (long_max b < long_min b)%Q /\ times_ok (time_range b) /\
  (forall p, In p d -> (-180 <= p_long p <= 180)%Q) /\ ~ selected (belongs_crossing b) d (df_trim b d).
Proof.
  exists c17_bounds, [pt 5 175 1; pt 5 0 2]. split; [cbn; lra|]. split; [left; reflexivity|]. split.
  - intros p [<-|[<-|[]]]; cbn; lra.
  - intros S. assert (T : selected (belongs_crossing c17_bounds) [pt 5 175 1; pt 5 0 2] (xr_trim_rows c17_bounds [pt 5 175 1; pt 5 0 2])).
    { apply xr_crossing; [cbn; lra|left; reflexivity|]. intros p [<-|[<-|[]]]; cbn; lra. }
    pose proof (selected_unique _ _ _ _ S T) as E. vm_compute in E. discriminate.
Qed.
Print Assumptions C17_dataframe_refuted.
Example C17_case : xr_trim_rows c17_bounds [pt 5 175 1; pt 5 0 2; pt 5 (-175) 3; pt 5 170 4; pt 5 (-170) 5] = [pt 5 175 1; pt 5 (-175) 3; pt 5 (-170) 5] /\
  df_trim c17_bounds [pt 5 175 1; pt 5 0 2; pt 5 (-175) 3; pt 5 170 4; pt 5 (-170) 5] = [pt 5 0 2; pt 5 170 4].
Proof. vm_compute. auto. Qed.

(** C18.  The homogeneity condition is decided by the fraction of the known values
    above the threshold. *)
Theorem C18_homogeneity : forall min_dp c dps, min_dp <= Z.of_nat (List.length dps) ->
  let f := fraction_over (c_threshold c) dps in
  ((f <= c_lower c)%Q -> scalar_hom min_dp c dps = CLR) /\
  ((c_lower c < f)%Q -> (c_upper c <= f)%Q -> scalar_hom min_dp c dps = if c_lock c then HOM else CLR) /\
  ((c_lower c < f)%Q -> (f < c_upper c)%Q -> scalar_hom min_dp c dps = HET).
Proof. exact scalar_hom_enough. Qed.
Print Assumptions C18_homogeneity.
Theorem C18_fraction_range : forall t l, (0 <= fraction_over t l <= 1)%Q.
Proof. exact fraction_range. Qed.
Print Assumptions C18_fraction_range.
Example C18_case : scalar_hom 2 (mkCond 5 (1#4) (3#4) true) [Some 9; None; Some 2; Some 1]%Q = HET /\
  scalar_hom 2 (mkCond 5 (1#3) (3#4) true) [Some 9; None; Some 2; Some 1]%Q = CLR /\
  scalar_hom 2 (mkCond 0 (1#3) (3#4) true) [Some 9; None; Some 2; Some 1]%Q = HOM /\
  scalar_hom 2 (mkCond 0 (1#3) (3#4) false) [Some 9; None; Some 2; Some 1]%Q = CLR.
Proof. vm_compute. auto. Qed.

(** C19.  With fewer than min_dp points the answer is CLR, not the documented MIN ... *)
Theorem C19_too_few_is_clr : forall min_dp c dps, Z.of_nat (List.length dps) < min_dp -> scalar_hom min_dp c dps = CLR.
Proof. exact scalar_hom_few. Qed.
Print Assumptions C19_too_few_is_clr.
(** ... MIN is never answered ... *)
Theorem C19_never_min : forall min_dp c dps whole b, scalar_hom min_dp c dps <> MIN /\ vector_hom_dmag min_dp whole b c <> MIN.
Proof. intros. split; [apply scalar_hom_never_min|apply vector_hom_never_min]. Qed.
Print Assumptions C19_never_min.
(** ... and the cell can be split because of another source. *)
Theorem C19_too_few_refuted : exists c n s cd, In s (firstn n (cb_sources c)) /\ In cd (m_conds s) /\
  m_loader s = scalar_df 2 "thickness" "MEAN" 10 id_q /\ Z.of_nat (List.length (m_subset s)) < 10 /\
  l_hom (m_loader s) (cb_bounds c) cd (m_subset s) <> MIN /\ should_split c n = Ok true.
Proof.
  exists (mkCell (mkB 0 1 10 11 []) 0 0
    [ mkMeta (scalar_df 1 "SIC" "MEAN" 1 id_q) [mkCond 5 (1#10) (9#10) false] FillParent
        [pt (2#10) (102#10) 10; pt (7#10) (107#10) 0];
      mkMeta (scalar_df 2 "thickness" "MEAN" 10 id_q) [mkCond 5 (1#10) (9#10) true] FillParent
        [pt (2#10) (102#10) 10] ] None), 2%nat.
  eexists. eexists. split; [right; left; reflexivity|]. split; [left; reflexivity|]. split; [reflexivity|].
  split; [vm_compute; reflexivity|]. split; [vm_compute; discriminate|vm_compute; reflexivity].
Qed.
Print Assumptions C19_too_few_refuted.

(** C20.  Aggregates of at least one known value are ordered, MIN and MAX are
    attained; for DataFrames ([from_xr] = false) and Datasets. *)
Theorem C20_aggregates_bounded : forall (from_xr : bool) sqrt l x, In (Some x) l ->
  let value agg := if from_xr then value_xr sqrt agg true l else value_df sqrt agg true l in
  exists mn mean med mx,
    value "MIN"%string = Ok (Some mn) /\ value "MEAN"%string = Ok (Some mean) /\
    value "MEDIAN"%string = Ok (Some med) /\ value "MAX"%string = Ok (Some mx) /\
    In (Some mn) l /\ In (Some mx) l /\
    (forall y, In (Some y) l -> mn <= y <= mx)%Q /\ (mn <= mean <= mx)%Q /\ (mn <= med <= mx)%Q.
Proof. exact value_bounds. Qed.
Print Assumptions C20_aggregates_bounded.
Theorem C20_order_independent : forall sqrt agg skipna l l',
  (forall a b, (a == b)%Q -> (sqrt a == sqrt b)%Q) -> Permutation l l' ->
  same_value (value_df sqrt agg skipna l) (value_df sqrt agg skipna l') /\
  same_value (value_xr sqrt agg skipna l) (value_xr sqrt agg skipna l').
Proof. intros. split; [apply value_df_perm|apply value_xr_perm]; auto. Qed.
Print Assumptions C20_order_independent.
Theorem C20_count : forall sqrt l, value_df sqrt "COUNT" true l = Ok (Some (inject_Z (known l))) /\
  value_xr sqrt "COUNT" true l = Ok (Some (inject_Z (Z.of_nat (List.length l)))).
Proof. intros. split; [apply count_df|apply count_xr]. Qed.
Print Assumptions C20_count.
Theorem C20_no_data : forall (from_xr : bool) sqrt l agg, (forall x, ~ In (Some x) l) -> agg <> "COUNT"%string ->
  (if from_xr then value_xr sqrt agg true l else value_df sqrt agg true l) = Ok None.
Proof. exact value_nan. Qed.
Print Assumptions C20_no_data.
Example C20_case : value_df id_q "MEDIAN" true [Some 3; None; Some 1; Some 8; Some 2]%Q = Ok (Some (5#2)%Q) /\
  value_xr id_q "MEAN" true [Some 3; None; Some 1; Some 8; Some 2]%Q = Ok (Some (14#4)%Q) /\
  value_df id_q "COUNT" true [Some 3; None; Some 1; Some 8; Some 2]%Q = Ok (Some 4%Q).
Proof. vm_compute. auto. Qed.
(** COUNT of a Dataset counts missing values too. *)
Theorem C20_dataset_count_refuted : exists sqrt l v, value_xr sqrt "COUNT" true l = Ok (Some v) /\ ~ (v == inject_Z (known l))%Q.
Proof. exists id_q, [Some 1; None]%Q, 2%Q. split; [reflexivity|]. vm_compute. discriminate. Qed.
Print Assumptions C20_dataset_count_refuted.
(** A vector source's MIN depends on the order of rows of equal magnitude. *)
Theorem C20_vector_order_refuted : exists d d', Permutation d d' /\
  vector_values_df id_q "MIN" 2 d <> vector_values_df id_q "MIN" 2 d' /\
  vector_values_df id_q "MAX" 2 d <> vector_values_df id_q "MAX" 2 d'.
Proof.
  exists [mkP 0 0 None [Some 3; Some 4]; mkP 0 0 None [Some 4; Some 3]]%Q,
         [mkP 0 0 None [Some 4; Some 3]; mkP 0 0 None [Some 3; Some 4]]%Q.
  split; [constructor|]. split; vm_compute; discriminate.
Qed.
Print Assumptions C20_vector_order_refuted.

(** C21.  In any reachable mesh the aggregated value of a scalar source whose name
    is used once is the source's value for the cell, filled as configured: from
    the nearest ancestor with data, or with the given number ([filled_value]). *)
Theorem C21_missing_values_filled : forall b cw ch srcs m i c s,
  admissible b cw ch -> reachable b cw ch srcs m ->
  (forall s, In s srcs -> scalar_source s) -> NoDup (map (fun s => l_uid (m_loader s)) srcs) ->
  NoDup (map source_name srcs) -> live_cell m i c -> In s srcs ->
  exists ac, aggregate c = Ok ac /\ sget (ac_data ac) (source_name s) = Some (Num (filled_value s c)).
Proof.
  intros b cw ch srcs m i c s A R S N N' L Hs.
  destruct (aggregate_reachable b cw ch srcs m i c A R S N L) as (ac & E & _ & _ & V).
  exists ac. split; auto. rewrite V. apply merged_once; auto.
Qed.
Print Assumptions C21_missing_values_filled.
Theorem C21_filled_value_meaning : forall s c,
  (forall q, m_fill s = FillNum q -> whole_value s c = None -> filled_value s c = Some q) /\
  (forall x, whole_value s c = Some x -> m_fill s <> FillNan -> filled_value s c = Some x) /\
  (m_fill s = FillParent -> forall l a l' x, c :: ancestors c = l ++ a :: l' ->
     (forall a', In a' l -> whole_value s a' = None) -> whole_value s a = Some x -> filled_value s c = Some x) /\
  (m_fill s = FillParent -> (forall a, In a (c :: ancestors c) -> whole_value s a = None) -> filled_value s c = None).
Proof.
  intros s c. unfold filled_value. split; [|split; [|split]].
  - intros q -> ->. auto.
  - intros x Hx Hf. destruct (m_fill s); cbn [map first_known]; rewrite Hx; auto.
  - intros -> l a l' x E N Hx. rewrite E. clear E. induction l as [|y l IH]; cbn [app map first_known]; [rewrite Hx; auto|].
    rewrite (N y) by (left; auto). apply IH. intros; apply N; right; auto.
  - intros -> N. induction (c :: ancestors c) as [|y l IH]; cbn [map first_known]; auto.
    rewrite (N y) by (left; auto). apply IH. intros; apply N; right; auto.
Qed.
Print Assumptions C21_filled_value_meaning.
Example C21_case : let c := cell_at_pos dx_m1 9 in
  whole_value dx_sic c = None /\ map cb_id (ancestors c) = [0] /\
  whole_value dx_sic (cell_at_pos dx_m0 0) = Some (11#3)%Q /\ filled_value dx_sic c = Some (11#3)%Q /\
  whole_value dx_depth c = None /\ filled_value dx_depth c = Some 0%Q /\
  NoDup (map source_name [dx_sic; dx_depth]).
Proof. vm_compute. repeat split; auto. repeat constructor; cbn; intuition discriminate. Qed.

(** With the fill type 'Nan' the value is not NaN but a text, in the mesh file as well. *)
Theorem C21_nan_text : forall c s name, cb_sources c = [s] -> l_names (m_loader s) = [name] -> m_fill s = FillNan ->
  l_value (m_loader s) (cb_bounds c) (m_subset s) = Ok [(name, None)] ->
  exists ac, aggregate c = Ok ac /\ e_data (ecell_of ac) = [(name, JText "Nan")].
Proof.
  intros c s name Hs Hn Hf Hv. unfold aggregate. rewrite Hs. cbn [foldM]. unfold source_values. rewrite Hv, Hn. cbn [bind sget]. rewrite String.eqb_refl, Hf.
  cbn [to_avals map fst snd sset]. rewrite String.eqb_refl. cbn [bind]. eexists. split; reflexivity.
Qed.
Print Assumptions C21_nan_text.
Definition nx_src (uid : Z) (d : data) : metadata := mkMeta (scalar_df uid "SIC" "MEAN" 1 id_q) [] FillNan d.
Definition nx_cell : cellbox := mkCell (mkB 0 1 10 11 []) 0 0 [nx_src 1 []; nx_src 2 [pt (1#2) (21#2) 7]] None.
Example C21_nan_case : l_names (m_loader (nx_src 1 [])) = ["SIC"%string] /\ m_fill (nx_src 1 []) = FillNan /\ l_value (m_loader (nx_src 1 [])) (cb_bounds nx_cell) (m_subset (nx_src 1 [])) = Ok [("SIC"%string, None)].
Proof. repeat split. Qed.

(** C22.  Vector sources filling from the parent: each component is that of the
    nearest cell of the ancestor chain in which it is known. *)
Theorem C22_vector_components_filled : forall b cw ch srcs m i c k s0 s,
  admissible b cw ch -> reachable b cw ch srcs m ->
  (forall s, In s srcs -> trims_exactly (m_loader s)) -> NoDup (map (fun s => l_uid (m_loader s)) srcs) ->
  live_cell m i c ->
  nth_error srcs k = Some s0 -> nth_error (cb_sources c) k = Some s -> vector_source s0 ->
  exists v, source_values c s = Ok v /\ map fst v = l_names (m_loader s0) /\
    forall name, In name (l_names (m_loader s0)) ->
      sget v name = Some (Num (first_known (map (component s0 name) (c :: ancestors c)))).
Proof. exact vector_cell. Qed.
Print Assumptions C22_vector_components_filled.
Definition vx_data : data := [mkP (2#10) (102#10) None [Some 3; None]; mkP (7#10) (107#10) None [Some 1; Some 4]]%Q.
Definition vx_src : metadata := mkMeta (vector_df 7 ["uC"; "vC"]%string "MEAN" 1 vx_data id_q) [] FillParent vx_data.
Definition vx_m0 : mesh := get_mesh (build_mesh ex_region 1 1 [vx_src]).
Definition vx_m1 : mesh := get_mesh (split_and_replace vx_m0 0).
Example C22_case : vector_source vx_src /\ reachable ex_region 1 1 [vx_src] vx_m1 /\
  match nth_error (cb_sources (cell_at_pos vx_m1 8)) 0 with
  | Some s => source_values (cell_at_pos vx_m1 8) s = Ok [("uC", Num (Some 3)); ("vC", Num (Some 4))]%string%Q
  | None => False
  end.
Proof.
  split; [|split].
  - split; [|reflexivity]. exists 7, ["uC"; "vC"]%string, "MEAN"%string, 1, vx_data, id_q.
    split; [cbn; auto 10|]. split; [repeat constructor; cbn; intuition discriminate|]. split; [cbn; lia|reflexivity].
  - exists vx_m0. split; [apply get_mesh_ok; vm_compute; reflexivity|]. apply (splits_more _ vx_m0 _ 0); [apply splits_none|].
    apply get_mesh_ok. vm_compute. reflexivity.
  - vm_compute. reflexivity.
Qed.
(** With a number as fill value the component stays missing. *)
Theorem C22_numeric_fill_refuted : exists c s q v, m_fill s = FillNum q /\ l_names (m_loader s) = ["uC"; "vC"]%string /\
  source_values c s = Ok v /\ sget v "uC"%string = Some (Num None) /\ sget v "uC,vC"%string = Some (Num (Some q)).
Proof.
  exists (mkCell (mkB 0 1 10 11 []) 0 0 [] None),
    (mkMeta (vector_df 7 ["uC"; "vC"]%string "MEAN" 1 [] id_q) [] (FillNum 0) []), 0%Q.
  eexists. split; [reflexivity|]. split; [reflexivity|]. split; [vm_compute; reflexivity|]. split; reflexivity.
Qed.
Print Assumptions C22_numeric_fill_refuted.

(** C23.  Scalar sources: under each name the aggregated cell has the first known
    filled value among the sources of that name, in source order, and no other
    names ([merged_value]). *)
Theorem C23_first_known_source_wins : forall b cw ch srcs m i c,
  admissible b cw ch -> reachable b cw ch srcs m ->
  (forall s, In s srcs -> scalar_source s) -> NoDup (map (fun s => l_uid (m_loader s)) srcs) -> live_cell m i c ->
  exists ac, aggregate c = Ok ac /\ ac_bounds ac = cb_bounds c /\ ac_id ac = cb_id c /\
    forall n, sget (ac_data ac) n = merged_value n srcs c.
Proof. exact aggregate_reachable. Qed.
Print Assumptions C23_first_known_source_wins.
Example C23_case : merged_value "SIC" dx_srcs (cell_at_pos dx_m1 8) = Some (Num (Some 10%Q)) /\
  merged_value "SIC" dx_srcs (cell_at_pos dx_m1 3) = Some (Num (Some 55%Q)) /\
  filled_value dx_sic2 (cell_at_pos dx_m1 8) = Some 99%Q /\ merged_value "thickness" dx_srcs (cell_at_pos dx_m1 3) = None.
Proof. vm_compute. auto. Qed.
(** After a source that fills with 'Nan' a cell without data cannot be aggregated: the next
    source of the name raises TypeError, whatever it holds. *)
Theorem C23_nan_refuted : forall c s1 s2 rest name v2, cb_sources c = s1 :: s2 :: rest ->
  l_names (m_loader s1) = [name] -> l_names (m_loader s2) = [name] -> m_fill s1 = FillNan ->
  l_value (m_loader s1) (cb_bounds c) (m_subset s1) = Ok [(name, None)] -> source_values c s2 = Ok v2 ->
  aggregate c = Err TypeError.
Proof.
  intros c s1 s2 rest name v2 Hs H1 H2 Hf Hv Hv2. unfold aggregate. rewrite Hs. cbn [foldM]. unfold source_values at 1. rewrite Hv, H1, H2. cbn [bind sget].
  rewrite String.eqb_refl, Hf. cbn [to_avals map fst snd sset]. rewrite String.eqb_refl. cbn [bind fill_value]. rewrite !join_single.
  unfold merge_values at 1. cbn [sget supdate fold_left fst snd sset bind]. rewrite Hv2. cbn [bind].
  unfold merge_values at 1. cbn [sget]. rewrite String.eqb_refl. reflexivity.
Qed.
Print Assumptions C23_nan_refuted.
Example C23_nan_case : source_values nx_cell (nx_src 2 [pt (1#2) (21#2) 7]) = Ok [("SIC"%string, Num (Some 7%Q))] /\ aggregate nx_cell = Err TypeError.
Proof. split; vm_compute; reflexivity. Qed.
(** Vector sources of the same name: the last one wins although the first has values. *)
Theorem C23_vector_refuted : exists c s1 s2 ac, cb_sources c = [s1; s2] /\
  l_names (m_loader s1) = ["uC"; "vC"]%string /\ l_names (m_loader s2) = ["uC"; "vC"]%string /\
  source_values c s1 = Ok [("uC", Num (Some 1)); ("vC", Num (Some 2))]%string%Q /\
  aggregate c = Ok ac /\ sget (ac_data ac) "uC"%string = Some (Num (Some 8%Q)).
Proof.
  set (d1 := [mkP (1#2) (21#2) None [Some 1; Some 2]]%Q). set (d2 := [mkP (1#2) (21#2) None [Some 8; Some 9]]%Q).
  exists (mkCell (mkB 0 1 10 11 []) 0 0
    [ mkMeta (vector_df 1 ["uC"; "vC"]%string "MEAN" 1 d1 id_q) [] FillParent d1;
      mkMeta (vector_df 2 ["uC"; "vC"]%string "MEAN" 1 d2 id_q) [] FillParent d2 ] None).
  eexists. eexists. eexists. split; [reflexivity|]. split; [reflexivity|]. split; [reflexivity|].
  split; [vm_compute; reflexivity|]. split; [vm_compute; reflexivity|]. reflexivity.
Qed.
Print Assumptions C23_vector_refuted.
