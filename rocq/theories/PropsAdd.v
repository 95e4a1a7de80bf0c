(** Property theorem C48: adding a source to an existing mesh.  Statements only. *)
From Verif Require Import Base Geo Graph Cell Loaders Builder Spec MeshSpec DataSpec TrimProofs AddLoader AddProofs Examples ExamplesData.
Open Scope Z_scope.

(** C48.  What holds: every cell, and nothing else, gets one more source at the
    end of its list; bounds, ids, depths, parents and the graph stay. *)
Theorem C48_added : forall sqrt n f m,
  ng (add_dataloader sqrt n f m) = ng m /\ glob (add_dataloader sqrt n f m) = glob m /\
  List.length (cells (add_dataloader sqrt n f m)) = List.length (cells m) /\
  (forall i c', live_cell (add_dataloader sqrt n f m) i c' <->
     exists c, live_cell m i c /\ c' = mkCell (cb_bounds c) (cb_id c) (cb_depth c)
       (cb_sources c ++ [new_metadata sqrt n f]) (cb_parent c)).
Proof.
  intros sqrt n f m. split; [reflexivity|]. split; [reflexivity|]. split; [apply map_length|].
  intros i c'. split.
  - apply add_live_inv.
  - intros (c & L & ->). apply (add_live sqrt n f m i c L).
Qed.
Print Assumptions C48_added.

(** The aggregation is right for a vector source kept in a DataFrame with COUNT,
    MEAN or STD when all its points lie in the cell: the added source's value is
    that of the points belonging to the cell. *)
Theorem C48_partial : forall sqrt n f c inside, (2 <= List.length (n_names n))%nat -> n_kind n = Pandas ->
  In (n_agg n) ["COUNT"; "MEAN"; "STD"]%string ->
  (forall p, In p (n_data n) -> belongs (cb_bounds c) p) ->
  selected (belongs (cb_bounds c)) (n_data n) inside ->
  l_value (m_loader (new_metadata sqrt n f)) (cb_bounds c) (m_subset (new_metadata sqrt n f)) =
  vector_value_df sqrt (n_agg n) (n_names n) inside.
Proof.
  intros sqrt n f c inside N K A H S. rewrite (selected_all _ _ _ H S). apply vector_df_value; auto.
Qed.
Print Assumptions C48_partial.

Definition ax_currents : new_loader := mkNew 9 Pandas ["uC"; "vC"]%string "MEAN"
  [mkP (2#10) (102#10) None [Some 1; Some 2]; mkP (5#10) (103#10) None [Some 3; Some 6]]%Q.
Example C48_case : exists u v, l_value (m_loader (new_metadata id_q ax_currents FillParent)) (cb_bounds (cell_at_pos dx_m0 0))
  (m_subset (new_metadata id_q ax_currents FillParent)) = Ok [("uC"%string, Some u); ("vC"%string, Some v)] /\ (u == 2)%Q /\ (v == 4)%Q.
Proof. eexists. eexists. split; [vm_compute; reflexivity|]. split; reflexivity. Qed.
Example C48_case_inside : forall p, In p (n_data ax_currents) -> belongs (cb_bounds (cell_at_pos dx_m0 0)) p.
Proof.
  intros p [<- | [<- | []]]; (split; [|exact I]); vm_compute; intuition congruence.
Qed.

(** What fails.  Every aggregation of a cell with an added scalar source raises
    TypeError, whatever the data; with a vector source kept in a Dataset
    AttributeError; with one kept in a DataFrame and MIN or MAX KeyError. *)
Theorem C48_scalar_refuted : forall sqrt n f m i c ac name, n_names n = [name] ->
  live_cell m i c -> aggregate c = Ok ac ->
  live_cell (add_dataloader sqrt n f m) i (add_source (new_metadata sqrt n f) c) /\
  aggregate (add_source (new_metadata sqrt n f) c) = Err TypeError.
Proof. intros. split; [apply add_live; auto | eapply scalar_raises; eauto]. Qed.
Print Assumptions C48_scalar_refuted.
Theorem C48_vector_xarray_refuted : forall sqrt n f m i c ac, (2 <= List.length (n_names n))%nat -> n_kind n = Xarray ->
  live_cell m i c -> aggregate c = Ok ac ->
  live_cell (add_dataloader sqrt n f m) i (add_source (new_metadata sqrt n f) c) /\
  aggregate (add_source (new_metadata sqrt n f) c) = Err AttributeError.
Proof. intros. split; [apply add_live; auto | eapply vector_xr_raises; eauto]. Qed.
Print Assumptions C48_vector_xarray_refuted.
Theorem C48_vector_extremes_refuted : forall sqrt n f m i c ac, (2 <= List.length (n_names n))%nat -> n_kind n = Pandas ->
  n_agg n = "MIN"%string \/ n_agg n = "MAX"%string -> n_data n <> [] ->
  live_cell m i c -> aggregate c = Ok ac ->
  live_cell (add_dataloader sqrt n f m) i (add_source (new_metadata sqrt n f) c) /\
  aggregate (add_source (new_metadata sqrt n f) c) = Err KeyError.
Proof. intros. split; [apply add_live; auto | eapply vector_df_min_max; eauto]. Qed.
Print Assumptions C48_vector_extremes_refuted.

(** Otherwise every cell gets the value of all the source's points, here the mean
    (5, 7) in a cell that contains no point at all. *)
Definition ax_two : new_loader := mkNew 9 Pandas ["uC"; "vC"]%string "MEAN"
  [mkP (2#10) (102#10) None [Some 1; Some 2]; mkP (15#10) (125#10) None [Some 9; Some 12]]%Q.
Theorem C48_refuted : exists m n i c ac,
  reachable ex_region 1 1 dx_srcs m /\
  (forall p, In p (n_data n) -> belongs ex_region p) /\
  live_cell (add_dataloader id_q n FillParent m) i c /\
  selected (belongs (cb_bounds c)) (n_data n) [] /\
  aggregate c = Ok ac /\ exists v, sget (ac_data ac) "uC"%string = Some (Num (Some v)) /\ (v == 5)%Q.
Proof.
  exists dx_m0, ax_two, 1%nat, (add_source (new_metadata id_q ax_two FillParent) (cell_at_pos dx_m0 1)). eexists.
  split; [exact dx_reachable|]. split.
  { intros p [<- | [<- | []]]; (split; [|exact I]); vm_compute; intuition congruence. }
  split; [apply add_live, cell_at_pos_ok; vm_compute; reflexivity|]. split.
  { change [] with (df_trim (cb_bounds (cell_at_pos dx_m0 1)) (n_data ax_two)).
    apply df_trim_selects; [vm_compute; reflexivity | vm_compute; exact I || (left; reflexivity) || auto]. }
  split; [vm_compute; reflexivity|]. eexists. split; [reflexivity|]. reflexivity.
Qed.
Print Assumptions C48_refuted.

(** A cell made by splitting whose value is missing: the cells it came from are
    no longer in the mesh and did not get the source, so filling from the parent
    raises ValueError. *)
Definition ax_none : new_loader := mkNew 9 Pandas ["uC"; "vC"]%string "MEAN" [].
Definition ax_m : mesh := get_mesh (split_and_replace dx_m0 0).
Lemma ax_reachable : reachable ex_region 1 1 dx_srcs ax_m.
Proof.
  exists dx_m0. split; [exact dx_built|].
  apply (splits_more _ dx_m0 _ 0%nat); [apply splits_none | apply get_mesh_ok; vm_compute; reflexivity].
Qed.
Theorem C48_parent_refuted : exists m n i c ac, reachable ex_region 1 1 dx_srcs m /\ n_data n = [] /\
  live_cell m i c /\ aggregate c = Ok ac /\
  live_cell (add_dataloader id_q n FillParent m) i (add_source (new_metadata id_q n FillParent) c) /\
  aggregate (add_source (new_metadata id_q n FillParent) c) = Err ValueError.
Proof.
  exists ax_m, ax_none, (Nat.pred (List.length (cells ax_m))), (cell_at_pos ax_m (Nat.pred (List.length (cells ax_m)))). eexists.
  split; [exact ax_reachable|]. split; [reflexivity|].
  assert (L : live_cell ax_m (Nat.pred (List.length (cells ax_m))) (cell_at_pos ax_m (Nat.pred (List.length (cells ax_m)))))
    by (apply cell_at_pos_ok; vm_compute; reflexivity).
  split; [exact L|]. split; [vm_compute; reflexivity|]. split; [apply add_live; exact L|]. vm_compute. reflexivity.
Qed.
Print Assumptions C48_parent_refuted.

(** Splitting a cell afterwards: a scalar source's child gets the whole column
    again, a vector source in a DataFrame raises KeyError. *)
Theorem C48_split_refuted : forall n b,
  (forall name, n_names n = [name] ->
     split_subset n b (default_subset (n_kind n) (n_names n) (n_data n)) =
     Ok (default_subset (n_kind n) (n_names n) (n_data n))) /\
  ((2 <= List.length (n_names n))%nat -> n_kind n = Pandas ->
     split_subset n b (default_subset (n_kind n) (n_names n) (n_data n)) = Err KeyError).
Proof.
  intros n b. split.
  - intros name N. unfold split_subset. rewrite N. destruct (n_kind n); reflexivity.
  - intros N ->. destruct (two_names _ N) as (x & y & l & ->). reflexivity.
Qed.
Print Assumptions C48_split_refuted.

(** For comparison, a scalar source of the configuration: its subset is trimmed
    first, and the value is that of the points belonging to the cell. *)
Theorem C48_configured : forall sqrt n name b inside, n_names n = [name] ->
  (long_min b < long_max b)%Q -> times_ok (time_range b) -> selected (belongs b) (n_data n) inside ->
  exists s, configured_subset n b = Ok s /\
    new_value sqrt n b s = (v <- match n_kind n with
                                 | Pandas => value_df sqrt (n_agg n) true (column 0 inside)
                                 | Xarray => value_xr sqrt (n_agg n) true (column 0 inside)
                                 end ;; Ok [(name, v)]).
Proof. exact configured_value. Qed.
Print Assumptions C48_configured.
