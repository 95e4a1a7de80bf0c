(** Property theorem C76: merging a directory of mesh files. *)
From Coq Require Import Permutation.
From Verif Require Import Base Geo Graph Cell Builder Env MergeDir Spec MeshSpec EnvSpec MergeDirSpec QLib Consequences Reach Invariant EnvInv EnvMerge EnvHistory MergeDirProofs Examples ExamplesEnv.
Open Scope Z_scope.

(** C76.  Merging files whose bounds are made of whole cells of the first mesh, and
    whose cells lie in its cells: the command succeeds; the file it writes loads;
    the mesh loaded has exact neighbours, tiles the same region and records the
    configurations; and at every point it shows the cell and the data of the last
    file that covers the point, or of the first mesh where none does. *)
Theorem C76_directory : forall d0 ds m0 ms, load_from_json d0 = Ok m0 -> Forall2 (fun d m => load_from_json d = Ok m) ds ms ->
  proper_file d0 -> Forall proper_file ds ->
  well_kept m0 -> Forall (fits m0) ms -> Forall (aligned_with m0) ms ->
  exists out m, merge_mesh_cli d0 ds = Ok out /\ load_from_json out = Ok m /\ well_kept m /\
    em_bounds m = em_bounds m0 /\ c_merged (em_config m) = c_merged (em_config m0) ++ map em_config ms /\ stacked m0 ms m.
Proof. exact cli_ok. Qed.
Print Assumptions C76_directory.

(** The order of the files does not matter when no point is covered twice: both
    orders succeed, and the files written show the same. *)
Theorem C76_order_partial : forall d0 ds ds' m0 ms ms', load_from_json d0 = Ok m0 ->
  Forall2 (fun d m => load_from_json d = Ok m) ds ms -> Forall2 (fun d m => load_from_json d = Ok m) ds' ms' -> Permutation ms ms' ->
  proper_file d0 -> Forall proper_file ds -> Forall proper_file ds' ->
  well_kept m0 -> Forall (fits m0) ms -> Forall (aligned_with m0) ms -> ForallOrdPairs disjoint ms ->
  exists out out' m m', merge_mesh_cli d0 ds = Ok out /\ merge_mesh_cli d0 ds' = Ok out' /\
    load_from_json out = Ok m /\ load_from_json out' = Ok m' /\
    forall x y, covers m0 x y -> exists c c', seen m x y c /\ seen m' x y c' /\ same_sight c c'.
Proof. exact cli_order. Qed.
Print Assumptions C76_order_partial.

(** One file that is not aligned, wherever it is listed, and nothing is written. *)
Theorem C76_all_or_nothing : forall d0 ds m0 ms, load_from_json d0 = Ok m0 -> Forall2 (fun d m => load_from_json d = Ok m) ds ms ->
  well_kept m0 -> Forall (fits m0) ms -> Exists (fun o => ~ aligned_with m0 o) ms ->
  merge_mesh_cli d0 ds = Err AssertionError.
Proof.
  intros d0 ds m0 ms L0 Ls W F X. unfold merge_mesh_cli. rewrite L0. cbn [bind].
  rewrite (merge_files_all _ _ Ls), (merge_all_refuses ms m0 W F X). reflexivity.
Qed.
Print Assumptions C76_all_or_nothing.

(** The meshes of the examples: [lx], one-degree cells from (0,10) to (2,13);
    [corner], one degree at (0,10); [oy], half degrees at (0,11); [one], one degree
    at (0,11); [wide], one cell of two degrees; [beyond], east of [lx]. *)
Definition one_region : boundary := mkB 0 1 11 12 [].
Definition one_cfg : config := mkCfg one_region 1 1 1 [].
Definition one_m0 : mesh := Eval vm_compute in get_mesh (build_mesh one_region 1 1 []).
Definition one_acs : list agg_cellbox := Eval vm_compute in acs_of one_m0.
Definition one : emesh := Eval vm_compute in get_env (load_from_json (to_json (env_of one_cfg one_m0 one_acs))).
Definition beyond_region : boundary := mkB 0 1 14 15 [].
Definition beyond_cfg : config := mkCfg beyond_region 1 1 1 [].
Definition beyond : emesh := Eval vm_compute in
  let m := get_mesh (build_mesh beyond_region 1 1 []) in get_env (load_from_json (to_json (env_of beyond_cfg m (acs_of m)))).
Lemma one_well_kept : well_kept one /\ (forall c, In c (em_cells one) -> 0 <= e_id c /\ proportioned 1 1 (e_bounds c)) /\
  em_config one = one_cfg /\ em_bounds one = one_region.
Proof.
  apply (loaded_well_kept one_region 1 1 [] one_m0 one_acs one_cfg one); try reflexivity.
  - split; [split; [cbn; lra | left; reflexivity]|]. split; [lra|]. split; [lra|]. intros [H _]. cbn in H. lra.
  - intros [H _]. cbn in H. lra.
  - exists one_m0. split; [vm_compute; reflexivity|constructor].
  - intros ac [<-|[]]. split; [constructor|intros n []].
Qed.
Lemma one_fits : fits lx one.
Proof.
  destruct lx_well_kept as ((S & P & T & Hs & G) & I & Cf & Bd). destruct one_well_kept as ((S' & P' & T' & Hs' & G') & I' & Cf' & Bd').
  split; auto. split; [intros c Hc; apply I'; auto|]. split; auto. split; [rewrite Bd, Bd'; unfold inside; cbn; lra|]. split; auto.
  rewrite Bd, Cf. cbn [c_width c_height lx_cfg]. intros c [<-|[]]. exists 1, 0. repeat split; vm_compute; discriminate.
Qed.
Lemma corner_fits : fits lx corner.
Proof.
  destruct lx_well_kept as ((S & P & T & Hs & G) & I & Cf & Bd). destruct corner_well_kept as ((S' & P' & T' & Hs' & G') & I' & Cf' & Bd').
  split; auto. split; [intros c Hc; apply I'; auto|]. split; auto. split; [rewrite Bd, Bd'; unfold inside; cbn; lra|]. split; auto.
Qed.
Lemma aligned_oy : aligned_with lx oy.
Proof. exists 1, 2, 0, 1. vm_compute. repeat split; reflexivity. Qed.
Lemma aligned_one : aligned_with lx one.
Proof. exists 1, 2, 0, 1. vm_compute. repeat split; reflexivity. Qed.
Lemma aligned_corner : aligned_with lx corner.
Proof. exists 0, 1, 0, 1. vm_compute. repeat split; reflexivity. Qed.
Lemma bare_file j : forallb (fun d => if list_eq_dec String.string_dec (map fst d) ["geometry"; "cx"; "cy"; "dcx"; "dcy"; "id"]%string
  then true else false) (j_cells j) = true -> proper_file j.
Proof.
  intros H d Hd. rewrite forallb_forall in H. specialize (H d Hd). destruct (list_eq_dec _ _ _) as [->|]; [|discriminate].
  repeat constructor; cbn; intuition discriminate.
Qed.
Definition after (ms : list emesh) : emesh :=
  get_env (r <- merge_mesh_cli (to_json lx) (map to_json ms) ;; load_from_json r).
Definition ids_at (m : emesh) (x y : Q) : list (Z * box) :=
  map (fun c => (e_id c, region (e_bounds c)))
    (filter (fun c => let b := region (e_bounds c) in qltb (x0 b) x && qleb x (x1 b) && qltb (y0 b) y && qleb y (y1 b)) (em_cells m)).
Example C76_case : load_from_json (to_json lx) = Ok lx /\
  Forall2 (fun d m => load_from_json d = Ok m) (map to_json [corner; oy; one]) [corner; oy; one] /\
  proper_file (to_json lx) /\ Forall proper_file (map to_json [corner; oy; one]) /\ well_kept lx /\
  Forall (fits lx) [corner; oy; one] /\ Forall (aligned_with lx) [corner; oy; one] /\ ForallOrdPairs disjoint [corner; oy] /\
  ids_at (after [corner; oy]) (11 + (1#4)) (1#4) <> ids_at (after [corner; one]) (11 + (1#4)) (1#4) /\
  ids_at (after [corner; oy]) (10 + (1#4)) (1#4) <> [] /\
  Exists (fun o => ~ aligned_with lx o) [corner; get_env (esplit_and_replace oy (KS 0)); mkEM (mkB 0 1 (21#2) (23#2) []) [] [] lx_cfg].
Proof.
  split; [vm_compute; reflexivity|]. split; [repeat (apply Forall2_cons; [vm_compute; reflexivity|]); apply Forall2_nil|].
  split; [apply bare_file; vm_compute; reflexivity|]. split; [repeat (apply Forall_cons; [apply bare_file; vm_compute; reflexivity|]); apply Forall_nil|].
  split; [apply lx_well_kept|]. split; [repeat (apply Forall_cons; [first [apply corner_fits|apply oy_fits|apply one_fits]|]); apply Forall_nil|].
  split; [repeat (apply Forall_cons; [first [apply aligned_corner|apply aligned_oy|apply aligned_one]|]); apply Forall_nil|].
  split.
  { apply FOP_cons; [apply Forall_cons; [|apply Forall_nil]|apply FOP_cons; [apply Forall_nil|apply FOP_nil]]. intros x y (A & B). unfold covers in A, B.
    change (region (em_bounds corner)) with (Box 10 11 0 1) in A. change (region (em_bounds oy)) with (Box 11 12 0 1) in B.
    unfold mem in A, B. cbn [x0 x1 y0 y1] in A, B. lra. }
  split; [vm_compute; discriminate|]. split; [vm_compute; discriminate|].
  do 2 right. left. intros (i & _ & _ & _ & H & _).
  change (21#2 == 10 + inject_Z i * 1)%Q in H. assert (E : (inject_Z (2 * i) == 1)%Q) by (rewrite inject_Z_mult; change (inject_Z 2) with 2%Q; lra).
  unfold Qeq, inject_Z in E. cbn [Qnum Qden] in E. lia.
Qed.

(** Finding: with files that overlap the result depends on the order in which the
    operating system lists the directory. *)
Theorem C76_order_refuted : exists d0 ds ds' m0 ms out out' m m' x y c c', load_from_json d0 = Ok m0 /\
  Forall2 (fun d m => load_from_json d = Ok m) ds ms /\ Permutation ds ds' /\
  proper_file d0 /\ Forall proper_file ds /\ well_kept m0 /\ Forall (fits m0) ms /\ Forall (aligned_with m0) ms /\
  merge_mesh_cli d0 ds = Ok out /\ merge_mesh_cli d0 ds' = Ok out' /\
  load_from_json out = Ok m /\ load_from_json out' = Ok m' /\
  seen m x y c /\ seen m' x y c' /\ ~ same_sight c c'.
Proof.
  exists (to_json lx), (map to_json [oy; one]), (map to_json [one; oy]), lx, [oy; one].
  exists (to_json (get_env (merge_all lx [oy; one]))), (to_json (get_env (merge_all lx [one; oy]))).
  exists (after [oy; one]), (after [one; oy]).
  exists (11 + (1#4))%Q, (1#4)%Q.
  exists (List.last (em_cells (after [oy; one])) (mkE one_region [] 0)), (List.nth 11 (em_cells (after [one; oy])) (mkE one_region [] 0)).
  split; [vm_compute; reflexivity|]. split; [repeat (apply Forall2_cons; [vm_compute; reflexivity|]); apply Forall2_nil|]. split; [apply perm_swap|].
  split; [apply bare_file; vm_compute; reflexivity|]. split; [repeat (apply Forall_cons; [apply bare_file; vm_compute; reflexivity|]); apply Forall_nil|].
  split; [apply lx_well_kept|]. split; [repeat (apply Forall_cons; [first [apply oy_fits|apply one_fits]|]); apply Forall_nil|].
  split; [repeat (apply Forall_cons; [first [apply aligned_oy|apply aligned_one]|]); apply Forall_nil|].
  split; [vm_compute; reflexivity|]. split; [vm_compute; reflexivity|]. split; [vm_compute; reflexivity|]. split; [vm_compute; reflexivity|].
  split; [split; [vm_compute; tauto|vm_compute; repeat split; discriminate || reflexivity]|].
  split; [split; [vm_compute; tauto|vm_compute; repeat split; discriminate || reflexivity]|].
  intros (E & _). vm_compute in E. discriminate.
Qed.
Print Assumptions C76_order_refuted.
(** Finding: whether the merged mesh is in order can depend on that too. *)
Theorem C76_overlap_refuted : exists d0 ds ds' m0 out out' m m', load_from_json d0 = Ok m0 /\ well_kept m0 /\ Permutation ds ds' /\
  Forall (fun d => exists o, load_from_json d = Ok o /\ well_kept o /\ aligned_with m0 o) ds /\
  merge_mesh_cli d0 ds = Ok out /\ merge_mesh_cli d0 ds' = Ok out' /\
  load_from_json out = Ok m /\ load_from_json out' = Ok m' /\ cells_apart (em_cells m) /\ ~ cells_apart (em_cells m').
Proof.
  exists (to_json lx), (map to_json [corner; wide]), (map to_json [wide; corner]), lx.
  exists (to_json (get_env (merge_all lx [corner; wide]))), (to_json (get_env (merge_all lx [wide; corner]))).
  exists (after [corner; wide]), (after [wide; corner]).
  split; [vm_compute; reflexivity|]. split; [apply lx_well_kept|]. split; [apply perm_swap|].
  split.
  { apply Forall_cons; [|apply Forall_cons; [|apply Forall_nil]].
    - exists corner. split; [vm_compute; reflexivity|]. split; [apply corner_well_kept|]. exact aligned_corner.
    - exists wide. split; [vm_compute; reflexivity|]. split; [apply wide_well_kept|].
      exists 0, 2, 0, 2. vm_compute. repeat split; reflexivity. }
  split; [vm_compute; reflexivity|]. split; [vm_compute; reflexivity|]. split; [vm_compute; reflexivity|]. split; [vm_compute; reflexivity|].
  split.
  - set (m := after [corner; wide]). vm_compute in m. subst m. unfold cells_apart. cbn [em_cells].
    intros c c' Hc Hc' Ne x y. unfold interior. cbn [In] in Hc, Hc'.
    repeat (destruct Hc as [<-|Hc]; [|]); [..|destruct Hc];
    repeat (destruct Hc' as [<-|Hc']; [|]); try (destruct Hc'); try (cbn [e_id] in Ne; congruence);
    cbn; lra.
  - intros A. assert (H2 : exists c c', In c (em_cells (after [wide; corner])) /\ In c' (em_cells (after [wide; corner])) /\ e_id c <> e_id c' /\
      region (e_bounds c) = Box 10 12 0 2 /\ region (e_bounds c') = Box 10 11 0 1).
    { exists (List.nth 2 (em_cells (after [wide; corner])) (mkE one_region [] 0)), (List.nth 3 (em_cells (after [wide; corner])) (mkE one_region [] 0)).
      split; [vm_compute; tauto|]. split; [vm_compute; tauto|].
      split; [vm_compute; discriminate|]. split; vm_compute; reflexivity. }
    destruct H2 as (c & c' & Hc & Hc' & Ne & E1 & E2). apply (A c c' Hc Hc' Ne (21#2)%Q (1#2)%Q). rewrite E1, E2. cbn. lra.
Qed.
Print Assumptions C76_overlap_refuted.
(** Finding: a mesh outside the first one's bounds is accepted when its edges are on
    the grid; the merged mesh then has cells outside its own bounds. *)
Theorem C76_outside_refuted : exists d0 d m0 o out m c, load_from_json d0 = Ok m0 /\ well_kept m0 /\ load_from_json d = Ok o /\
  (forall x y, ~ (covers m0 x y /\ covers o x y)) /\
  merge_mesh_cli d0 [d] = Ok out /\ load_from_json out = Ok m /\ em_bounds m = em_bounds m0 /\
  In c (em_cells m) /\ ~ inside (em_bounds m) (e_bounds c).
Proof.
  exists (to_json lx), (to_json beyond), lx, beyond, (to_json (get_env (merge_all lx [beyond]))), (after [beyond]).
  exists (List.last (em_cells (after [beyond])) (mkE one_region [] 0)).
  split; [vm_compute; reflexivity|]. split; [apply lx_well_kept|]. split; [vm_compute; reflexivity|].
  split. { intros x y (A & B). unfold covers in A, B. change (region (em_bounds lx)) with (Box 10 13 0 2) in A.
    change (region (em_bounds beyond)) with (Box 14 15 0 1) in B. unfold mem in A, B. cbn [x0 x1 y0 y1] in A, B. lra. }
  split; [vm_compute; reflexivity|]. split; [vm_compute; reflexivity|]. split; [vm_compute; reflexivity|].
  split; [vm_compute; tauto|]. vm_compute. intros (_ & H & _). apply H. reflexivity.
Qed.
Print Assumptions C76_outside_refuted.
