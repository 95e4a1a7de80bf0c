(** Concrete loaded meshes used to show that the hypotheses of the theorems on
    environment meshes are met. *)
From Verif Require Import Base Geo Graph Cell Builder Env Spec MeshSpec EnvSpec QLib SplitGeo Invariant Consequences Reach MeshFacts ChainProofs EnvInv EnvMerge EnvJson EnvLink EnvQuery EnvHistory Examples.
Open Scope Z_scope.

Definition no_env : emesh := mkEM (mkB 0 0 0 0 []) [] [] (mkCfg (mkB 0 0 0 0 []) 0 0 0 []).
Definition get_env (r : res emesh) : emesh := match r with Ok m => m | Err _ => no_env end.
Definition acs_of (m : mesh) : list agg_cellbox := match mapM aggregate (live_list m) with Ok l => l | Err _ => [] end.

(** The regional mesh of Examples.v (6 cells, three splits), loaded. *)
Definition lx_cfg : config := mkCfg ex_region 1 1 3 [].
Definition lx_acs : list agg_cellbox := Eval vm_compute in acs_of ex_m3.
Definition lx : emesh := Eval vm_compute in get_env (load_from_json (to_json (env_of lx_cfg ex_m3 lx_acs))).
Lemma lx_loaded : load_from_json (to_json (env_of lx_cfg ex_m3 lx_acs)) = Ok lx.
Proof. vm_compute. reflexivity. Qed.
Lemma lx_ids : map ac_id lx_acs = map cb_id (live_list ex_m3).
Proof. vm_compute. reflexivity. Qed.
Lemma lx_bounds : map ac_bounds lx_acs = map cb_bounds (live_list ex_m3).
Proof. vm_compute. reflexivity. Qed.
Lemma lx_plain : forall ac, In ac lx_acs -> plain_data (e_data (ecell_of ac)).
Proof.
  assert (H : forallb (fun ac => match ac_data ac with [] => true | _ => false end) lx_acs = true) by (vm_compute; reflexivity).
  rewrite forallb_forall in H. intros ac Hac. specialize (H ac Hac). unfold ecell_of. destruct (ac_data ac); [|discriminate].
  split; [constructor|intros n []].
Qed.

Lemma loaded_well_kept b cw ch srcs m acs cfg em : admissible b cw ch -> ~ spans_globe b -> reachable b cw ch srcs m ->
  map ac_id acs = map cb_id (live_list m) -> map ac_bounds acs = map cb_bounds (live_list m) ->
  (forall ac, In ac acs -> plain_data (e_data (ecell_of ac))) -> c_region cfg = b -> c_width cfg = cw -> c_height cfg = ch ->
  (lat_min b < lat_max b)%Q ->
  load_from_json (to_json (env_of cfg m acs)) = Ok em ->
  well_kept em /\ (forall c, In c (em_cells em) -> 0 <= e_id c /\ proportioned cw ch (e_bounds c)) /\ em_config em = cfg /\ em_bounds em = b.
Proof.
  intros A Ng Rm E1 E2 Pd Ec Ew Eh Hl L.
  destruct (built_loads_sound b cw ch srcs m acs cfg A Ng Rm E1 E2 Pd Ec) as (em' & L' & Cf & Bd & S & T & F).
  rewrite L in L'. injection L' as <-. pose proof A as (((V1 & V2 & V3 & V4) & V5) & Hcw & Hch & _).
  unfold well_kept. rewrite Cf, Bd, Ew, Eh. split; [|split; [|auto]].
  - split; auto. split; [split; [lra|auto]|]. split; auto. split; auto. intros c Hc. apply F; auto.
  - intros c Hc. destruct (F c Hc) as (? & _ & _ & ?). auto.
Qed.

Lemma lx_well_kept : well_kept lx /\ (forall c, In c (em_cells lx) -> 0 <= e_id c /\ proportioned 1 1 (e_bounds c)) /\
  em_config lx = lx_cfg /\ em_bounds lx = ex_region.
Proof.
  apply (loaded_well_kept ex_region 1 1 [] ex_m3 lx_acs lx_cfg lx ex_admissible ex_regional ex_reachable lx_ids lx_bounds lx_plain);
  reflexivity.
Qed.

(** A second mesh: the unit square at (0, 11) in half-degree cells. *)
Definition oy_region : boundary := mkB 0 1 11 12 [].
Definition oy_cfg : config := mkCfg oy_region (1#2) (1#2) 1 [].
Definition oy_m0 : mesh := Eval vm_compute in get_mesh (build_mesh oy_region (1#2) (1#2) []).
Definition oy_acs : list agg_cellbox := Eval vm_compute in acs_of oy_m0.
Definition oy : emesh := Eval vm_compute in get_env (load_from_json (to_json (env_of oy_cfg oy_m0 oy_acs))).
Lemma oy_admissible : admissible oy_region (1#2) (1#2).
Proof.
  split; [split; [cbn; lra | left; reflexivity]|]. split; [lra|]. split; [lra|].
  intros [H _]. cbn in H. lra.
Qed.
Lemma oy_reachable : reachable oy_region (1#2) (1#2) [] oy_m0.
Proof. exists oy_m0. split; [vm_compute; reflexivity | constructor]. Qed.
Lemma oy_well_kept : well_kept oy /\ (forall c, In c (em_cells oy) -> 0 <= e_id c /\ proportioned (1#2) (1#2) (e_bounds c)) /\
  em_config oy = oy_cfg /\ em_bounds oy = oy_region.
Proof.
  apply (loaded_well_kept oy_region (1#2) (1#2) [] oy_m0 oy_acs oy_cfg oy oy_admissible); try reflexivity.
  - intros [H _]. cbn in H. lra.
  - exact oy_reachable.
  - assert (H : forallb (fun ac => match ac_data ac with [] => true | _ => false end) oy_acs = true) by (vm_compute; reflexivity).
    rewrite forallb_forall in H. intros ac Hac. specialize (H ac Hac). unfold ecell_of. destruct (ac_data ac); [|discriminate].
    split; [constructor|intros n []].
Qed.

(** Cells in a grid cell, decided. *)
Lemma on_grid_floor b w h c : 
  (let i := Qround.Qfloor ((long_min c - long_min b) / w) in let j := Qround.Qfloor ((lat_min c - lat_min b) / h) in
   (long_min b + inject_Z i * w <= long_min c /\ long_max c <= long_min b + inject_Z (i + 1) * w /\
    lat_min b + inject_Z j * h <= lat_min c /\ lat_max c <= lat_min b + inject_Z (j + 1) * h)%Q) -> on_grid b w h c.
Proof. intros H. eexists; eexists; exact H. Qed.

Lemma oy_fits : fits lx oy.
Proof.
  destruct lx_well_kept as ((S & P & T & Hs & G) & I & Cf & Bd). destruct oy_well_kept as ((S' & P' & T' & Hs' & G') & I' & Cf' & Bd').
  split; auto. split; [intros c Hc; apply I'; auto|]. split; auto. split; [rewrite Bd, Bd'; unfold inside; cbn; lra|]. split; auto.
  rewrite Bd, Cf. cbn [c_width c_height lx_cfg]. intros c Hc.
  assert (F : Forall (fun c => on_grid ex_region 1 1 (e_bounds c)) (em_cells oy)).
  { unfold oy. cbn [em_cells]. repeat (apply Forall_cons; [exists 1, 0; repeat split; vm_compute; discriminate|]). constructor. }
  rewrite Forall_forall in F. auto.
Qed.

Definition merged : emesh * emesh := Eval vm_compute in match merge_mesh lx oy with Ok r => r | Err _ => (no_env, no_env) end.
Lemma merged_ok : merge_mesh lx oy = Ok merged.
Proof. vm_compute. reflexivity. Qed.

(** The global mesh of Examples.v, loaded. *)
Definition gl_cfg : config := mkCfg gx_region 90 90 2 [].
Definition gl_acs : list agg_cellbox := Eval vm_compute in acs_of gx_m0.
Definition gl : emesh := Eval vm_compute in get_env (load_from_json (to_json (env_of gl_cfg gx_m0 gl_acs))).
Definition gl1 : emesh := Eval vm_compute in get_env (esplit_and_replace gl (KS 0)).

(** One cell of two degrees, and one of one degree in its corner. *)
Definition wide_region : boundary := mkB 0 2 10 12 [].
Definition wide_m0 : mesh := Eval vm_compute in get_mesh (build_mesh wide_region 2 2 []).
Definition wide_acs : list agg_cellbox := Eval vm_compute in acs_of wide_m0.
Definition wide_cfg : config := mkCfg wide_region 2 2 1 [].
Definition wide : emesh := Eval vm_compute in get_env (load_from_json (to_json (env_of wide_cfg wide_m0 wide_acs))).
Definition corner_region : boundary := mkB 0 1 10 11 [].
Definition corner_m0 : mesh := Eval vm_compute in get_mesh (build_mesh corner_region 1 1 []).
Definition corner_acs : list agg_cellbox := Eval vm_compute in acs_of corner_m0.
Definition corner_cfg : config := mkCfg corner_region 1 1 1 [].
Definition corner : emesh := Eval vm_compute in get_env (load_from_json (to_json (env_of corner_cfg corner_m0 corner_acs))).
Lemma wide_well_kept : well_kept wide /\ (forall c, In c (em_cells wide) -> 0 <= e_id c /\ proportioned 2 2 (e_bounds c)) /\
  em_config wide = wide_cfg /\ em_bounds wide = wide_region.
Proof.
  apply (loaded_well_kept wide_region 2 2 [] wide_m0 wide_acs wide_cfg wide); try reflexivity.
  - split; [split; [cbn; lra | left; reflexivity]|]. split; [lra|]. split; [lra|]. intros [H _]. cbn in H. lra.
  - intros [H _]. cbn in H. lra.
  - exists wide_m0. split; [vm_compute; reflexivity|constructor].
  - intros ac [<-|[]]. split; [constructor|intros n []].
Qed.
Lemma corner_well_kept : well_kept corner /\ (forall c, In c (em_cells corner) -> 0 <= e_id c /\ proportioned 1 1 (e_bounds c)) /\
  em_config corner = corner_cfg /\ em_bounds corner = corner_region.
Proof.
  apply (loaded_well_kept corner_region 1 1 [] corner_m0 corner_acs corner_cfg corner); try reflexivity.
  - split; [split; [cbn; lra | left; reflexivity]|]. split; [lra|]. split; [lra|]. intros [H _]. cbn in H. lra.
  - intros [H _]. cbn in H. lra.
  - exists corner_m0. split; [vm_compute; reflexivity|constructor].
  - intros ac [<-|[]]. split; [constructor|intros n []].
Qed.
Definition r12 : emesh * emesh := Eval vm_compute in match merge_mesh lx wide with Ok r => r | Err _ => (no_env, no_env) end.
Lemma r12_ok : merge_mesh lx wide = Ok (fst r12, snd r12).
Proof. vm_compute. reflexivity. Qed.
Definition r123 : emesh * emesh := Eval vm_compute in match merge_mesh (fst r12) corner with Ok r => r | Err _ => (no_env, no_env) end.
Lemma r123_ok : merge_mesh (fst r12) corner = Ok (fst r123, snd r123).
Proof. vm_compute. reflexivity. Qed.
