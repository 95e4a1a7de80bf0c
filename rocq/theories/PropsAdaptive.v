(** Property theorems C12-C15 and C24: adaptive splitting and the built mesh.
    Statements only; every proof is a lemma of another file. *)
From Verif Require Import Base Geo Graph Cell Loaders Builder Spec MeshSpec DataSpec Consequences Reach MeshFacts AggProofs FillProofs Adaptive ChainProofs AdaptiveFacts Examples ExamplesData.
Open Scope Z_scope.

(** C12.  On any mesh whose cell 0 is live (so on every freshly built one)
    split_to_depth terminates: from some fuel on, its answer is a mesh and does
    not change.  No cell ends deeper than the limit unless it was there before. *)
Theorem C12_split_to_depth_terminates : forall b cw ch srcs m c0 depth,
  admissible b cw ch -> reachable b cw ch srcs m -> live_cell m 0 c0 ->
  exists fuel m', (forall fuel', (fuel <= fuel')%nat -> split_to_depth fuel' m depth = Ok m') /\
    reachable b cw ch srcs m' /\
    (forall i c, live_cell m' i c -> live_cell m i c \/ cb_depth c <= depth).
Proof.
  intros. destruct (adaptive b cw ch srcs m c0 depth) as (f & m' & E & R & _ & D & _); auto. exists f, m'. auto.
Qed.
Print Assumptions C12_split_to_depth_terminates.
Theorem C12_built_depth : forall b cw ch srcs m depth,
  admissible b cw ch -> build_mesh b cw ch srcs = Ok m -> (lat_min b < lat_max b)%Q ->
  exists fuel m', (forall fuel', (fuel <= fuel')%nat -> split_to_depth fuel' m depth = Ok m') /\
    reachable b cw ch srcs m' /\
    (forall i c, live_cell m' i c -> 0 <= cb_depth c <= Z.max 0 depth).
Proof.
  intros b cw ch srcs m depth A E L. destruct (first_cell _ _ _ _ _ A E L) as (c0 & L0).
  destruct (adaptive b cw ch srcs m c0 depth A (built_reachable _ _ _ _ _ E) L0) as (f & m' & F & R & _ & D & _).
  exists f, m'. split; auto. split; auto. intros i c Li. pose proof (reachable_depth _ _ _ _ _ _ _ A R Li).
  destruct (D i c Li) as [H0|H0]; [|lia]. destruct (build_cell _ _ _ _ _ _ _ A E H0) as (_ & _ & -> & _). lia.
Qed.
Print Assumptions C12_built_depth.
Example C12_case : live_cell dx_m0 0 (cell_at_pos dx_m0 0) /\ (lat_min ex_region < lat_max ex_region)%Q /\
  split_to_depth 100 dx_m0 2 = Ok dx_m1 /\ List.length (cells dx_m1) = 10%nat /\ depths dx_m1 =
  [None; Some 0; Some 0; Some 0; Some 0; Some 0; Some 1; Some 1; Some 1; Some 1].
Proof. split; [exact dx_live0|]. split; [cbn; lra|]. split; [exact dx_split|]. vm_compute. auto. Qed.
(** A second call fails once cell 0 has been split. *)
Theorem C12_second_call_refuted : exists b cw ch srcs m depth, admissible b cw ch /\ reachable b cw ch srcs m /\
  forall fuel, split_to_depth fuel m depth = Err AttributeError.
Proof.
  exists ex_region, 1%Q, 1%Q, dx_srcs, dx_m1, 3. split; [exact ex_admissible|]. split.
  - destruct (adaptive ex_region 1 1 dx_srcs dx_m0 _ 2 ex_admissible dx_reachable dx_live0) as (f & m' & F & R & _).
    assert (E1 : split_to_depth (Nat.max f 100) dx_m0 2 = Ok m') by (apply F; lia).
    assert (E2 : split_to_depth (Nat.max f 100) dx_m0 2 = Ok dx_m1) by (apply (split_more 100); [exact dx_split|lia]).
    rewrite (Ok_inj _ _ (eq_trans (eq_sym E2) E1)). exact R.
  - intros fuel. apply second_call. vm_compute. reflexivity.
Qed.
Print Assumptions C12_second_call_refuted.

(** C13.  Afterwards no live cell above the depth limit wants to be split. *)
Theorem C13_fixed_point : forall b cw ch srcs m c0 depth,
  admissible b cw ch -> reachable b cw ch srcs m -> live_cell m 0 c0 ->
  exists fuel m', (forall fuel', (fuel <= fuel')%nat -> split_to_depth fuel' m depth = Ok m') /\
    (forall i c, live_cell m' i c -> cb_depth c < depth ->
       should_split c (List.length srcs) = Ok false /\ ~ wants_split c (List.length srcs)).
Proof.
  intros. destruct (adaptive b cw ch srcs m c0 depth) as (f & m' & E & _ & _ & _ & S); auto. exists f, m'. auto.
Qed.
Print Assumptions C13_fixed_point.
Example C13_case : should_split (cell_at_pos dx_m0 0) 3 = Ok true /\
  should_split (cell_at_pos dx_m1 8) 3 = Ok false.
Proof. vm_compute. auto. Qed.

(** C14.  Every cell split on the way was above the limit and wanted to be split
    by some prefix of the sources; nothing is split when the limit is not positive
    or there are no conditions; a cell is unchanged or gone. *)
Theorem C14_only_heterogeneous_split : forall b cw ch srcs m c0 depth,
  admissible b cw ch -> reachable b cw ch srcs m -> live_cell m 0 c0 ->
  exists fuel m', (forall fuel', (fuel <= fuel')%nat -> split_to_depth fuel' m depth = Ok m') /\
    splits_by (fun c => cb_depth c < depth /\ exists n, (n <= List.length srcs)%nat /\ wants_split c n) m m' /\
    (forall i c, live_cell m i c -> live_cell m' i c \/ nth_error (cells m') i = Some None).
Proof.
  intros b cw ch srcs m c0 depth A R L. destruct (adaptive b cw ch srcs m c0 depth A R L) as (f & m' & E & _ & S & _).
  exists f, m'. split; auto. split; [exact S|]. intros i c Li. exact (unsplit_unchanged b cw ch srcs m m' _ i c A R S Li).
Qed.
Print Assumptions C14_only_heterogeneous_split.
Theorem C14_idle : forall b cw ch srcs m c0 depth,
  admissible b cw ch -> reachable b cw ch srcs m -> live_cell m 0 c0 ->
  depth <= 0 \/ (forall s, In s srcs -> m_conds s = []) ->
  exists fuel, forall fuel', (fuel <= fuel')%nat -> split_to_depth fuel' m depth = Ok m.
Proof. exact adaptive_idle. Qed.
Print Assumptions C14_idle.
Example C14_case : wants_split (cell_at_pos dx_m0 0) 1 /\ cb_depth (cell_at_pos dx_m0 0) < 2.
Proof. split; [apply decides_spec; vm_compute; reflexivity|vm_compute; reflexivity]. Qed.

(** C15.  The decision rule. *)
Theorem C15_should_split_rule : forall c n, (n <= List.length (cb_sources c))%nat ->
  exists r, should_split c n = Ok r /\
    (r = true <-> wants_split c n) /\
    (answers c n HOM \/ answers c n MIN -> r = false) /\
    ((forall h, answers c n h -> h = CLR) -> r = false).
Proof. exact should_split_rule. Qed.
Print Assumptions C15_should_split_rule.
Theorem C15_breadth_first : forall c,
  should_split c (List.length (cb_sources c)) = Ok (should_split_breadth_first c) /\
  (should_split_breadth_first c = true <-> wants_split c (List.length (cb_sources c))).
Proof. exact should_split_breadth_first_rule. Qed.
Print Assumptions C15_breadth_first.
Theorem C15_order_independent : forall c c',
  cb_bounds c = cb_bounds c' ->
  (exists l, Permutation (cb_sources c) l /\
     Forall2 (fun s s' => m_loader s = m_loader s' /\ m_subset s = m_subset s' /\
                          Permutation (m_conds s) (m_conds s')) l (cb_sources c')) ->
  should_split c (List.length (cb_sources c)) = should_split c' (List.length (cb_sources c')).
Proof.
  intros c c' B P. destruct (should_split_breadth_first_rule c) as [-> _], (should_split_breadth_first_rule c') as [-> _].
  f_equal. exact (should_split_order_independent c c' B P).
Qed.
Print Assumptions C15_order_independent.
Example C15_case : exists c, (2 <= List.length (cb_sources c))%nat /\ answers c 1 HET /\ wants_split c 3 /\ ~ wants_split c 0.
Proof.
  exists (cell_at_pos dx_m0 0). split; [vm_compute; lia|].
  assert (W : wants_split (cell_at_pos dx_m0 0) 1) by (apply decides_spec; vm_compute; reflexivity).
  split; [apply W|]. split; [apply decides_spec; vm_compute; reflexivity|]. intros H. apply decides_spec in H. discriminate.
Qed.

(** C24.  The built mesh: one aggregated cell per live cell, in order, with its id
    and bounds (and the values of C21 and C23); ids are distinct and are exactly
    the keys of the graph.  For scalar sources the build always succeeds. *)
Theorem C24_built_mesh : forall b cw ch srcs m c0 depth,
  admissible b cw ch -> reachable b cw ch srcs m -> live_cell m 0 c0 ->
  (forall s, In s srcs -> scalar_source s) -> NoDup (map (fun s => l_uid (m_loader s)) srcs) ->
  exists fuel m' acs, (forall fuel', (fuel <= fuel')%nat -> build_environmental_mesh fuel' m depth = Ok (m', acs)) /\
    reachable b cw ch srcs m' /\
    Forall2 (fun c ac => ac_id ac = cb_id c /\ ac_bounds ac = cb_bounds c /\
                         forall n, sget (ac_data ac) n = merged_value n srcs c) (live_list m') acs /\
    NoDup (map ac_id acs) /\
    (forall k, In k (dkeys (ng m')) <-> exists ac, In ac acs /\ k = KI (ac_id ac)).
Proof. exact environmental_mesh. Qed.
Print Assumptions C24_built_mesh.
(** For arbitrary loaders: whenever the build returns. *)
Theorem C24_built_mesh_agrees : forall b cw ch srcs m c0 fuel depth m' acs,
  admissible b cw ch -> reachable b cw ch srcs m -> live_cell m 0 c0 ->
  build_environmental_mesh fuel m depth = Ok (m', acs) ->
  split_to_depth fuel m depth = Ok m' /\
  map ac_id acs = map cb_id (live_list m') /\ map ac_bounds acs = map cb_bounds (live_list m').
Proof. intros b cw ch srcs m c0 fuel depth m' acs A R L. exact (environmental_mesh_agrees fuel m depth m' acs). Qed.
Print Assumptions C24_built_mesh_agrees.
Example C24_case : (forall s, In s dx_srcs -> scalar_source s) /\ NoDup (map (fun s => l_uid (m_loader s)) dx_srcs) /\
  exists acs, map snd (match build_environmental_mesh 100 dx_m0 2 with Ok r => [r] | Err _ => [] end) = [acs] /\ map ac_id acs = [1;2;3;4;5;6;7;8;9] /\
    map (fun a => sget (ac_data a) "SIC") (skipn 4 acs) =
      map (fun q => Some (Num (Some q))) [7; 11#3; 1#2; 10; 11#3]%Q.
Proof.
  split; [exact dx_scalar|]. split; [repeat constructor; cbn; intuition discriminate|].
  eexists. split; [vm_compute; reflexivity|]. vm_compute. auto.
Qed.
