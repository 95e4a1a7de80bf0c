(** Property theorems C25-C34: environment meshes.  Statements only; every proof
    is a lemma of another file. *)
From Verif Require Import Base Geo Graph Cell Builder Env Spec MeshSpec EnvSpec QLib CaseProofs SplitGeo Dict Rep SplitCore Stage BuilderSplit Invariant Consequences Reach MeshFacts ChainProofs EnvInv EnvMerge EnvJson EnvLink EnvQuery EnvHistory DataSpec Examples ExamplesEnv.
Open Scope Z_scope.

(** C25.  Writing and loading gives the same mesh: config, ids, data, bounds apart
    from their times, and the graph with its keys as strings; writing the loaded
    mesh gives the same document. *)
Theorem C25_round_trip : forall m,
  (forall c, In c (em_cells m) -> drawable (e_bounds c) /\ plain_data (e_data c)) ->
  accepted (c_region (em_config m)) ->
  exists m', load_from_json (to_json m) = Ok m' /\
    em_config m' = em_config m /\ em_bounds m' = c_region (em_config m) /\
    map e_id (em_cells m') = map e_id (em_cells m) /\
    map e_data (em_cells m') = map e_data (em_cells m) /\
    map e_bounds (em_cells m') = map without_times (map e_bounds (em_cells m)) /\
    em_graph m' = graph_to_json (em_graph m) /\
    to_json m' = to_json m.
Proof. exact round_trip. Qed.
Print Assumptions C25_round_trip.
(** The graph with string keys has the same neighbour lists. *)
Theorem C25_same_neighbours : forall (g : graph) k mp d l,
  distinct_as_strings g -> (forall kv, In kv g -> distinct_as_strings (snd kv)) ->
  dget_opt g k = Some mp -> dget_opt mp d = Some l ->
  get_neighbours (graph_to_json g) (KS (key_int k)) (KS (key_int d)) = Ok l.
Proof. exact graph_json_lists. Qed.
Print Assumptions C25_same_neighbours.
(** Every mesh the builder can produce loads, and the loaded mesh has the built
    mesh's tiling and exact contacts. *)
Theorem C25_built_meshes_load : forall b cw ch srcs m acs cfg,
  admissible b cw ch -> reachable b cw ch srcs m ->
  map ac_id acs = map cb_id (live_list m) -> map ac_bounds acs = map cb_bounds (live_list m) ->
  (forall ac, In ac acs -> plain_data (e_data (ecell_of ac))) -> c_region cfg = b ->
  exists em, load_from_json (to_json (env_of cfg m acs)) = Ok em /\
    em_bounds em = b /\ em_config em = cfg /\ map e_data (em_cells em) = map e_data (map ecell_of acs) /\
    NoDup (map e_id (em_cells em)) /\
    (forall c, In c (em_cells em) -> 0 <= e_id c /\ plane_bounds (e_bounds c) /\ inside b (e_bounds c) /\
       on_grid b cw ch (e_bounds c) /\ proportioned cw ch (e_bounds c)) /\
    cells_apart (em_cells em) /\ env_tiles (region b) (em_cells em) /\
    (~ spans_globe b -> lists_contacts touches (em_cells em) (em_graph em)) /\
    (spans_globe b -> lists_contacts touches_mod (em_cells em) (em_graph em)).
Proof. exact built_loads. Qed.
Print Assumptions C25_built_meshes_load.
Definition C25_mesh : emesh :=
  mkEM (mkB 0 1 170 (-170) []) [mkE (mkB 0 1 170 180 []) [("SIC"%string, JNum (Some (1#2)%Q))] 0; mkE (mkB 0 1 175 (-175) []) [("SIC"%string, JNum None)] 7]
    [(KI 0, [(KI 2, [7])]); (KI 7, [(KI (-2), [0])])] (mkCfg (mkB 0 1 170 (-170) []) 5 1 2 []).
Example C25_case :
  (forall c, In c (em_cells C25_mesh) -> drawable (e_bounds c) /\ plain_data (e_data c)) /\
  accepted (c_region (em_config C25_mesh)) /\
  (exists m', load_from_json (to_json C25_mesh) = Ok m' /\ map e_bounds (em_cells m') = map e_bounds (em_cells C25_mesh)) /\
  distinct_as_strings (em_graph C25_mesh).
Proof.
  assert (P : forall v, plain_data [("SIC"%string, JNum v)]).
  { intros v. split; [repeat constructor; intros []|]. intros n [<-|[]]. cbn. intuition discriminate. }
  split; [|split; [|split]].
  - intros c [<-|[<-|[]]]; (split; [unfold drawable; cbn; lra|apply P]).
  - split; [cbn; lra|left; reflexivity].
  - eexists. split; vm_compute; reflexivity.
  - repeat constructor; cbn; intuition discriminate.
Qed.
(** Findings: the time range of a cell is lost, ... *)
Theorem C25_times_refuted : exists m m' c, In c (em_cells m) /\ drawable (e_bounds c) /\ plain_data (e_data c) /\
  load_from_json (to_json m) = Ok m' /\ map e_bounds (em_cells m') <> map e_bounds (em_cells m).
Proof.
  exists (mkEM (mkB 0 1 0 1 [5; 6]) [mkE (mkB 0 1 0 1 [5; 6]) [] 0] [] (mkCfg (mkB 0 1 0 1 [5; 6]) 1 1 1 [])).
  eexists; eexists. split; [left; reflexivity|]. split; [unfold drawable; cbn; lra|].
  split; [split; [constructor|intros n []]|]. split; [vm_compute; reflexivity|]. cbn. discriminate.
Qed.
Print Assumptions C25_times_refuted.
(** ... so is data stored under a reserved name, ... *)
Theorem C25_reserved_refuted : exists m m' c, In c (em_cells m) /\ plane_bounds (e_bounds c) /\
  load_from_json (to_json m) = Ok m' /\ map e_data (em_cells m') <> map e_data (em_cells m).
Proof.
  exists (mkEM (mkB 0 1 0 1 []) [mkE (mkB 0 1 0 1 []) [("cx"%string, JNum (Some 3%Q))] 0] [] (mkCfg (mkB 0 1 0 1 []) 1 1 1 [])).
  eexists; eexists. split; [left; reflexivity|]. split; [split; [cbn; lra|left; reflexivity]|].
  split; [vm_compute; reflexivity|]. cbn. discriminate.
Qed.
Print Assumptions C25_reserved_refuted.
(** ... and an edge at 180 comes back as -180. *)
Theorem C25_edge_refuted : exists m m' c c', In c (em_cells m) /\ accepted (e_bounds c) /\
  load_from_json (to_json m) = Ok m' /\ em_cells m' = [c'] /\ em_cells m = [c] /\
  ~ (long_min (e_bounds c') == long_min (e_bounds c))%Q.
Proof.
  exists (mkEM (mkB 0 1 0 1 []) [mkE (mkB 0 1 180 (-170) []) [] 0] [] (mkCfg (mkB 0 1 0 1 []) 1 1 1 [])).
  eexists; eexists; eexists. split; [left; reflexivity|]. split; [split; [cbn; lra|left; reflexivity]|].
  split; [vm_compute; reflexivity|]. split; [reflexivity|]. split; [reflexivity|]. cbn. lra.
Qed.
Print Assumptions C25_edge_refuted.

(** C26.  Splitting a cell of a regional mesh never raises, replaces the cell by
    its four quarters with the same data and larger ids, keeps the graph exact,
    and leaves the lists of cells without contact to it alone. *)
Theorem C26_split_keeps_graph_exact : forall m c, sound_mesh m -> In c (em_cells m) ->
  exists m', esplit_and_replace m (KS (e_id c)) = Ok m' /\ sound_mesh m' /\ replaced m c m' /\
    em_bounds m' = em_bounds m /\ em_config m' = em_config m /\
    (forall x d, In x (em_cells m) -> e_id x <> e_id c ->
       (forall d', ~ touches d' (region (e_bounds c)) (region (e_bounds x))) ->
       get_neighbours (em_graph m') (KS (e_id x)) (KS (code d)) = get_neighbours (em_graph m) (KS (e_id x)) (KS (code d))).
Proof.
  intros m c S Hc. apply sound_inv in S. destruct (esplit_ok m c S Hc) as (m' & E & I' & Rp & Bd & Cf & Lo).
  exists m'. split; auto. split; [apply sound_inv; auto|]. split; auto. split; auto. split; auto.
  intros x d Hx Ne Nt. apply Lo; auto.
  - destruct S as (_ & P & _). destruct (P c Hc) as ((P1 & P2 & _) & _). destruct (P x Hx) as ((P3 & P4 & _) & _).
    apply (case_is_contact (e_bounds c) (e_bounds x) (conj P1 P2) (conj P3 P4)). auto.
  - apply In_dirs_code. eauto.
Qed.
Print Assumptions C26_split_keeps_graph_exact.
(** Any sequence of successful splits of a mesh built, written and loaded. *)
Theorem C26_refined_loaded_mesh : forall b cw ch srcs m acs cfg em em',
  admissible b cw ch -> ~ spans_globe b -> reachable b cw ch srcs m ->
  map ac_id acs = map cb_id (live_list m) -> map ac_bounds acs = map cb_bounds (live_list m) ->
  (forall ac, In ac acs -> plain_data (e_data (ecell_of ac))) -> c_region cfg = b ->
  load_from_json (to_json (env_of cfg m acs)) = Ok em -> esplits em em' ->
  sound_mesh em' /\ env_tiles (region b) (em_cells em').
Proof.
  intros b cw ch srcs m acs cfg em em' A Ng Rm E1 E2 Pd Ec L S.
  destruct (built_loads_sound b cw ch srcs m acs cfg A Ng Rm E1 E2 Pd Ec) as (x & L' & _ & _ & So & T & _).
  rewrite L in L'. injection L' as <-. apply sound_inv in So. destruct (esplits_all (region b) em em' So S) as (I' & T' & _).
  split; auto. apply sound_inv; auto.
Qed.
Print Assumptions C26_refined_loaded_mesh.
(** The same for histories that also update data, refine around points and merge
    fitting meshes. *)
Theorem C26_histories : forall m m', well_kept m -> env_history m m' -> well_kept m' /\ em_bounds m' = em_bounds m.
Proof. intros m m' W H. destruct (history_ok m m' W H) as (? & ? & _). auto. Qed.
Print Assumptions C26_histories.
Example C26_case : exists m1 m2 r, env_history lx (fst r) /\ well_kept lx /\
  esplit_and_replace lx (KS 5) = Ok m1 /\ update_cellbox m1 2 [("SIC"%string, JNum None)] = Ok m2 /\ merge_mesh m2 oy = Ok r /\
  List.length (em_cells lx) = 15%nat /\ List.length (em_cells m2) = 18%nat /\ List.length (em_cells (fst r)) = 18%nat.
Proof.
  do 2 eexists. exists (match merge_mesh (get_env (update_cellbox (get_env (esplit_and_replace lx (KS 5))) 2 [("SIC"%string, JNum None)])) oy with Ok r => r | Err _ => (no_env, no_env) end).
  split; [|split; [apply lx_well_kept|split; [vm_compute; reflexivity|split; [vm_compute; reflexivity|split; [vm_compute; reflexivity|vm_compute; auto]]]]].
  assert (W : well_kept lx) by apply lx_well_kept.
  pose (m1 := get_env (esplit_and_replace lx (KS 5))). pose (m2 := get_env (update_cellbox m1 2 [("SIC"%string, JNum None)])).
  assert (H2 : env_history lx m2).
  { apply (hist_update lx m1 m2 2 [("SIC"%string, JNum None)]); [|vm_compute; reflexivity].
    apply (hist_split lx lx m1 (KS 5)); [constructor|vm_compute; reflexivity]. }
  pose proof (history_ok lx m2 W H2) as (_ & Bd & _ & Cw & Ch & _).
  eapply (hist_merge lx m2 _ oy _ H2); [|vm_compute; reflexivity].
  unfold fits. rewrite Bd, Cw, Ch. exact oy_fits.
Qed.

(** C27.  A loaded global mesh has exact wrap-around contacts (C25_built_meshes_load),
    but splitting a cell at the antimeridian loses them. *)
Theorem C27_loaded_global_exact : forall b cw ch srcs m acs cfg em,
  admissible b cw ch -> spans_globe b -> reachable b cw ch srcs m ->
  map ac_id acs = map cb_id (live_list m) -> map ac_bounds acs = map cb_bounds (live_list m) ->
  (forall ac, In ac acs -> plain_data (e_data (ecell_of ac))) -> c_region cfg = b ->
  load_from_json (to_json (env_of cfg m acs)) = Ok em ->
  lists_contacts touches_mod (em_cells em) (em_graph em).
Proof.
  intros b cw ch srcs m acs cfg em A G Rm E1 E2 Pd Ec L.
  destruct (built_loads b cw ch srcs m acs cfg A Rm E1 E2 Pd Ec) as (x & L' & _ & _ & _ & _ & _ & _ & _ & _ & X).
  rewrite L in L'. injection L' as <-. auto.
Qed.
Print Assumptions C27_loaded_global_exact.
Theorem C27_split_refuted : exists cfg m acs em em', admissible gx_region 90 90 /\ spans_globe gx_region /\
  reachable gx_region 90 90 [] m /\ map ac_id acs = map cb_id (live_list m) /\ map ac_bounds acs = map cb_bounds (live_list m) /\
  c_region cfg = gx_region /\
  load_from_json (to_json (env_of cfg m acs)) = Ok em /\ lists_contacts touches_mod (em_cells em) (em_graph em) /\
  esplit_and_replace em (KS 0) = Ok em' /\ ~ lists_contacts touches_mod (em_cells em') (em_graph em').
Proof.
  exists gl_cfg, gx_m0, gl_acs, gl, gl1.
  assert (R : reachable gx_region 90 90 [] gx_m0) by (exists gx_m0; split; [exact gx_built|constructor]).
  assert (E1 : map ac_id gl_acs = map cb_id (live_list gx_m0)) by (vm_compute; reflexivity).
  assert (E2 : map ac_bounds gl_acs = map cb_bounds (live_list gx_m0)) by (vm_compute; reflexivity).
  assert (L : load_from_json (to_json (env_of gl_cfg gx_m0 gl_acs)) = Ok gl) by (vm_compute; reflexivity).
  split; [exact gx_admissible|]. split; [exact gx_global|]. split; [exact R|]. split; [exact E1|]. split; [exact E2|].
  split; [reflexivity|]. split; [exact L|]. split; [|split; [vm_compute; reflexivity|]].
  - eapply C27_loaded_global_exact; [exact gx_admissible|exact gx_global|exact R|exact E1|exact E2| |exact (eq_refl : c_region gl_cfg = gx_region)|exact L].
    assert (H : forallb (fun ac => match ac_data ac with [] => true | _ => false end) gl_acs = true) by (vm_compute; reflexivity).
    rewrite forallb_forall in H. intros ac Hac. specialize (H ac Hac). unfold ecell_of. destruct (ac_data ac); [|discriminate].
    split; [constructor|intros n []].
  - intros (_ & _ & X & _).
    assert (H8 : exists c, In c (em_cells gl1) /\ e_id c = 8 /\ region (e_bounds c) = Box (-180) (-270#2) (-90) (-90#2)).
    { eexists. split; [do 7 right; left; reflexivity|]. split; vm_compute; reflexivity. }
    destruct H8 as (c & Hc & Ei & Er). destruct (X c dW Hc) as (l & El & _ & Il). rewrite Ei in El.
    vm_compute in El. injection El as <-. apply (Il 3).
    eexists. split; [|split; [do 2 right; left; reflexivity|]]; [reflexivity|].
    rewrite Er. exists (-1). unfold touches, region, shift. split; [vm_compute; reflexivity|]. exists (-60)%Q. repeat split; vm_compute; reflexivity.
Qed.
Print Assumptions C27_split_refuted.

(** C28.  Refining around points that lie on none of the lines that repeated
    halving of their cells would draw: it terminates without error, every point
    inside the mesh ends up in a cell that is small enough, only cells that held
    a point and were too large are replaced, and the mesh stays in order. *)
Theorem C28_split_points : forall m points, sound_mesh m ->
  (0 < c_width (em_config m) /\ 0 < c_height (em_config m))%Q ->
  (forall p, In p points -> generic (em_cells m) (snd p) (fst p)) ->
  exists fuel0, forall fuel, (fuel0 <= fuel)%nat ->
  exists m', split_points fuel m points = Ok m' /\ sound_mesh m' /\ esplits m m' /\ em_config m' = em_config m /\
    (forall x, In x (em_cells m) ->
       (forall p, In p points -> ~ interior (region (e_bounds x)) (snd p) (fst p)) \/
       narrow (em_config m) (e_bounds x) \/ low (em_config m) (e_bounds x) -> In x (em_cells m')) /\
    (forall p, In p points -> (exists c, In c (em_cells m) /\ interior (region (e_bounds c)) (snd p) (fst p)) ->
       exists c, In c (em_cells m') /\ interior (region (e_bounds c)) (snd p) (fst p) /\
         (narrow (em_config m) (e_bounds c) \/ low (em_config m) (e_bounds c))).
Proof.
  intros m points S Pc G. apply sound_inv in S. destruct (split_points_ok m points S Pc G) as (f0 & H).
  exists f0. intros fuel Hf. destruct (H fuel Hf) as (m' & E & I' & Sp & Cf & Lo & Re). exists m'.
  split; auto. split; [apply sound_inv; auto|]. auto 10.
Qed.
Print Assumptions C28_split_points.
(** In a mesh of cells with the proportions of the configured base cell (every
    loaded built mesh) both sides are then at most 1/2^depth of the base cell's. *)
Theorem C28_both_sides : forall m m' w h, sound_mesh m -> esplits m m' ->
  w = c_width (em_config m) -> h = c_height (em_config m) -> (0 < w /\ 0 < h)%Q ->
  (forall c, In c (em_cells m) -> proportioned w h (e_bounds c)) ->
  forall c, In c (em_cells m') -> narrow (em_config m) (e_bounds c) \/ low (em_config m) (e_bounds c) ->
  narrow (em_config m) (e_bounds c) /\ low (em_config m) (e_bounds c).
Proof.
  intros m m' w h S E -> -> [Hw Hh] Hp c Hc Sm. apply sound_inv in S.
  destruct (esplits_all (region (em_bounds m)) m m' S E) as (_ & _ & _ & _ & _ & Sh & _).
  apply small_both; auto.
Qed.
Print Assumptions C28_both_sides.
(** The refinement stops as soon as possible: a cell reached by refining is more
    than half the wanted size in both directions. *)
Theorem C28_no_excess : forall lat long m c fuel m', sound_mesh m ->
  (0 < c_width (em_config m) /\ 0 < c_height (em_config m))%Q ->
  In c (em_cells m) -> interior (region (e_bounds c)) long lat -> generic (em_cells m) long lat ->
  split_while fuel m lat long = Ok m' ->
  exists k, In k (em_cells m') /\ interior (region (e_bounds k)) long lat /\
    (k = c \/
     (c_width (em_config m) / 2 ^ c_depth (em_config m) < (long_max (e_bounds k) - long_min (e_bounds k)) * 2 /\
      c_height (em_config m) / 2 ^ c_depth (em_config m) < (lat_max (e_bounds k) - lat_min (e_bounds k)) * 2)%Q).
Proof.
  intros lat long m c fuel m' S Pc Hc Ic G E. apply sound_inv in S. destruct (width_bound_ex m Pc) as (n & Wb).
  destruct (split_while_ok lat long n m c S Pc Hc Ic G (Wb c Hc) (max (Datatypes.S n) fuel) ltac:(lia)) as (x & E' & _ & _ & _ & _ & _ & (k & Hk & Ik & _ & Mi)).
  rewrite (split_while_more fuel (max (Datatypes.S n) fuel) lat long m m' E) in E' by lia. injection E' as <-.
  exists k. split; auto. split; auto. destruct Mi as [->|[M1 M2]]; auto. right.
  apply Qnot_le_lt in M1. apply Qnot_le_lt in M2. lra.
Qed.
Print Assumptions C28_no_excess.
Lemma third_off (b : box) (x y : Q) : (x1 b - x0 b == 1)%Q -> (y1 b - y0 b == 1)%Q -> ((x - x0 b) * 3 == 1)%Q -> ((y - y0 b) * 3 == 1)%Q ->
  off_lines b x y.
Proof.
  assert (X : forall (i : Z) (k : nat) z w, (w == 1)%Q -> (z * 3 == 1)%Q -> ~ (z * inject_Z (2 ^ Z.of_nat k) == inject_Z i * w)%Q).
  { intros i k z w Hw Hz E. rewrite Hw in E. set (p := 2 ^ Z.of_nat k) in *.
    assert (E' : (inject_Z p == inject_Z (3 * i))%Q).
    { rewrite inject_Z_mult. change (inject_Z 3) with 3%Q. setoid_replace (inject_Z p) with (z * 3 * inject_Z p)%Q by (rewrite Hz; ring).
      setoid_replace (inject_Z i) with (z * inject_Z p)%Q by lra. ring. }
    apply (proj1 (inject_Z_injective _ _)) in E'. clear E. assert (M : forall n, (2 ^ Z.of_nat n) mod 3 <> 0).
    { clear. induction n as [|n IH]; [discriminate|]. rewrite Nat2Z.inj_succ, Z.pow_succ_r by lia.
      pose proof (Z.mod_pos_bound (2 ^ Z.of_nat n) 3 ltac:(lia)). rewrite Z.mul_mod by lia.
      set (r := (2 ^ Z.of_nat n) mod 3) in *. assert (R : r = 1 \/ r = 2) by lia. destruct R as [-> | ->]; discriminate. }
    apply (M k). fold p. rewrite E', Z.mul_comm. apply Z.mod_mul. lia. }
  intros Hw Hh Hx Hy i k. split; apply X; auto.
Qed.
Example C28_case : sound_mesh lx /\ (0 < c_width (em_config lx) /\ 0 < c_height (em_config lx))%Q /\
  (forall p, In p [(1#3, 31#3)%Q] -> generic (em_cells lx) (snd p) (fst p)) /\
  (exists c, In c (em_cells lx) /\ interior (region (e_bounds c)) (31#3) (1#3)) /\
  (forall c, In c (em_cells lx) -> proportioned (c_width (em_config lx)) (c_height (em_config lx)) (e_bounds c)) /\
  exists m', split_points 5 lx [(1#3, 31#3)%Q] = Ok m' /\ List.length (em_cells m') = 24%nat.
Proof.
  destruct lx_well_kept as ((S & _ & _ & Hs & _) & F & Cf & _). split; auto. split; auto. split; [|split; [|split]].
  - intros p [<-|[]]. cbn [fst snd]. intros c Hc Ic.
    assert (X : Forall (fun c => interior (region (e_bounds c)) (31#3) (1#3) -> region (e_bounds c) = Box 10 11 0 1) (em_cells lx)).
    { unfold lx. cbn [em_cells]. repeat (apply Forall_cons; [unfold interior, region; cbn; intros; (reflexivity || (exfalso; lra))|]). constructor. }
    rewrite Forall_forall in X. rewrite (X c Hc Ic). apply third_off; cbn; lra.
  - eexists. split; [left; reflexivity|]. unfold interior. cbn. lra.
  - rewrite Cf. intros c Hc. apply F; auto.
  - eexists. split; vm_compute; reflexivity.
Qed.
(** Finding: a point on a midline of a cell that is to be split (its centre, say)
    makes the call fail after the first split, ... *)
Theorem C28_midline_raises : forall fuel m c lat long, sound_mesh m -> In c (em_cells m) ->
  interior (region (e_bounds c)) long lat ->
  (long == xmid (region (e_bounds c)) \/ lat == ymid (region (e_bounds c)))%Q ->
  ~ (narrow (em_config m) (e_bounds c) \/ low (em_config m) (e_bounds c)) -> (2 <= fuel)%nat ->
  split_points fuel m [(lat, long)] = Err PlainException.
Proof. intros fuel m c lat long S Hc Ic Hm Ns Hf. apply sound_inv in S. exact (split_points_midline fuel m c lat long S Hc Ic Hm Ns Hf). Qed.
Print Assumptions C28_midline_raises.
Theorem C28_refuted : exists m lat long, sound_mesh m /\ query_inside_mesh m lat long = true /\
  forall fuel m', split_points fuel m [(lat, long)] <> Ok m'.
Proof.
  destruct lx_well_kept as ((S & _) & _). exists lx, (1#2)%Q, (21#2)%Q. split; auto. split; [vm_compute; reflexivity|].
  intros fuel m' E. destruct fuel as [|[|fuel]]; [vm_compute in E; discriminate|vm_compute in E; discriminate|].
  rewrite (C28_midline_raises (Datatypes.S (Datatypes.S fuel)) lx (mkE (mkB 0 1 10 11 []) [] 0)) in E; auto; [discriminate| | | | |lia].
  - left; reflexivity.
  - unfold interior; cbn; lra.
  - left. vm_compute. reflexivity.
  - intros [H|H]; vm_compute in H; apply H; reflexivity.
Qed.
Print Assumptions C28_refuted.
(** ... and a point on an edge is skipped silently. *)
Theorem C28_edge_skipped : forall fuel m lat long, sound_mesh m ->
  (forall c, In c (em_cells m) -> ~ interior (region (e_bounds c)) long lat) ->
  split_points fuel m [(lat, long)] = Ok m.
Proof. intros fuel m lat long S. apply sound_inv in S. apply split_points_skips; auto. Qed.
Print Assumptions C28_edge_skipped.

(** C29.  On a regional mesh in order the query answers exactly the cell whose
    interior holds the point, and fails exactly when there is none. *)
Theorem C29_query_unambiguous : forall m lat long, sound_mesh m ->
  (forall i, query_index m lat long = Ok i <->
     exists c, In c (em_cells m) /\ e_id c = i /\ interior (region (e_bounds c)) long lat) /\
  (query_index m lat long = Err PlainException <-> ~ exists c, In c (em_cells m) /\ interior (region (e_bounds c)) long lat) /\
  (query_inside_mesh m lat long = true <-> exists c, In c (em_cells m) /\ interior (region (e_bounds c)) long lat).
Proof. intros m lat long S. apply sound_inv in S. apply query_plane; auto. Qed.
Print Assumptions C29_query_unambiguous.
(** The same on the globe, with cells that may cross the antimeridian, for
    longitudes strictly between -180 and 180. *)
Theorem C29_query_on_globe : forall m lat long, NoDup (map e_id (em_cells m)) ->
  (forall c, In c (em_cells m) -> drawable (e_bounds c)) -> cells_apart_mod (em_cells m) -> (-180 < long < 180)%Q ->
  (forall i, query_index m lat long = Ok i <->
     exists c, In c (em_cells m) /\ e_id c = i /\ interior_mod (region (e_bounds c)) long lat) /\
  (query_index m lat long = Err PlainException <-> ~ exists c, In c (em_cells m) /\ interior_mod (region (e_bounds c)) long lat) /\
  (query_inside_mesh m lat long = true <-> exists c, In c (em_cells m) /\ interior_mod (region (e_bounds c)) long lat).
Proof. exact query_globe. Qed.
Print Assumptions C29_query_on_globe.
Example C29_case : sound_mesh lx /\ query_index lx (3#4) (31#3) = Ok 0 /\ query_index lx (5#4) (91#8) = Ok 8 /\
  query_index lx (3#4) 11 = Err PlainException.
Proof. split; [apply lx_well_kept|]. vm_compute. auto. Qed.
(** Finding: at longitude 180 the point in the middle of a crossing cell is in no
    cell. *)
Theorem C29_antimeridian_refuted : exists m c lat, In c (em_cells m) /\ drawable (e_bounds c) /\
  interior_mod (region (e_bounds c)) 180 lat /\ query_inside_mesh m lat 180 = false /\ query_inside_mesh m lat (-180) = false.
Proof.
  exists (mkEM (mkB 0 1 170 (-170) []) [mkE (mkB 0 1 170 (-170) []) [] 0] [] (mkCfg (mkB 0 1 170 (-170) []) 20 1 1 [])).
  eexists. exists (1#2)%Q. split; [left; reflexivity|]. split; [unfold drawable; cbn; lra|].
  split; [exists 0; repeat split; vm_compute; reflexivity|]. vm_compute. auto.
Qed.
Print Assumptions C29_antimeridian_refuted.

(** C30-C32.  Merging two regional meshes in order, the first with its cells in
    cells of its configured grid, the second inside its own bounds.  The
    compatibility test accepts exactly the bounds made of whole grid cells ... *)
Theorem C31_accepted_exactly_aligned : forall m1 m2,
  (0 < c_width (em_config m1))%Q -> (0 < c_height (em_config m1))%Q -> plane_bounds (em_bounds m2) ->
  (validate_merge m1 m2 = Ok true <->
   grid_aligned (em_bounds m1) (c_width (em_config m1)) (c_height (em_config m1)) (em_bounds m2)) /\
  (exists r, validate_merge m1 m2 = Ok r) /\
  (validate_merge m1 m2 = Ok false -> merge_mesh m1 m2 = Err AssertionError).
Proof.
  intros m1 m2 Hw Hh P. destruct (validate_merge_spec m1 m2 Hw Hh P) as (A & B). split; auto. split; auto.
  intros E. unfold merge_mesh. rewrite E. reflexivity.
Qed.
Print Assumptions C31_accepted_exactly_aligned.
(** ... and then merging succeeds; the cells are those of the first mesh not inside
    the second's bounds, then those of the second renumbered; ids are distinct
    and are the graph's keys; bounds and configuration are kept. *)
Theorem C30_merge_cells : forall m1 m2, mergeable m1 m2 ->
  grid_aligned (em_bounds m1) (c_width (em_config m1)) (c_height (em_config m1)) (em_bounds m2) ->
  exists m m2' inc kept moved, merge_mesh m1 m2 = Ok (m, m2') /\
    em_cells m = kept ++ moved /\
    selected (fun c => ~ inside (em_bounds m2) (e_bounds c)) (em_cells m1) kept /\
    Forall2 (renumbered inc) (em_cells m2) moved /\ (forall c, In c kept -> e_id c < inc) /\
    NoDup (map e_id (em_cells m)) /\
    (forall k, In k (dkeys (em_graph m)) <-> exists c, In c (em_cells m) /\ k = KS (e_id c)) /\
    em_bounds m = em_bounds m1 /\ c_merged (em_config m) = c_merged (em_config m1) ++ [em_config m2].
Proof.
  intros m1 m2 Mg Al. pose proof Mg as (_ & _ & _ & P2 & _ & (Hw & Hh) & _).
  pose proof (proj2 (proj1 (validate_merge_spec m1 m2 Hw Hh P2)) Al) as V.
  destruct (mergeable_ok m1 m2 Mg V) as (m & m2' & E & I & C & B & Cf & _).
  destruct (moved_renumbered m1 m2) as (inc & _ & Rn & Lt). apply sound_inv in I as (N & _ & _ & L & K & _).
  exists m, m2', inc, (kept m1 m2), (moved m1 m2). split; auto. split; auto. split; [apply kept_selected|].
  split; auto. split; auto. split; auto. split; [|split; auto].
  - intros k. rewrite K. split; intros (c & ? & ?); eauto.
  - rewrite Cf. apply append_config_size.
Qed.
Print Assumptions C30_merge_cells.
Theorem C31_merge_tiles : forall m1 m2 whole, mergeable m1 m2 ->
  grid_aligned (em_bounds m1) (c_width (em_config m1)) (c_height (em_config m1)) (em_bounds m2) ->
  env_tiles whole (em_cells m1) -> env_tiles (region (em_bounds m2)) (em_cells m2) ->
  (forall x y, mem (region (em_bounds m2)) x y -> mem whole x y) ->
  exists m m2', merge_mesh m1 m2 = Ok (m, m2') /\ env_tiles whole (em_cells m).
Proof.
  intros m1 m2 whole Mg Al T1 T2 Sub. pose proof Mg as (_ & _ & _ & P2 & _ & (Hw & Hh) & _).
  pose proof (proj2 (proj1 (validate_merge_spec m1 m2 Hw Hh P2)) Al) as V.
  destruct (mergeable_ok m1 m2 Mg V) as (m & m2' & E & I & C & _). exists m, m2'. split; auto. rewrite C. apply merge_tiles; auto.
Qed.
Print Assumptions C31_merge_tiles.
Theorem C32_merge_graph_exact : forall m1 m2, mergeable m1 m2 ->
  grid_aligned (em_bounds m1) (c_width (em_config m1)) (c_height (em_config m1)) (em_bounds m2) ->
  exists m m2', merge_mesh m1 m2 = Ok (m, m2') /\ sound_mesh m.
Proof.
  intros m1 m2 Mg Al. pose proof Mg as (_ & _ & _ & P2 & _ & (Hw & Hh) & _).
  pose proof (proj2 (proj1 (validate_merge_spec m1 m2 Hw Hh P2)) Al) as V.
  destruct (mergeable_ok m1 m2 Mg V) as (m & m2' & E & I & _). exists m, m2'. split; auto. apply sound_inv; auto.
Qed.
Print Assumptions C32_merge_graph_exact.
Lemma C32_merge_graph_exact' m1 m2 m m2' : mergeable m1 m2 ->
  grid_aligned (em_bounds m1) (c_width (em_config m1)) (c_height (em_config m1)) (em_bounds m2) ->
  merge_mesh m1 m2 = Ok (m, m2') -> sound_mesh m.
Proof. intros Mg Al E. destruct (C32_merge_graph_exact m1 m2 Mg Al) as (x & y & E' & S). rewrite E in E'. injection E' as <- <-. exact S. Qed.
Example C30_C32_case : mergeable lx oy /\
  grid_aligned (em_bounds lx) (c_width (em_config lx)) (c_height (em_config lx)) (em_bounds oy) /\
  map e_id (em_cells (fst merged)) = [0; 2; 3; 5; 6; 8; 9; 10; 11; 12; 13; 14; 15; 16; 17] /\
  get_neighbours (em_graph (fst merged)) (KS 0) (KS east) = Ok [14; 16].
Proof.
  split; [apply fits_mergeable; [apply lx_well_kept|exact oy_fits]|]. split; [|vm_compute; auto].
  exists 1, 2, 0, 1. vm_compute. repeat split; reflexivity.
Qed.

(** Finding: aligned with the first mesh's grid is not enough once a mesh with
    larger cells has been merged in; the next merge leaves overlapping cells. *)
Theorem C32_second_merge_refuted : exists m1 m2 m3 m12 m123 r2 r3,
  mergeable m1 m2 /\ merge_mesh m1 m2 = Ok (m12, r2) /\ sound_mesh m12 /\
  sound_mesh m3 /\ merge_mesh m12 m3 = Ok (m123, r3) /\ ~ cells_apart (em_cells m123).
Proof.
  destruct wide_well_kept as ((S2 & P2 & T2 & _ & _) & F2 & _ & B2). destruct corner_well_kept as ((S3 & _) & _).
  destruct lx_well_kept as ((S1 & P1 & T1 & Hs & G1) & _ & C1 & B1).
  assert (Mg : mergeable lx wide).
  { split; auto. split; auto. split; [intros c Hc; apply F2; auto|]. split; auto. split; [|split; auto].
    intros c Hc. pose proof (plane_region _ P2) as (X0 & X1 & Y0 & Y1).
    pose proof (tiles_inside _ _ _ T2 Hc (proj1 (proj2 S2) c Hc)) as H. rewrite X0, X1, Y0, Y1 in H. exact H. }
  assert (S12 : sound_mesh (fst r12)).
  { apply (C32_merge_graph_exact' lx wide (fst r12) (snd r12) Mg); [|exact r12_ok].
    exists 0, 2, 0, 2. vm_compute. repeat split; reflexivity. }
  exists lx, wide, corner, (fst r12), (fst r123), (snd r12), (snd r123).
  split; [exact Mg|]. split; [exact r12_ok|]. split; [exact S12|]. split; [exact S3|]. split; [exact r123_ok|].
  intros A. assert (H2 : exists c c', In c (em_cells (fst r123)) /\ In c' (em_cells (fst r123)) /\ e_id c <> e_id c' /\
    region (e_bounds c) = Box 10 12 0 2 /\ region (e_bounds c') = Box 10 11 0 1).
  { eexists; eexists. split; [do 2 right; left; reflexivity|]. split; [do 3 right; left; reflexivity|].
    split; [vm_compute; discriminate|]. split; vm_compute; reflexivity. }
  destruct H2 as (c & c' & Hc & Hc' & Ne & E1 & E2). apply (A c c' Hc Hc' Ne (21#2)%Q (1#2)%Q). rewrite E1, E2. cbn. lra.
Qed.
Print Assumptions C32_second_merge_refuted.

(** C33.  Merging always changes the other mesh: all its cells are renumbered in
    place, and its graph is the merged one's part. *)
Theorem C33_other_mesh_changed : forall m1 m2, mergeable m1 m2 -> em_cells m2 <> [] ->
  forall m m2', merge_mesh m1 m2 = Ok (m, m2') ->
  map e_id (em_cells m2') <> map e_id (em_cells m2) /\
  exists inc, 0 < inc /\ Forall2 (renumbered inc) (em_cells m2) (em_cells m2').
Proof.
  intros m1 m2 Mg Ne m m2' E. pose proof (merge_validated _ _ _ E) as V.
  destruct (mergeable_ok m1 m2 Mg V) as (x & y & E' & _ & _ & _ & _ & C2). rewrite E in E'. injection E' as <- <-.
  destruct (moved_renumbered m1 m2) as (inc & Pos & Rn & _). rewrite C2. split; [|eauto].
  destruct Rn as [|c c' l l' (_ & Ei & _) _]; [congruence|]. cbn. intros X. injection X. lia.
Qed.
Print Assumptions C33_other_mesh_changed.
Theorem C33_refuted : exists m1 m2 m m2', mergeable m1 m2 /\ merge_mesh m1 m2 = Ok (m, m2') /\ m2' <> m2.
Proof.
  assert (Mg : mergeable lx oy) by (apply fits_mergeable; [apply lx_well_kept|exact oy_fits]).
  exists lx, oy, (fst merged), (snd merged). split; auto. split; [exact merged_ok|].
  assert (Ne : em_cells oy <> []) by discriminate. intros E.
  apply (proj1 (C33_other_mesh_changed lx oy Mg Ne (fst merged) (snd merged) merged_ok)). rewrite E. reflexivity.
Qed.
Print Assumptions C33_refuted.
(** The entry "id" of a renumbered cell's data does not even match its id. *)
Theorem C33_id_entry_refuted : exists m1 m2 m m2' c z, mergeable m1 m2 /\ merge_mesh m1 m2 = Ok (m, m2') /\
  In c (em_cells m) /\ sget (e_data c) "id" = Some (JId z) /\ z <> e_id c.
Proof.
  exists lx, oy, (fst merged), (snd merged). eexists. exists 28.
  split; [apply fits_mergeable; [apply lx_well_kept|exact oy_fits]|]. split; [exact merged_ok|].
  split; [do 11 right; left; reflexivity|]. split; [vm_compute; reflexivity|]. vm_compute. discriminate.
Qed.
Print Assumptions C33_id_entry_refuted.

(** C34.  [update_cellbox] exactly: in range it changes the data of that cell and
    nothing else; negative indices count from the end as in any Python list;
    other indices give IndexError. *)
Theorem C34_update_cellbox : forall m i vs,
  let n := Z.of_nat (List.length (em_cells m)) in
  (0 <= i < n -> exists l1 c l2, em_cells m = l1 ++ c :: l2 /\ Z.of_nat (List.length l1) = i /\
     update_cellbox m i vs = Ok (set_cells m (l1 ++ mkE (e_bounds c) (supdate (e_data c) vs) (e_id c) :: l2))) /\
  (- n <= i < 0 -> exists m', update_cellbox m i vs = Ok m' /\ update_cellbox m (i + n) vs = Ok m') /\
  (i < - n \/ n <= i -> update_cellbox m i vs = Err IndexError).
Proof. exact update_spec. Qed.
Print Assumptions C34_update_cellbox.
(** So the property is false both ways. *)
Theorem C34_refuted : exists m vs,
  (exists i m', i < 0 /\ update_cellbox m i vs = Ok m') /\
  (exists i, Z.of_nat (List.length (em_cells m)) <= i /\ update_cellbox m i vs <> Err ValueError).
Proof.
  exists lx, []. split.
  - exists (-1). eexists. split; [lia|]. vm_compute. reflexivity.
  - exists 15. split; [vm_compute; discriminate|]. vm_compute. discriminate.
Qed.
Print Assumptions C34_refuted.
