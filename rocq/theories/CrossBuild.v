(** The initial mesh over a region whose longitudes wrap around, its tiling of the
    globe, and histories of splits. *)
From Verif Require Import Base Geo Graph Cell Builder Spec MeshSpec GlobeSpec CrossSpec QLib CaseProofs SplitGeo Dict Rep SplitCore Stage BuilderSplit Invariant Grid Build Consequences GlobeProofs Cross CrossInv.
Open Scope Z_scope.

(** ** Membership on the globe, through the frame *)
Definition moved (off : Q) (a v : boundary) : Prop :=
  (lat_min a == lat_min v /\ lat_max a == lat_max v)%Q /\
  exists k : Z, (x0 (region a) == long_min v + off + inject_Z k * 360 /\
                 x1 (region a) == long_max v + off + inject_Z k * 360)%Q.
Lemma unrolled_moved off a v : unrolled off a v -> moved off a v.
Proof. intros (A & _ & B). split; auto. Qed.

Lemma moved_mem off a v x y : regular v -> moved off a v ->
  (mem_globe (region a) x y <-> mem_globe (region v) (x - off) y).
Proof.
  intros Rv ((A1 & A2) & k & K0 & K1). pose proof (regular_x1 v Rv) as X.
  assert (Y0 : y0 (region a) = lat_min a) by reflexivity. assert (Y1 : y1 (region a) = lat_max a) by reflexivity.
  assert (Y0' : y0 (region v) = lat_min v) by reflexivity. assert (Y1' : y1 (region v) = lat_max v) by reflexivity.
  assert (X0' : x0 (region v) = long_min v) by reflexivity.
  unfold mem_globe, mem. rewrite Y0, Y1, Y0', Y1', X0', X. split; intros (j & H).
  - exists (j + - k). rewrite inject_Z_plus, inject_Z_opp. lra.
  - exists (j + k). rewrite inject_Z_plus. lra.
Qed.

Lemma globe_tiled_frame off W (b fb : boundary) (u : Z -> boundary) m :
  (W <= 360)%Q -> regular fb -> moved off b fb -> (long_max fb - long_min fb <= W)%Q ->
  (forall i c, live_cell m i c -> regular (u (Z.of_nat i)) /\ moved off (cb_bounds c) (u (Z.of_nat i))) ->
  (forall i j, live_of (cells m) i -> live_of (cells m) j -> i <> j -> sep (region (u i)) (region (u j))) ->
  (forall x y, mem (region fb) x y -> exists i, live_of (cells m) i /\ mem (region (u i)) x y) ->
  (forall i x y, live_of (cells m) i -> mem (region (u i)) x y -> mem (region fb) x y) ->
  globe_tiled (region b) m.
Proof.
  intros HW Rf Mb WF HC HS HT1 HT2. split; [|split].
  - intros x y M. apply (moved_mem off b fb) in M; auto. destruct M as (k & M).
    destruct (HT1 _ _ M) as (z & Lz & Mz). apply live_of_inv in Lz as (i & c & -> & Lc).
    exists i, c. split; auto. destruct (HC _ _ Lc) as [R1 R2]. apply (moved_mem off _ _ x y R1 R2). exists k. auto.
  - intros i c x y Lc M. destruct (HC _ _ Lc) as [R1 R2]. apply (moved_mem off _ _ x y R1 R2) in M.
    destruct M as (k & M). apply (moved_mem off b fb); auto. exists k. eapply HT2; [|exact M]. eapply live_of_cell; eauto.
  - intros i j c c' x y Li Lj Mi Mj. destruct (HC _ _ Li) as [R1 R2]. destruct (HC _ _ Lj) as [S1 S2].
    apply (moved_mem off _ _ x y R1 R2) in Mi as (k & Mi). apply (moved_mem off _ _ x y S1 S2) in Mj as (l & Mj).
    pose proof (live_of_cell m _ _ Li) as Li'. pose proof (live_of_cell m _ _ Lj) as Lj'.
    pose proof (HT2 _ _ _ Li' Mi) as Fi. pose proof (HT2 _ _ _ Lj' Mj) as Fj.
    destruct (Nat.eq_dec i j) as [|N]; auto. exfalso.
    assert (k = l).
    { unfold mem in Fi, Fj. rewrite (regular_x1 fb Rf) in Fi, Fj. change (x0 (region fb)) with (long_min fb) in Fi, Fj.
      assert (E : (inject_Z (k + - l) == inject_Z k - inject_Z l)%Q) by (rewrite inject_Z_plus, inject_Z_opp; lra).
      assert (k + - l = 0) by (apply int_zero; lra). lia. }
    subst l. pose proof (HS _ _ Li' Lj' ltac:(lia)) as Sp. unfold sep, mem in *. lra.
Qed.

(** ** The initial cells of a region that wraps around *)
Section Wrap.
Variable b : boundary.
Variable cw ch : Q.
Variable R C : Z.
Hypothesis Mb : meaningful b.
Hypothesis Tb : times_ok (time_range b).
Hypothesis Wb : (long_max b <= long_min b)%Q.
Hypothesis Hcw : (0 < cw)%Q.
Hypothesis Hch : (0 < ch)%Q.
Hypothesis HC : (get_width b == inject_Z C * cw)%Q.
Hypothesis HR : (lat_max b - lat_min b == inject_Z R * ch)%Q.
Hypothesis HR0 : 0 <= R.
Variable srcs : list metadata.

Let W := get_width b.
Let NR := Z.to_nat R.
Let NC := Z.to_nat C.
Lemma W_eq : (W == long_max b + 360 - long_min b)%Q.
Proof. unfold W. rewrite width_region. cbn. destruct (qltb_spec (long_min b) (long_max b)); lra. Qed.
Lemma W_range : (0 < W <= 360)%Q.
Proof. apply width_bounds; auto. Qed.
Lemma Cpos' : 0 < C.
Proof.
  destruct (Z_lt_le_dec 0 C); auto. exfalso. pose proof W_range. unfold W in *.
  assert (inject_Z C <= 0)%Q by (change 0%Q with (inject_Z 0); rewrite <- Zle_Qle; auto). nra.
Qed.
Definition frame_b : boundary := mkB (lat_min b) (lat_max b) (-180) (-180 + W) (time_range b).
Let F := frame_b.
Let off : Q := (long_min b + 180)%Q.
Lemma F_valid : valid_region F.
Proof. pose proof W_range. destruct Mb as (B1 & _). split; auto. cbn. repeat split; lra. Qed.
Lemma F_C : (long_max F - long_min F == inject_Z C * cw)%Q.
Proof. cbn. rewrite <- HC. fold W. lra. Qed.

Definition wcell (r c : nat) : boundary :=
  (let lat := lat_min b + inject_Z (Z.of_nat r) * ch in
   let long := longitude_domain (long_min b + inject_Z (Z.of_nat c) * cw) in
   mkB lat (lat + ch) long (if qleb (long + cw) 180 then long + cw else long + cw - 360) (time_range b))%Q.

Lemma wcol c : 0 <= c < C -> (0 <= inject_Z c * cw /\ inject_Z c * cw + cw <= W)%Q.
Proof.
  intros H. split; [apply inject_mul_nonneg; auto; lia|].
  pose proof (col_bound F cw C Hcw F_C c H) as X. cbn in X. lra.
Qed.
Lemma wlong c : 0 <= c < C -> let x := (long_min b + inject_Z c * cw)%Q in
  in_domain (longitude_domain x) /\ exists k : Z, (longitude_domain x == x + inject_Z k * 360)%Q.
Proof. intros H x. split; [apply domain_range|]. destruct (domain_same x) as (k & E). eauto. Qed.

Lemma initialize_bounds_wrap : initialize_bounds b cw ch =
  Ok (map (fun rc => wcell (fst rc) (snd rc)) (list_prod (seq 0 NR) (seq 0 NC))).
Proof.
  unfold initialize_bounds, long_columns.
  destruct (qltb_spec (long_min b) (long_max b)) as [L|_]; [exfalso; lra|].
  rewrite (arange_exact _ _ ch R), (arange_exact _ _ cw C) by (auto; rewrite <- HC; fold W; rewrite W_eq; lra).
  fold NR NC.
  set (cols := map longitude_domain (map (fun k => (long_min b + inject_Z (Z.of_nat k) * cw)%Q) (seq 0 NC))).
  assert (Em : forall rows, list_prod (map (fun k => (lat_min b + inject_Z (Z.of_nat k) * ch)%Q) rows) cols =
      map (fun rc => ((lat_min b + inject_Z (Z.of_nat (fst rc)) * ch)%Q, longitude_domain (long_min b + inject_Z (Z.of_nat (snd rc)) * cw)%Q))
       (list_prod rows (seq 0 NC))).
  { unfold cols. induction rows as [|r rows IH]; cbn; auto. rewrite map_app. f_equal; [rewrite !map_map; auto | exact IH]. }
  rewrite Em.
  assert (Ec : forall l, (forall rc, In rc l -> (snd rc < NC)%nat) ->
      mapM (fun ll => grid_cell_bounds b cw ch (fst ll) (snd ll))
        (map (fun rc => ((lat_min b + inject_Z (Z.of_nat (fst rc)) * ch)%Q, longitude_domain (long_min b + inject_Z (Z.of_nat (snd rc)) * cw)%Q)) l)
      = Ok (map (fun rc => wcell (fst rc) (snd rc)) l)).
  { induction l as [|[r c] l IH]; intros H; [reflexivity|].
    pose proof (H (r, c) (or_introl eq_refl)) as Hc. cbn [snd] in Hc.
    destruct (wlong (Z.of_nat c) ltac:(unfold NC in Hc; lia)) as ((D1 & D2) & _).
    destruct (wcol (Z.of_nat c) ltac:(unfold NC in Hc; lia)) as (P1 & P2). pose proof W_range as WR.
    specialize (IH (fun rc Hrc => H rc (or_intror Hrc))).
    cbn [map mapM fst snd]. unfold grid_cell_bounds at 1, wcell at 1. cbv zeta. cbn [fst snd].
    generalize dependent (longitude_domain (long_min b + inject_Z (Z.of_nat c) * cw)). intros lo D1 D2.
    destruct (qleb_spec (lo + cw) 180) as [Q1|Q1]; rewrite Boundary_ok by (auto; lra); cbn [bind];
    cbn [map mapM fst snd] in IH; unfold grid_cell_bounds at 1 in IH || idtac.
    - match goal with |- context [bind ?X _] => replace X with (Ok (map (fun rc : nat * nat => wcell (fst rc) (snd rc)) l)) by (symmetry; exact IH) end. reflexivity.
    - match goal with |- context [bind ?X _] => replace X with (Ok (map (fun rc : nat * nat => wcell (fst rc) (snd rc)) l)) by (symmetry; exact IH) end. reflexivity. }
  apply Ec. intros [r c] H. apply in_prod_iff in H as [_ H]. apply in_seq in H. cbn. lia.
Qed.

Lemma prod_seq {A} (h : nat -> nat -> A) :
  map (fun rc => h (fst rc) (snd rc)) (list_prod (seq 0 NR) (seq 0 NC)) =
  map (fun k => h (k / NC)%nat (k mod NC)%nat) (seq 0 (NR * NC)).
Proof.
  pose proof Cpos'. assert (N0 : NC <> 0%nat) by (unfold NC; lia).
  apply nth_error_ext. intros k. rewrite !nth_error_map.
  destruct (Nat.lt_ge_cases k (NR * NC)) as [Hk|Hk].
  - rewrite nth_error_seq by auto. cbn [option_map].
    pose proof (Nat.div_mod k _ N0) as E. pose proof (Nat.mod_upper_bound k _ N0) as U.
    assert (D : (k / NC < NR)%nat) by (apply Nat.div_lt_upper_bound; lia).
    rewrite E at 1.
    replace (NC * (k / NC) + k mod NC)%nat with (k / NC * List.length (seq 0 NC) + k mod NC)%nat by (rewrite seq_length; lia).
    erewrite nth_error_list_prod by (apply nth_error_seq; assumption). reflexivity.
  - rewrite nth_error_seq_none by auto.
    assert (E : nth_error (list_prod (seq 0 NR) (seq 0 NC)) k = None).
    { apply nth_error_None. rewrite prod_length, !seq_length. auto. }
    rewrite E. reflexivity.
Qed.

Definition wcellbox (k : nat) : cellbox :=
  let bd := wcell (k / NC) (k mod NC) in mkCell bd (Z.of_nat k) 0 (initialize_meta_data_subsets bd srcs) None.

Lemma initialize_cellboxes_wrap : initialize_cellboxes b cw ch srcs = Ok (map wcellbox (seq 0 (NR * NC))).
Proof.
  unfold initialize_cellboxes. rewrite initialize_bounds_wrap. cbn [bind]. rewrite prod_seq.
  rewrite map_length, seq_length, combine_map_seq, map_map. reflexivity.
Qed.

Let n := (NR * NC)%nat.
Definition wcs : list (option cellbox) := map Some (map wcellbox (seq 0 n)).
Definition fcs : list (option cellbox) := map Some (map (grid_cellbox F cw ch C srcs) (seq 0 n)).
Definition wu : Z -> boundary := bx_of fcs.
Lemma wcs_nth k : (k < n)%nat -> nth_error wcs k = Some (Some (wcellbox k)).
Proof. intros H. unfold wcs. rewrite !nth_error_map, nth_error_seq by auto. reflexivity. Qed.
Lemma wcs_inv k c : nth_error wcs k = Some (Some c) -> (k < n)%nat /\ c = wcellbox k.
Proof.
  intros H. destruct (Nat.lt_ge_cases k n) as [L|L].
  - rewrite wcs_nth in H by auto. split; congruence.
  - unfold wcs in H. rewrite !nth_error_map, nth_error_seq_none in H by auto. discriminate.
Qed.
Lemma wcs_live z : live_of wcs z <-> live_of fcs z.
Proof.
  split; intros (H & c & E); split; auto.
  - apply wcs_inv in E as [L _]. eexists. unfold fcs, n. apply cs_nth. exact L.
  - unfold fcs, n in E. apply cs_nth_inv in E as [L _]. eexists. apply wcs_nth. exact L.
Qed.

Lemma wu_at k : (k < n)%nat -> wu (Z.of_nat k) = cell_at F cw ch (k / NC) (k mod NC).
Proof. intros H. unfold wu, bx_of, fcs. rewrite Nat2Z.id, !nth_error_map, nth_error_seq by exact H. reflexivity. Qed.

Lemma kmod k : (k < n)%nat -> (k mod NC < NC)%nat.
Proof. intros H. pose proof Cpos'. apply Nat.mod_upper_bound. unfold NC. lia. Qed.

Lemma wcell_moved r c : (c < NC)%nat -> moved off (wcell r c) (cell_at F cw ch r c) /\
  in_frame W (cell_at F cw ch r c) /\ in_domain (long_min (wcell r c)).
Proof.
  intros Hc. assert (Hc' : 0 <= Z.of_nat c < C) by (unfold NC in Hc; lia).
  pose proof (wcol _ Hc') as (P1 & P2). pose proof W_range as WR.
  destruct (wlong _ Hc') as ((D1 & D2) & k & K).
  pose proof (cell_at_grid F cw ch C F_valid Hcw F_C r c ltac:(lia)) as G.
  destruct G as ((G1 & G2 & G3 & G4) & GT). change (long_min F) with (-180)%Q in G1, G2. change (lat_min F) with (lat_min b) in G3, G4.
  split; [|split; [|split; exact D1 || exact D2]].
  - split; [rewrite G3, G4; cbn [wcell lat_min lat_max]; split; lra|].
    exists k. rewrite G1, G2. unfold off, wcell. cbv zeta. cbn [region x0 x1 long_min long_max].
    revert D1 D2 K. generalize (longitude_domain (long_min b + inject_Z (Z.of_nat c) * cw)). intros lo D1 D2 K.
    destruct (qleb_spec (lo + cw) 180) as [Q1|Q1];
    match goal with |- context [qltb ?x ?y] => destruct (qltb_spec x y) end; split; lra.
  - split; [|lra]. split; [|split; [lra|split; [lra|discriminate]]]. split; [lra|].
    rewrite G3, G4. lra.
Qed.
Lemma off_b : moved off b F /\ regular F \/ (lat_min b == lat_max b)%Q.
Proof.
  destruct Mb as (B1 & _). destruct (Qlt_le_dec (lat_min b) (lat_max b)) as [L|L]; [left|right; lra].
  pose proof W_range. split.
  - split; [cbn; split; reflexivity|]. exists 0. change (inject_Z 0) with 0%Q. unfold off.
    pose proof (width_region b) as X. fold W in X. change (x0 (region b)) with (long_min b) in *. cbn [long_min long_max F frame_b].
    split; lra.
  - split; cbn; lra.
Qed.

Let gw := (get_width b / cw)%Q.
Lemma wgw : (gw == inject_Z C)%Q.
Proof. unfold gw. rewrite HC. field. lra. Qed.
Lemma n_eq : n = Z.to_nat (R * C).
Proof. pose proof Cpos'. unfold n, NR, NC. rewrite Z2Nat.inj_mul by lia. reflexivity. Qed.
Definition wgraph : graph := initialise_neighbour_graph n gw.
Lemma wgraph_rep : rep KI wgraph (live_of fcs) (grid_f R C).
Proof.
  pose proof (initialise_graph_rep R C Cpos' HR0 gw wgw) as RG. rewrite <- n_eq in RG.
  eapply rep_ext; [|reflexivity|exact RG]. intros i. symmetry.
  apply (live_cs F cw ch R C F_valid Hcw F_C HR0 srcs).
Qed.
Lemma F_inv : mesh_inv (mkMesh fcs wgraph false).
Proof.
  pose proof Cpos' as CP.
  assert (NRC : Z.of_nat n = R * C) by (rewrite n_eq, Z2Nat.id; nia).
  split; [|split]; unfold live_cell; cbn [cells glob ng].
  - intros i c Hi. apply (cs_nth_inv F cw ch R C srcs) in Hi as [L ->]. fold NR NC in L. fold n in L. split; [reflexivity|].
    destruct (div_bounds R C CP (Z.of_nat i) ltac:(lia)) as (Hr & Hc & _).
    eapply (grid_cell_ok F cw ch R C F_valid Hcw Hch F_C false); [exact Hc|discriminate|].
    apply (grid_at F cw ch R C F_valid Hcw F_C srcs); auto.
  - intros i j c c' Hi Hj N. apply (cs_nth_inv F cw ch R C srcs) in Hi as [Li ->]. apply (cs_nth_inv F cw ch R C srcs) in Hj as [Lj ->].
    fold NR NC in Li, Lj. fold n in Li, Lj.
    destruct (div_bounds R C CP (Z.of_nat i) ltac:(lia)) as (Hr & Hc & Ei).
    destruct (div_bounds R C CP (Z.of_nat j) ltac:(lia)) as (Hr' & Hc' & Ej).
    eapply (grid_sep F cw ch R C Hcw Hch); [exact Hc|exact Hc'|apply (grid_at F cw ch R C F_valid Hcw F_C srcs); auto|apply (grid_at F cw ch R C F_valid Hcw F_C srcs); auto|].
    intros E. injection E as E1 E2. apply N. rewrite E1, E2 in Ei. lia.
  - exists (grid_f R C). split; [exact wgraph_rep|].
    apply (grid_exact_regional F cw ch R C F_valid Hcw Hch F_C HR0 srcs).
Qed.
Lemma F_tiles : mesh_tiles (region F) (mkMesh fcs wgraph false).
Proof. apply (grid_tiles F cw ch R C F_valid Hcw Hch F_C HR HR0 srcs); [reflexivity|exact F_inv]. Qed.

Lemma wu_F i c : live_cell (mkMesh fcs wgraph false) i c -> wu (Z.of_nat i) = cb_bounds c.
Proof. exact (bx_of_cell (mkMesh fcs wgraph false) i c). Qed.

Lemma wu_cell i c : nth_error wcs i = Some (Some c) ->
  cb_id c = Z.of_nat i /\ times_ok (time_range (cb_bounds c)) /\ in_frame W (wu (Z.of_nat i)) /\
  moved off (cb_bounds c) (wu (Z.of_nat i)) /\ in_domain (long_min (cb_bounds c)).
Proof.
  intros H. apply wcs_inv in H as [L ->]. rewrite wu_at by auto.
  destruct (wcell_moved (i / NC) (i mod NC) (kmod i L)) as (M & Fr & D). auto.
Qed.
Lemma wu_sep i j : live_of wcs i -> live_of wcs j -> i <> j -> sep (region (wu i)) (region (wu j)).
Proof.
  intros Hi Hj N. apply wcs_live in Hi, Hj. destruct F_inv as (_ & I2 & _).
  destruct (live_of_inv (mkMesh fcs wgraph false) i Hi) as (ni & c & -> & Lc).
  destruct (live_of_inv (mkMesh fcs wgraph false) j Hj) as (nj & c' & -> & Lc').
  rewrite (wu_F ni c Lc), (wu_F nj c' Lc').
  apply (I2 ni nj); auto.
Qed.
Lemma wu_cover x y : mem (region F) x y -> exists i, live_of wcs i /\ mem (region (wu i)) x y.
Proof.
  intros M. destruct F_tiles as (T1 & _). destruct (T1 x y M) as (i & c & Lc & Mc).
  exists (Z.of_nat i). split; [apply wcs_live; eapply (live_of_cell (mkMesh fcs wgraph false)); eauto|].
  rewrite (wu_F i c Lc). auto.
Qed.
Lemma wu_inside i x y : live_of wcs i -> mem (region (wu i)) x y -> mem (region F) x y.
Proof.
  intros Hi M. apply wcs_live in Hi. destruct F_tiles as (_ & T2 & _).
  destruct (live_of_inv (mkMesh fcs wgraph false) i Hi) as (ni & c & -> & Lc).
  rewrite (wu_F ni c Lc) in M. eauto.
Qed.

(** Tiling, also for a range that closes the circle. *)
Lemma wrap_tiles g gl : globe_tiled (region b) (mkMesh wcs g gl).
Proof.
  destruct off_b as [[MF RF]|E].
  - apply (globe_tiled_frame off W b F wu); auto.
    + apply W_range.
    + cbn. lra.
    + intros i c Lc. destruct (wu_cell i c Lc) as (_ & _ & [(Rg & _) _] & M & _). auto.
    + apply wu_sep.
    + apply wu_cover.
    + apply wu_inside.
  - assert (R0 : R = 0).
    { assert (E0 : (inject_Z R * ch == inject_Z 0 * ch)%Q) by (rewrite <- HR; change (inject_Z 0) with 0%Q; lra).
      apply (inject_scale_eq ch R 0 Hch) in E0. auto. }
    assert (N0 : wcs = []). { unfold wcs, n, NR. rewrite R0. reflexivity. }
    split; [|split].
    + intros x y (k & _ & Y). exfalso. cbn in Y. lra.
    + intros i c x y H. unfold live_cell in H. cbn [cells] in H. rewrite N0 in H. destruct i; discriminate.
    + intros i j c c' x y H. unfold live_cell in H. cbn [cells] in H. rewrite N0 in H. destruct i; discriminate.
Qed.

(** The mesh, when the range does not close the circle. *)
Hypothesis Cb : (long_max b < long_min b)%Q.
Lemma W_lt : (W < 360)%Q.
Proof. rewrite W_eq. lra. Qed.
Lemma wrap_cells g : cells_with off W (region F) wu (mkMesh wcs g false).
Proof.
  split; [|split; [|split]].
  - intros i c Lc. destruct (wu_cell i c Lc) as (A & B & D & E & G). split; auto. split; auto. split; auto.
    destruct E as [E1 E2]. split; auto. split; auto.
    apply wcs_inv in Lc as [L ->]. destruct G as [G1 G2].
    pose proof (kmod i L) as Hm. assert (Hc' : 0 <= Z.of_nat (i mod NC) < C) by (unfold NC in *; lia).
    destruct (wcol _ Hc') as (P1 & P2). pose proof W_eq as WE. destruct Mb as (_ & [M1 M2] & [M3 M4] & _).
    unfold wcellbox, wcell in *. cbv zeta in *. cbn [cb_bounds long_min long_max] in *. split; [split; [|exact G2]|].
    + destruct (domain_cases (long_min b + inject_Z (Z.of_nat (i mod NC)) * cw)) as [[_ X]|[X1 X]]; [lra| |]; rewrite X; lra.
    + unfold in_domain. clear - G1 G2 P1 P2 WE M1 M2 M3 M4 Wb Hcw. revert G1 G2. generalize (longitude_domain (long_min b + inject_Z (Z.of_nat (i mod NC)) * cw)). intros lo G1 G2.
      destruct (qleb_spec (lo + cw) 180) as [Q1|Q1]; lra.
  - apply wu_sep.
  - apply wu_cover.
  - apply wu_inside.
Qed.
Lemma wrap_inv : cross_inv off W (region F) (mkMesh wcs wgraph false).
Proof.
  split; [reflexivity|]. exists wu. split; [apply wrap_cells|].
  exists (grid_f R C). cbn [ng cells]. split.
  - eapply rep_ext; [|reflexivity|exact wgraph_rep]. intros z. symmetry. apply wcs_live.
  - eapply (exact_for_ext (live_of fcs)); [| |apply (grid_exact_regional F cw ch R C F_valid Hcw Hch F_C HR0 srcs)].
    + intros z. symmetry. apply wcs_live.
    + reflexivity.
Qed.

Lemma wrap_build : validate_bounds b cw ch = Ok tt -> build_mesh b cw ch srcs = Ok (mkMesh wcs wgraph false).
Proof.
  intros V. unfold build_mesh. rewrite V. cbn [bind]. rewrite initialize_cellboxes_wrap. cbn [bind].
  rewrite map_length, seq_length. fold n. fold gw. fold wgraph.
  unfold check_global_mesh.
  assert (G : qeqb (long_max b) (qabs (long_min b)) && qeqb (qabs (long_min b)) 180 = false).
  { destruct Mb as (_ & [M1 M2] & [M3 M4] & _). apply andb_false_iff.
    destruct (qeqb_spec (qabs (long_min b)) 180); auto. left.
    destruct (qeqb_spec (long_max b) (qabs (long_min b))); auto. exfalso. lra. }
  rewrite G. cbn [bind fst snd]. reflexivity.
Qed.
End Wrap.

(** ** From the acceptance test to whole numbers of rows and columns *)
Lemma wrap_columns b cw ch : meaningful b -> (long_max b < long_min b)%Q -> (0 < cw)%Q -> (0 < ch)%Q ->
  validate_bounds b cw ch = Ok tt ->
  exists R C, 0 <= R /\ (get_width b == inject_Z C * cw)%Q /\ (lat_max b - lat_min b == inject_Z R * ch)%Q.
Proof.
  intros (B1 & [B2 B2'] & [B3 B3'] & B4) L Hcw Hch V. unfold validate_bounds in V.
  destruct (qeqb_spec cw 0); [discriminate|]. destruct (qeqb_spec ch 0); [discriminate|]. cbn [orb] in V.
  destruct (qeqb_spec (qmod (qmod (long_max b - long_min b) 360) cw) 0) as [E1|]; [|discriminate]. cbn [negb] in V.
  destruct (qeqb_spec (qmod (lat_max b - lat_min b) ch) 0) as [E2|]; [|discriminate]. clear V.
  assert (WE : (get_width b == long_max b + 360 - long_min b)%Q).
  { rewrite width_region. cbn. destruct (qltb_spec (long_min b) (long_max b)); lra. }
  assert (Eq : (qmod (long_max b - long_min b) 360 == long_max b + 360 - long_min b)%Q).
  { destruct (qmod_360 (long_max b - long_min b)) as ([Q1 Q2] & k & K).
    assert (G : (-360 < long_max b - long_min b)%Q) by (destruct (Qlt_le_dec (-360) (long_max b - long_min b)); auto; exfalso; apply B4; lra).
    assert (X : (inject_Z (k + 1) == inject_Z k + 1)%Q) by (rewrite inject_Z_plus; reflexivity).
    assert (Y : k + 1 = 0) by (apply int_zero; lra). rewrite Y in X. change (inject_Z 0) with 0%Q in X. lra. }
  rewrite (qmod_comp _ (get_width b) _ cw) in E1 by (rewrite ?Eq, ?WE; reflexivity).
  destruct (qmod_zero_div (get_width b) cw Hcw ltac:(lra) E1) as (C & _ & EC).
  destruct (qmod_zero_div (lat_max b - lat_min b) ch Hch ltac:(lra) E2) as (R & HR & ER).
  exists R, C. auto.
Qed.

Lemma crossing_meaningful b : crossing b -> meaningful b /\ (long_max b < long_min b)%Q /\ times_ok (time_range b).
Proof. intros (A & B & C & D & E & G). repeat split; auto; try apply B; try apply C. Qed.

Definition cross_off (b : boundary) : Q := (long_min b + 180)%Q.
Theorem crossing_build b cw ch srcs : crossing b -> (0 < cw)%Q -> (0 < ch)%Q -> validate_bounds b cw ch = Ok tt ->
  exists m, build_mesh b cw ch srcs = Ok m /\ cross_inv (cross_off b) (get_width b) (region (frame_b b)) m /\ globe_tiled (region b) m.
Proof.
  intros Cr Hcw Hch V. destruct (crossing_meaningful b Cr) as (Mb & L & T).
  destruct (wrap_columns b cw ch Mb L Hcw Hch V) as (R & C & HR0 & HC & HR).
  assert (L' : (long_max b <= long_min b)%Q) by lra.
  eexists. split; [apply (wrap_build b cw ch R C Mb T L' Hcw Hch HC HR srcs L V)|]. split.
  - apply (wrap_inv b cw ch R C); auto.
  - apply (wrap_tiles b cw ch R C); auto.
Qed.
Lemma crossing_build_inv b cw ch srcs m : crossing b -> (0 < cw)%Q -> (0 < ch)%Q -> build_mesh b cw ch srcs = Ok m ->
  cross_inv (cross_off b) (get_width b) (region (frame_b b)) m.
Proof.
  intros Cr Hcw Hch E. assert (V : validate_bounds b cw ch = Ok tt).
  { unfold build_mesh in E. destruct (validate_bounds b cw ch) as [[]|]; [auto|discriminate]. }
  destruct (crossing_build b cw ch srcs Cr Hcw Hch V) as (m' & E' & I & _). congruence.
Qed.
Lemma crossing_width b : crossing b -> (get_width b < 360)%Q.
Proof. intros (A & B & C & D & E). rewrite width_region. cbn. destruct (qltb_spec (long_min b) (long_max b)); lra. Qed.

(** ** Histories *)
Lemma split_cells off W F m i m' : (W < 360)%Q -> cross_cells off W F m -> split_and_replace m i = Ok m' -> cross_cells off W F m'.
Proof.
  intros HW (Gl & u & CW) E.
  assert (exists c, live_cell m i c) as (c & Li).
  { unfold split_and_replace in E.
    destruct (py_nth (cells m) (Z.of_nat i)) as [o|e] eqn:En; [|discriminate]. cbn [bind] in E.
    destruct o as [c|]; [|discriminate]. exists c. apply py_nth_ok in En; [|lia]. rewrite Nat2Z.id in En. auto. }
  destruct (cross_cell_split off W F u m i c HW CW Li) as (kidc & Es & Eb & Hk).
  unfold split_and_replace in E. rewrite (py_nth_some _ _ _ Li) in E. cbn [bind] in E. rewrite Es in E. cbn [bind] in E.
  match type of E with bind ?X _ = _ => destruct X as [g'|]; [|discriminate] end. cbn [bind] in E. injection E as <-.
  split; [exact Gl|]. exists (u' u m i). apply (cells_after off W F u m i c CW Li kidc Hk g').
Qed.
Lemma splits_cells off W F m m' : (W < 360)%Q -> cross_cells off W F m -> splits m m' -> cross_cells off W F m'.
Proof. intros HW H S. induction S as [|m m1 m2 i S IH E]; auto. exact (split_cells off W F m1 i m2 HW (IH H) E). Qed.

Lemma cells_tiled b m : crossing b ->
  cross_cells (cross_off b) (get_width b) (region (frame_b b)) m -> globe_tiled (region b) m.
Proof.
  intros Cr (Gl & u & C1 & C2 & C3 & C4). destruct (crossing_meaningful b Cr) as (Mb & L & T).
  assert (L' : (long_max b <= long_min b)%Q) by lra.
  destruct (off_b b Mb) as [[MF RF]|E].
  2:{ assert (X : forall i c x y, live_cell m i c -> mem_globe (region (cb_bounds c)) x y -> False).
      { intros i c x y Lc M. destruct (C1 i c Lc) as (_ & _ & [(Rg & _) _] & U).
        apply (moved_mem _ _ _ x y Rg (unrolled_moved _ _ _ U)) in M as (k & M).
        pose proof (C4 _ _ _ (live_of_cell m _ _ Lc) M) as N. unfold mem in N. cbn in N. lra. }
      split; [|split].
      - intros x y (k & _ & Y). exfalso. cbn in Y. lra.
      - intros i c x y Lc M. destruct (X i c x y Lc M).
      - intros i j c c' x y Lc _ M. destruct (X i c x y Lc M). }
  apply (globe_tiled_frame (cross_off b) (get_width b) b (frame_b b) u); auto.
  - pose proof (crossing_width b Cr). lra.
  - cbn. lra.
  - intros i c Lc. destruct (C1 i c Lc) as (_ & _ & [(Rg & _) _] & U). split; auto. apply unrolled_moved; auto.
Qed.

(** Splits of quarters that touch plainly keep everything. *)
Lemma plain_history off W F m m' : (W < 360)%Q -> cross_inv off W F m -> splits_where quarters_touch_plainly m m' -> cross_inv off W F m'.
Proof.
  intros HW H S. induction S as [|m m1 m2 i c S IH Lc P E]; auto.
  destruct (cross_split off W F m1 i c HW (IH H) Lc) as (m' & E' & _ & _ & X). rewrite E in E'. injection E' as <-. auto.
Qed.
Lemma where_splits P m m' : splits_where P m m' -> splits m m'.
Proof. induction 1; [constructor|econstructor; eauto]. Qed.

Lemma west_plain off W F m i c : (W < 360)%Q -> cross_cells off W F m -> live_cell m i c -> west_of_antimeridian m c ->
  quarters_touch_plainly m c.
Proof.
  intros HW (Gl & u & CW) Li (Wc & Wn) ks k j c' d d' Es Hk Lj Sd Td Td'.
  destruct (cross_cell_split off W F u m i c HW CW Li) as (kidc & _ & Eb & Hq).
  rewrite Eb in Es. injection Es as <-.
  assert (exists q, k = cb_bounds (kidc q)) as (q & ->).
  { cbn in Hk. destruct Hk as [<-|[<-|[<-|[<-|[]]]]]; eauto. }
  destruct (Hq q) as (_ & U & _). pose proof CW as (C1 & _).
  destruct (C1 _ _ Li) as (_ & _ & Fc & Uc). destruct (C1 _ _ Lj) as (_ & _ & Fj & Uj).
  destruct (qb_ok W q _ Fc) as (Fq & Qq).
  pose proof (unrolled_proper off W _ _ Fq U) as Pk. pose proof (unrolled_proper off W _ _ Fj Uj) as Pj.
  pose proof (Wn j c' d Lj Sd Td) as Wj.
  destruct U as (_ & [U1 U2] & kq & K0 & K1). destruct Uc as (_ & [V1 V2] & kc & V3 & V4). destruct Uj as (_ & [J1 J2] & kj & J3 & J4).
  change (long_min (cb_bounds (kidc q))) with (x0 (region (cb_bounds (kidc q)))) in *.
  change (long_min (cb_bounds c)) with (x0 (region (cb_bounds c))) in *.
  change (long_min (cb_bounds c')) with (x0 (region (cb_bounds c'))) in *.
  destruct Fc as [([Rv _] & _) _].
  assert (kq = kc).
  { assert (E : (inject_Z (kq + - kc) == inject_Z kq - inject_Z kc)%Q) by (rewrite inject_Z_plus, inject_Z_opp; lra).
    assert (kq + - kc = 0); [|lia].
    apply int_zero. destruct q; cbn [qb long_min long_max] in K0, K1; lra. }
  subst kq.
  assert (X1 : (x1 (region (cb_bounds (kidc q))) <= 180)%Q) by (destruct q; cbn [qb long_min long_max] in K0, K1; lra).
  destruct Td' as (z & T). destruct (int_cases z) as [Z1|[->|Z1]].
  - exfalso. apply touches_lin in T; [|auto|apply shift_proper; auto]. unfold proper in *.
    clear -T Z1 U1 U2 J1 J2 X1 Wj Pk Pj. destruct (region (cb_bounds (kidc q))), (region (cb_bounds c')). destruct d'; cbn in *; lra.
  - apply touches_lin in T; [|auto|apply shift_proper; auto]. apply touches_lin; auto.
    change (inject_Z 0 * 360)%Q with 0%Q in T.
    clear -T. destruct (region (cb_bounds (kidc q))), (region (cb_bounds c')). destruct d'; cbn in *; lra.
  - exfalso. apply touches_lin in T; [|auto|apply shift_proper; auto]. unfold proper in *.
    clear -T Z1 U1 U2 J1 J2 X1 Wj Pk Pj. destruct (region (cb_bounds (kidc q))), (region (cb_bounds c')). destruct d'; cbn in *; lra.
Qed.

(** ** The property theorems *)
Lemma cross_ids off W F m : cross_cells off W F m -> ids_are_positions m.
Proof. intros (_ & u & C1 & _) i c Lc. apply (C1 i c Lc). Qed.

Theorem crossing_initial b cw ch srcs :
  crossing b -> (0 < cw)%Q -> (0 < ch)%Q -> validate_bounds b cw ch = Ok tt ->
  exists m, build_mesh b cw ch srcs = Ok m /\ glob m = false /\
    globe_tiled (region b) m /\ graph_exact touches_mod m /\ ids_are_positions m.
Proof.
  intros Cr Hcw Hch V. destruct (crossing_build b cw ch srcs Cr Hcw Hch V) as (m & E & I & T).
  exists m. split; auto. split; [apply I|]. split; auto. split.
  - eapply cross_graph_exact; [|exact I]. apply crossing_width; auto.
  - eapply cross_ids. apply cross_inv_cells. exact I.
Qed.
Theorem crossing_tiling b cw ch srcs m0 m :
  crossing b -> (0 < cw)%Q -> (0 < ch)%Q -> build_mesh b cw ch srcs = Ok m0 -> splits m0 m ->
  globe_tiled (region b) m /\ ids_are_positions m.
Proof.
  intros Cr Hcw Hch E S. pose proof (crossing_build_inv b cw ch srcs m0 Cr Hcw Hch E) as I.
  pose proof (splits_cells _ _ _ _ _ (crossing_width b Cr) (cross_inv_cells _ _ _ _ I) S) as X.
  split; [apply cells_tiled; auto|eapply cross_ids; eauto].
Qed.
Theorem crossing_partial b cw ch srcs m0 m :
  crossing b -> (0 < cw)%Q -> (0 < ch)%Q -> build_mesh b cw ch srcs = Ok m0 ->
  splits_where quarters_touch_plainly m0 m -> graph_exact touches_mod m.
Proof.
  intros Cr Hcw Hch E S. pose proof (crossing_build_inv b cw ch srcs m0 Cr Hcw Hch E) as I.
  eapply cross_graph_exact; [apply (crossing_width b Cr)|].
  eapply plain_history; [apply (crossing_width b Cr)|exact I|exact S].
Qed.
Theorem crossing_exactly b cw ch srcs m0 m i c :
  crossing b -> (0 < cw)%Q -> (0 < ch)%Q -> build_mesh b cw ch srcs = Ok m0 ->
  splits_where quarters_touch_plainly m0 m -> live_cell m i c ->
  exists m', split_and_replace m i = Ok m' /\ (graph_exact touches_mod m' <-> quarters_touch_plainly m c).
Proof.
  intros Cr Hcw Hch E S Lc. pose proof (crossing_build_inv b cw ch srcs m0 Cr Hcw Hch E) as I.
  pose proof (plain_history _ _ _ _ _ (crossing_width b Cr) I S) as I'.
  destruct (cross_split _ _ _ m i c (crossing_width b Cr) I' Lc) as (m' & E' & _ & X & _). eauto.
Qed.
Theorem crossing_west b cw ch srcs m0 m i c :
  crossing b -> (0 < cw)%Q -> (0 < ch)%Q -> build_mesh b cw ch srcs = Ok m0 -> splits m0 m ->
  live_cell m i c -> west_of_antimeridian m c -> quarters_touch_plainly m c.
Proof.
  intros Cr Hcw Hch E S Lc We. pose proof (crossing_build_inv b cw ch srcs m0 Cr Hcw Hch E) as I.
  pose proof (splits_cells _ _ _ _ _ (crossing_width b Cr) (cross_inv_cells _ _ _ _ I) S) as X.
  eapply west_plain; [apply (crossing_width b Cr)|exact X|exact Lc|exact We].
Qed.

(** ** A concrete region *)
Definition pacific_b : boundary := mkB 0 10 160 (-160) [].
Definition pacific_mesh : mesh := Eval vm_compute in
  match build_mesh pacific_b 10 10 [] with Ok m => m | Err _ => mkMesh [] [] false end.
Definition pacific_west : mesh := Eval vm_compute in
  match split_and_replace pacific_mesh 0 with Ok m => m | Err _ => mkMesh [] [] false end.
Definition pacific_east : mesh := Eval vm_compute in
  match split_and_replace pacific_mesh 3 with Ok m => m | Err _ => mkMesh [] [] false end.
Lemma pacific_built : build_mesh pacific_b 10 10 [] = Ok pacific_mesh. Proof. vm_compute. reflexivity. Qed.
Lemma pacific_crossing : crossing pacific_b.
Proof. unfold crossing, in_domain, times_ok. cbn. repeat split; try lra; auto. Qed.
Definition pacific_cell0 : cellbox := mkCell (mkB 0 10 160 170 []) 0 0 [] None.
Lemma pacific_case : crossing pacific_b /\ validate_bounds pacific_b 10 10 = Ok tt /\
  (exists m, build_mesh pacific_b 10 10 [] = Ok m /\ List.length (cells m) = 4%nat /\
     exists m', split_and_replace m 0 = Ok m' /\ List.length (cells m') = 8%nat) /\
  exists m c, build_mesh pacific_b 10 10 [] = Ok m /\ live_cell m 0 c /\ west_of_antimeridian m c.
Proof.
  split; [exact pacific_crossing|]. split; [vm_compute; reflexivity|]. split.
  - exists pacific_mesh. split; [exact pacific_built|]. split; [reflexivity|]. exists pacific_west. split; vm_compute; reflexivity.
  - eexists pacific_mesh, _. split; [exact pacific_built|]. split; [reflexivity|]. split; [vm_compute; discriminate|].
    intros j c' d Lj Sd T.
    assert (J : (j < 4)%nat) by (apply (nth_error_Some (cells pacific_mesh)); unfold live_cell in Lj; rewrite Lj; discriminate).
    destruct j as [|[|[|[|j]]]]; [| | | |lia]; unfold live_cell in Lj; cbn in Lj; injection Lj as <-; try (vm_compute; discriminate).
    all: exfalso; destruct T as (k & T); apply touches_lin in T; [|split; vm_compute; reflexivity|apply shift_proper; split; vm_compute; reflexivity].
    all: assert (K : (inject_Z k <= -1 \/ inject_Z k == 0 \/ 1 <= inject_Z k)%Q) by (destruct (int_cases k) as [K|[->|K]]; auto; right; left; reflexivity); revert T K; generalize (inject_Z k); intros z T K; destruct K as [K|[K|K]]; destruct Sd as [-> | [-> | [-> | ->]]]; cbn in T; lra.
Qed.
Lemma pacific_refuted : exists b cw ch m0 m1,
  crossing b /\ (0 < cw)%Q /\ (0 < ch)%Q /\ build_mesh b cw ch [] = Ok m0 /\ splits m0 m1 /\
  ~ graph_exact touches_mod m1.
Proof.
  exists pacific_b, 10%Q, 10%Q, pacific_mesh, pacific_east. split; [exact pacific_crossing|].
  split; [reflexivity|]. split; [reflexivity|]. split; [exact pacific_built|].
  split. { apply (splits_more _ pacific_mesh _ 3); [apply splits_none|]. vm_compute. reflexivity. }
  intros (_ & _ & G). destruct (G 4%nat _ dW eq_refl) as (l & El & _ & X).
  vm_compute in El. injection El as <-.
  assert (I : In 2 []); [|exact I].
  apply X. exists 2%nat. eexists. split; [reflexivity|]. split; [reflexivity|].
  exists (-1). split; [reflexivity|]. exists 7%Q. cbn. lra.
Qed.
