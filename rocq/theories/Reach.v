(** Every reachable mesh satisfies the invariant. *)
From Verif Require Import Base Geo Graph Cell Builder Spec MeshSpec QLib CaseProofs SplitGeo Dict Rep SplitCore Stage BuilderSplit Invariant Grid Build Consequences.
Open Scope Z_scope.

Lemma build_validates b cw ch srcs m : build_mesh b cw ch srcs = Ok m -> validate_bounds b cw ch = Ok tt.
Proof. unfold build_mesh. destruct (validate_bounds b cw ch) as [[]|]; auto. discriminate. Qed.

Lemma validate_divides b cw ch : admissible b cw ch -> validate_bounds b cw ch = Ok tt ->
  exists R C, 0 <= R /\ (long_max b - long_min b == inject_Z C * cw)%Q /\
    (lat_max b - lat_min b == inject_Z R * ch)%Q /\ (spans_globe b -> 3 <= C).
Proof.
  intros (V & Hcw & Hch & HG) H. unfold validate_bounds in H.
  destruct V as ((B1 & B2 & B3 & B4) & _).
  destruct (qeqb cw 0 || qeqb ch 0); [discriminate|].
  destruct (qeqb_spec (qmod (qmod (long_max b - long_min b) 360) cw) 0) as [E1|]; [|discriminate]. cbn [negb] in H.
  destruct (qeqb_spec (qmod (lat_max b - lat_min b) ch) 0) as [E2|]; [|discriminate]. clear H.
  destruct (qmod_zero_div (lat_max b - lat_min b) ch) as (R & HR0 & HR); auto; [lra|].
  destruct (Qlt_le_dec (long_max b - long_min b) 360) as [W|W].
  - rewrite (qmod_comp _ (long_max b - long_min b) cw cw) in E1; [|apply qmod_small; lra|reflexivity].
    destruct (qmod_zero_div (long_max b - long_min b) cw) as (C & HC0 & HC); auto; [lra|].
    exists R, C. split; auto. split; auto. split; auto.
    intros [S1 S2]. exfalso. lra.
  - assert (SG : spans_globe b) by (split; lra).
    destruct (HG SG) as ((C & HC) & H3). exists R, C. destruct SG as [S1 S2].
    split; auto. split; [lra|]. split; auto. intros _.
    destruct (Z_lt_le_dec C 3); auto. exfalso.
    assert (inject_Z C <= 2)%Q by (change 2%Q with (inject_Z 2); rewrite <- Zle_Qle; lia).
    assert (inject_Z C * cw <= 2 * cw)%Q by (apply Qmult_le_compat_r; lra). lra.
Qed.

(** The initial mesh in full. *)
Lemma build_facts b cw ch srcs m : admissible b cw ch -> build_mesh b cw ch srcs = Ok m ->
  exists R C, 0 <= R /\ 0 < C /\ (long_max b - long_min b == inject_Z C * cw)%Q /\
    (lat_max b - lat_min b == inject_Z R * ch)%Q /\ (spans_globe b -> 3 <= C) /\
    mesh_inv m /\ glob m = is_global b /\
    cells m = map Some (map (grid_cellbox b cw ch C srcs) (seq 0 (Z.to_nat R * Z.to_nat C))).
Proof.
  intros A E. pose proof (build_validates _ _ _ _ _ E) as V.
  destruct (validate_divides _ _ _ A V) as (R & C & HR0 & HC & HR & H3).
  destruct A as (Vb & Hcw & Hch & _).
  destruct (build_mesh_ok b cw ch R C Vb Hcw Hch HC HR HR0 srcs H3) as (m1 & E1 & I1 & G1 & C1).
  rewrite E in E1. injection E1 as <-. exists R, C.
  pose proof (C_pos b cw C Vb Hcw HC). auto 10.
Qed.

Lemma build_total b cw ch srcs : admissible b cw ch ->
  divides cw (long_max b - long_min b) -> divides ch (lat_max b - lat_min b) ->
  exists m, build_mesh b cw ch srcs = Ok m.
Proof.
  intros (Vb & Hcw & Hch & HG) (C & HC) (R & HR).
  assert (HR0 : 0 <= R).
  { destruct (Z_lt_le_dec R 0) as [L|]; auto. exfalso. destruct Vb as ((_ & B2 & _) & _).
    assert (inject_Z R <= -1)%Q by (change (-1)%Q with (inject_Z (-1)); rewrite <- Zle_Qle; lia).
    assert (inject_Z R * ch <= -1 * ch)%Q by (apply Qmult_le_compat_r; lra). lra. }
  destruct (build_mesh_ok b cw ch R C Vb Hcw Hch HC HR HR0 srcs) as (m & E & _); eauto.
  intros S. destruct (HG S) as (_ & H3). destruct S as [S1 S2].
  destruct (Z_lt_le_dec C 3); auto. exfalso.
  assert (inject_Z C <= 2)%Q by (change 2%Q with (inject_Z 2); rewrite <- Zle_Qle; lia).
  assert (inject_Z C * cw <= 2 * cw)%Q by (apply Qmult_le_compat_r; lra). lra.
Qed.

Theorem reachable_inv b cw ch srcs m : admissible b cw ch -> reachable b cw ch srcs m ->
  mesh_inv m /\ (glob m = true <-> spans_globe b).
Proof.
  intros A (m0 & E & S). destruct (build_facts _ _ _ _ _ A E) as (R & C & _ & _ & _ & _ & _ & I0 & G0 & _).
  split; [eapply splits_inv; eauto|]. rewrite (splits_glob _ _ I0 S), G0. apply is_global_spec. apply A.
Qed.

Theorem reachable_tiles b cw ch srcs m : admissible b cw ch -> reachable b cw ch srcs m ->
  mesh_tiles (region b) m /\ (live_area m == area (region b))%Q.
Proof.
  intros A (m0 & E & S). destruct (build_facts _ _ _ _ _ A E) as (R & C & HR0 & HC0 & HC & HR & H3 & I0 & G0 & C0).
  destruct A as (Vb & Hcw & Hch & HG). split.
  - eapply splits_tiles; eauto. exact (grid_tiles b cw ch R C Vb Hcw Hch HC HR HR0 srcs m0 C0 I0).
  - rewrite (splits_area m0 m); auto. exact (grid_area b cw ch R C Vb Hcw Hch HC HR HR0 srcs m0 C0).
Qed.

(** The two kinds of mesh. *)
Theorem reachable_exact_regional b cw ch srcs m : admissible b cw ch -> ~ spans_globe b ->
  reachable b cw ch srcs m -> graph_exact touches m.
Proof.
  intros A N H. destruct (reachable_inv _ _ _ _ _ A H) as (I & G). pose proof (inv_graph_exact m I) as X.
  destruct (glob m); [exfalso; tauto|]. exact X.
Qed.
Theorem reachable_exact_global b cw ch srcs m : admissible b cw ch -> spans_globe b ->
  reachable b cw ch srcs m -> graph_exact touches_mod m.
Proof.
  intros A N H. destruct (reachable_inv _ _ _ _ _ A H) as (I & G). pose proof (inv_graph_exact m I) as X.
  destruct (glob m); [exact X|]. exfalso. apply G in N. discriminate.
Qed.

(** Grid cells: sizes and corners. *)
Theorem build_grid b cw ch srcs m : admissible b cw ch -> build_mesh b cw ch srcs = Ok m ->
  exists R C : nat,
    (inject_Z (Z.of_nat C) * cw == long_max b - long_min b)%Q /\
    (inject_Z (Z.of_nat R) * ch == lat_max b - lat_min b)%Q /\
    List.length (cells m) = (R * C)%nat /\
    (forall r c, (r < R)%nat -> (c < C)%nat -> exists x, live_cell m (r * C + c) x /\
       cb_id x = Z.of_nat (r * C + c) /\ cb_depth x = 0 /\ cb_parent x = None /\
       time_range (cb_bounds x) = time_range b /\
       cb_sources x = map (fun s => mkMeta (m_loader s) (m_conds s) (m_fill s)
                                    (l_trim (m_loader s) (cb_bounds x) (m_subset s))) srcs /\
       (let g := region (cb_bounds x) in
        x0 g == long_min b + inject_Z (Z.of_nat c) * cw /\ x1 g == x0 g + cw /\
        y0 g == lat_min b + inject_Z (Z.of_nat r) * ch /\ y1 g == y0 g + ch)%Q).
Proof.
  intros A E. destruct (build_facts _ _ _ _ _ A E) as (R & C & HR0 & HC0 & HC & HR & H3 & I0 & G0 & C0).
  destruct A as (Vb & Hcw & Hch & HG).
  exists (Z.to_nat R), (Z.to_nat C). rewrite !Z2Nat.id by lia. split; [lra|]. split; [lra|].
  split; [rewrite C0, !map_length, seq_length; auto|].
  intros r c Hr Hc. set (k := (r * Z.to_nat C + c)%nat).
  assert (Hk : (k < Z.to_nat R * Z.to_nat C)%nat) by (unfold k; nia).
  exists (grid_cellbox b cw ch C srcs k). unfold live_cell. rewrite C0.
  split; [apply (cs_nth b cw ch R C srcs); auto|]. do 3 (split; [reflexivity|]).
  pose proof (grid_at b cw ch R C Vb Hcw HC srcs k Hk) as G.
  split; [apply G|]. split; [reflexivity|].
  assert (Ek : Z.of_nat k / C = Z.of_nat r /\ Z.of_nat k mod C = Z.of_nat c).
  { unfold k. rewrite Nat2Z.inj_add, Nat2Z.inj_mul, Z2Nat.id by lia.
    split; symmetry; [apply (Z.div_unique_pos _ _ _ (Z.of_nat c)) | apply (Z.mod_unique_pos _ _ (Z.of_nat r))]; lia. }
  destruct Ek as [E1 E2]. rewrite E1, E2 in G.
  destruct (grid_region b cw ch C Hcw Hch (Z.of_nat r) (Z.of_nat c) _ ltac:(lia) G) as (A1 & A2 & A3 & A4).
  cbv zeta. repeat split; lra.
Qed.

(** Locality of a split, in terms of contact. *)
Lemma split_local m i m' : mesh_inv m -> split_and_replace m i = Ok m' ->
  exists c, live_cell m i c /\
  forall j cj, live_cell m j cj -> j <> i ->
    live_cell m' j cj /\
    ((forall d, ~ adjacency (glob m) d (region (cb_bounds c)) (region (cb_bounds cj))) ->
     forall d, get_neighbours (ng m') (KI (Z.of_nat j)) (KI (code d)) = get_neighbours (ng m) (KI (Z.of_nat j)) (KI (code d))).
Proof.
  intros Inv E. destruct (split_step _ _ _ Inv E) as (c & kidc & Li & I' & SR & Lo).
  exists c. split; auto. intros j cj Lj N. split.
  - apply (after_split _ _ _ _ _ Inv Li SR). auto.
  - intros NA d. apply (Lo j cj); auto; [|apply In_dirs_code; eauto].
    destruct (case_range (glob m) (cb_bounds c) (cb_bounds cj)) as [Z0|(dd & Ed)]; auto.
    exfalso. apply (NA dd). eapply live_case; eauto.
Qed.

Lemma exact_no_self m i c d l : mesh_inv m -> live_cell m i c ->
  get_neighbours (ng m) (KI (Z.of_nat i)) (KI (code d)) = Ok l -> ~ In (Z.of_nat i) l.
Proof.
  intros Inv Li El. destruct (inv_graph_exact m Inv) as (_ & _ & G3).
  destruct (G3 i c d Li) as (l' & El' & _ & X). rewrite El in El'. injection El' as <-.
  intros H. apply X in H as (j & c' & Ej & Lj & T). apply Nat2Z.inj in Ej. subst j.
  assert (c' = c) by (unfold live_cell in *; congruence). subst c'.
  pose proof (live_region m Inv _ _ Li) as P.
  apply adjacency_contact in T; auto. destruct Inv as (I1 & _). destruct (I1 _ _ Li) as (_ & K & _).
  revert T. apply contact_irrefl. apply cell_ok_box. auto.
Qed.
