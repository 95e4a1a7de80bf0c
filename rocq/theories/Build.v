(** MeshBuilder's initial mesh satisfies the mesh invariant and tiles its region. *)
From Verif Require Import Base Geo Graph Cell Builder Spec MeshSpec QLib CaseProofs SplitGeo Dict Rep SplitCore Stage BuilderSplit Invariant Grid.
Open Scope Z_scope.

Section B.
Variable b : boundary.
Variable cw ch : Q.
Variable R C : Z.
Hypothesis Hb : valid_region b.
Hypothesis Hcw : (0 < cw)%Q.
Hypothesis Hch : (0 < ch)%Q.
Hypothesis HC : (long_max b - long_min b == inject_Z C * cw)%Q.
Hypothesis HR : (lat_max b - lat_min b == inject_Z R * ch)%Q.
Hypothesis HR0 : 0 <= R.
Variable srcs : list metadata.

Let NR := Z.to_nat R.
Let NC := Z.to_nat C.
Let Cpos : 0 < C := C_pos b cw C Hb Hcw HC.

Definition grid_cellbox (k : nat) : cellbox :=
  let bd := cell_at b cw ch (k / NC) (k mod NC) in
  mkCell bd (Z.of_nat k) 0 (initialize_meta_data_subsets bd srcs) None.

Lemma nth_error_ext {A} (l l' : list A) : (forall k, nth_error l k = nth_error l' k) -> l = l'.
Proof.
  revert l'. induction l as [|a l IH]; intros [|a' l'] H; auto.
  - specialize (H 0%nat). discriminate.
  - specialize (H 0%nat). discriminate.
  - f_equal; [specialize (H 0%nat); cbn in H; congruence|]. apply IH. intros k. apply (H (S k)).
Qed.
Lemma nth_error_seq_none n k : (n <= k)%nat -> nth_error (seq 0 n) k = None.
Proof. intros. apply nth_error_None. rewrite seq_length. auto. Qed.

Lemma cell_list_seq : cell_list b cw ch R C = map (fun k => cell_at b cw ch (k / NC) (k mod NC)) (seq 0 (NR * NC)).
Proof.
  apply nth_error_ext. intros k. rewrite nth_error_map.
  destruct (Nat.lt_ge_cases k (NR * NC)) as [H|H].
  - rewrite nth_error_seq by auto. cbn. apply cell_list_nth; auto.
  - rewrite nth_error_seq_none by auto. cbn. apply nth_error_None. rewrite cell_list_length. auto.
Qed.

Lemma initialize_cellboxes_ok : initialize_cellboxes b cw ch srcs = Ok (map grid_cellbox (seq 0 (NR * NC))).
Proof.
  unfold initialize_cellboxes. rewrite (initialize_bounds_ok b cw ch R C) by auto. cbn [bind].
  change (map _ (list_prod _ _)) with (cell_list b cw ch R C). rewrite cell_list_seq.
  rewrite map_length, seq_length, combine_map_seq, map_map. reflexivity.
Qed.

Let n := (NR * NC)%nat.
Let cs := map Some (map grid_cellbox (seq 0 n)).
Lemma cs_nth k : (k < n)%nat -> nth_error cs k = Some (Some (grid_cellbox k)).
Proof. intros H. unfold cs. rewrite !nth_error_map, nth_error_seq by auto. reflexivity. Qed.
Lemma cs_nth_inv k c : nth_error cs k = Some (Some c) -> (k < n)%nat /\ c = grid_cellbox k.
Proof.
  intros H. destruct (Nat.lt_ge_cases k n) as [L|L].
  - rewrite cs_nth in H by auto. split; congruence.
  - unfold cs in H. rewrite !nth_error_map, nth_error_seq_none in H by auto. discriminate.
Qed.
Lemma n_RC : Z.of_nat n = R * C.
Proof. unfold n, NR, NC. rewrite Nat2Z.inj_mul, !Z2Nat.id by lia. auto. Qed.
Lemma live_cs i : live_of cs i <-> 0 <= i < R * C.
Proof.
  rewrite <- n_RC. split.
  - intros (H & c & E). apply cs_nth_inv in E as [L _]. lia.
  - intros H. split; [lia|]. eexists. apply cs_nth. lia.
Qed.
Lemma grid_at k : (k < n)%nat ->
  grid_cell b cw ch (Z.of_nat k / C) (Z.of_nat k mod C) (cb_bounds (grid_cellbox k)).
Proof.
  intros H. unfold grid_cellbox. cbn [cb_bounds].
  replace (Z.of_nat k / C) with (Z.of_nat (k / NC)).
  2:{ rewrite Nat2Z.inj_div. unfold NC. rewrite Z2Nat.id by lia. auto. }
  replace (Z.of_nat k mod C) with (Z.of_nat (k mod NC)).
  2:{ rewrite Nat2Z.inj_mod. unfold NC. rewrite Z2Nat.id by lia. auto. }
  apply (cell_at_grid b cw ch C); auto.
  rewrite Nat2Z.inj_mod. unfold NC. rewrite Z2Nat.id by lia. apply Z.mod_pos_bound; auto.
Qed.
Lemma bx_cs i : 0 <= i < R * C -> grid_cell b cw ch (i / C) (i mod C) (bx_of cs i).
Proof.
  intros H. unfold bx_of. assert (Z.to_nat i < n)%nat by (pose proof n_RC; lia).
  rewrite cs_nth by auto. pose proof (grid_at _ H0) as G. rewrite Z2Nat.id in G by lia. auto.
Qed.

Lemma grid_cell_ok gl r c bd : 0 <= c < C -> (gl = true -> (cw < 180)%Q) -> grid_cell b cw ch r c bd ->
  cell_ok gl bd /\ times_ok (time_range bd).
Proof.
  intros Hc Hg G. pose proof (grid_regular b cw ch C Hcw Hch r c bd Hc G) as Rg.
  destruct G as ((G1 & G2 & G3 & G4) & T). pose proof Hb as ((B1 & B2 & B3 & B4) & BT).
  pose proof (col_bound b cw C Hcw HC c Hc). pose proof (inject_mul_nonneg c cw ltac:(lia) Hcw).
  split; [|rewrite T; auto]. split; auto. split; [lra|]. split; [lra|]. intros Eg. specialize (Hg Eg). lra.
Qed.

Lemma grid_sep r c r' c' bd bd' : 0 <= c < C -> 0 <= c' < C ->
  grid_cell b cw ch r c bd -> grid_cell b cw ch r' c' bd' -> (r, c) <> (r', c') -> sep (region bd) (region bd').
Proof.
  intros H H' G G' N. destruct (grid_region b cw ch C Hcw Hch r c bd H G) as (A1 & A2 & A3 & A4).
  destruct (grid_region b cw ch C Hcw Hch r' c' bd' H' G') as (B1 & B2 & B3 & B4).
  assert (LX : forall p q, p < q -> (inject_Z p * cw + cw <= inject_Z q * cw)%Q).
  { intros p q L. rewrite <- inject_succ. apply Qmult_le_compat_r; [|lra]. rewrite <- Zle_Qle. lia. }
  assert (LY : forall p q, p < q -> (inject_Z p * ch + ch <= inject_Z q * ch)%Q).
  { intros p q L. rewrite <- inject_succ. apply Qmult_le_compat_r; [|lra]. rewrite <- Zle_Qle. lia. }
  unfold sep.
  destruct (Z_lt_le_dec c c'); [left; specialize (LX c c' l); lra|].
  destruct (Z_lt_le_dec c' c); [right; left; specialize (LX c' c l0); lra|].
  destruct (Z_lt_le_dec r r'); [right; right; left; specialize (LY r r' l1); lra|].
  destruct (Z_lt_le_dec r' r); [right; right; right; specialize (LY r' r l2); lra|].
  exfalso. apply N. f_equal; lia.
Qed.

(** Combining the closed form of the graph with contact between grid cells. *)
Lemma grid_exact_regional : exact_for (live_of cs) (icase false (bx_of cs)) (grid_f R C).
Proof.
  intros i d Hi Hd. apply live_cs in Hi. apply In_dirs_code in Hd as (dd & ->).
  unfold grid_f. rewrite dir_of_code.
  pose proof (bx_cs i Hi) as Gi. destruct (div_bounds R C Cpos i Hi) as (Hr & Hc & Ei).
  split.
  { unfold grid_nb. cbv zeta. destruct (_ && _); repeat constructor. intros []. }
  intros j. rewrite live_cs. unfold icase, get_neighbour_case. cbn [andb].
  assert (X : 0 <= j < R * C -> (get_neighbour_case_bounds (bx_of cs i) (bx_of cs j) = code dd <->
      j mod C = i mod C + dx dd /\ j / C = i / C + dy dd)).
  { intros Hj. pose proof (bx_cs j Hj) as Gj. destruct (div_bounds R C Cpos j Hj) as (Hr' & Hc' & Ej).
    rewrite <- (grid_contact b cw ch C Hcw Hch _ _ _ _ _ _ dd Hc Hc' Gi Gj).
    cbn [contact]. apply case_bounds_lin; [exact (grid_regular b cw ch C Hcw Hch _ _ _ Hc Gi) | exact (grid_regular b cw ch C Hcw Hch _ _ _ Hc' Gj)]. }
  unfold grid_nb. cbv zeta.
  destruct (_ && _) eqn:E.
  - apply andb_true_iff in E as [E1 E2]. apply andb_true_iff in E1 as [E1 E1']. apply andb_true_iff in E2 as [E2 E2'].
    apply Z.leb_le in E1, E2. apply Z.ltb_lt in E1', E2'.
    split.
    + intros [<-|[]]. assert (L : 0 <= (i / C + dy dd) * C + (i mod C + dx dd) < R * C) by nia.
      split; auto. apply X; auto. split.
      * symmetry. apply (Z.mod_unique_pos _ _ (i / C + dy dd)); lia.
      * symmetry. apply (Z.div_unique_pos _ _ _ (i mod C + dx dd)); lia.
    + intros [Hj Ec]. apply X in Ec as [Ec1 Ec2]; auto. left.
      destruct (div_bounds R C Cpos j Hj) as (_ & _ & Ej). rewrite Ej, Ec1, Ec2. auto.
  - split; [intros []|]. intros [Hj Ec]. apply X in Ec as [Ec1 Ec2]; auto.
    destruct (div_bounds R C Cpos j Hj) as (Hr' & Hc' & Ej).
    rewrite Ec1 in Hc'. rewrite Ec2 in Hr'.
    apply andb_false_iff in E as [E|E]; apply andb_false_iff in E as [E|E];
    first [apply Z.leb_gt in E; lia | apply Z.ltb_ge in E; lia].
Qed.

Lemma grid_exact_global : 3 <= C -> (cw < 180)%Q -> (long_max b - long_min b == 360)%Q ->
  exact_for (live_of cs) (icase true (bx_of cs)) (fun i d => grid_f R C i d ++ wrap_f R C i d).
Proof.
  intros H3 Hw W i d Hi Hd. apply live_cs in Hi. apply In_dirs_code in Hd as (dd & ->).
  unfold grid_f, wrap_f. rewrite dir_of_code.
  pose proof (bx_cs i Hi) as Gi. destruct (div_bounds R C Cpos i Hi) as (Hr & Hc & Ei).
  assert (X : forall j, 0 <= j < R * C -> (get_neighbour_case true (bx_of cs i) (bx_of cs j) = code dd <->
      (exists k, j mod C + k * C = i mod C + dx dd) /\ j / C = i / C + dy dd)).
  { intros j Hj. pose proof (bx_cs j Hj) as Gj. destruct (div_bounds R C Cpos j Hj) as (Hr' & Hc' & Ej).
    rewrite <- (grid_contact_global b cw ch C Hcw Hch HC _ _ _ _ _ _ dd W Hc Hc' Gi Gj).
    apply case_contact; [eapply (grid_cell_ok true _ _ _ Hc (fun _ => Hw) Gi) | eapply (grid_cell_ok true _ _ _ Hc' (fun _ => Hw) Gj)]. }
  assert (Y : exists o : option Z, grid_nb R C i dd ++ wrap_nb R C i dd = match o with Some z => [z] | None => [] end /\
     (forall z, o = Some z -> 0 <= z < R * C /\ z / C = i / C + dy dd /\ exists k, z mod C + k * C = i mod C + dx dd) /\
     (o = None -> ~ 0 <= i / C + dy dd < R)).
  { unfold grid_nb, wrap_nb. cbv zeta.
    destruct ((0 <=? i / C + dy dd) && (i / C + dy dd <? R)) eqn:E2.
    - apply andb_true_iff in E2 as [E2 E2']. apply Z.leb_le in E2. apply Z.ltb_lt in E2'. rewrite andb_true_r.
      assert (Hx : -1 <= dx dd <= 1) by (destruct dd; cbn; lia).
      assert (Z0 : forall c', 0 <= c' < C -> let z := (i / C + dy dd) * C + c' in
          0 <= z < R * C /\ z / C = i / C + dy dd /\ z mod C = c').
      { intros c' Hc'. cbv zeta. split; [nia|]. split.
        - symmetry. apply (Z.div_unique_pos _ _ _ c'); lia.
        - symmetry. apply (Z.mod_unique_pos _ _ (i / C + dy dd)); lia. }
      destruct ((0 <=? i mod C + dx dd) && (i mod C + dx dd <? C)) eqn:E1.
      + apply andb_true_iff in E1 as [E1 E1']. apply Z.leb_le in E1. apply Z.ltb_lt in E1'.
        destruct (Z.eqb_spec (i mod C + dx dd) (-1)); [lia|]. destruct (Z.eqb_spec (i mod C + dx dd) C); [lia|].
        rewrite app_nil_r. eexists (Some _). split; [reflexivity|]. split; [|discriminate].
        intros z Ez. injection Ez as <-. destruct (Z0 (i mod C + dx dd) ltac:(lia)) as (Z1 & Z2 & Z3).
        split; auto. split; auto. exists 0. lia.
      + apply andb_false_iff in E1. rewrite Z.leb_gt, Z.ltb_ge in E1.
        destruct (Z.eqb_spec (i mod C + dx dd) (-1)).
        * eexists (Some _). split; [reflexivity|]. split; [|discriminate].
          intros z Ez. injection Ez as <-. destruct (Z0 (C - 1) ltac:(lia)) as (Z1 & Z2 & Z3).
          split; auto. split; auto. exists (-1). lia.
        * destruct (Z.eqb_spec (i mod C + dx dd) C); [|lia].
          eexists (Some _). split; [reflexivity|]. split; [|discriminate].
          intros z Ez. injection Ez as <-. destruct (Z0 0 ltac:(lia)) as (Z1 & Z2 & Z3). rewrite Z.add_0_r in Z1, Z2, Z3.
          split; auto. split; auto. exists 1. lia.
    - rewrite andb_false_r. exists None. split; auto. split; [discriminate|]. intros _ [L1 L2].
      apply andb_false_iff in E2. rewrite Z.leb_gt, Z.ltb_ge in E2. lia. }
  destruct Y as (o & -> & Y1 & Y2). split; [destruct o; repeat constructor; intros []|].
  intros j. rewrite live_cs. unfold icase.
  split.
  - destruct o as [z|]; [|intros []]. intros [<-|[]]. destruct (Y1 z eq_refl) as (Z1 & Z2 & Z3).
    split; auto. apply X; auto.
  - intros [Hj Ec]. apply X in Ec as [(k & Ek) Er]; auto.
    destruct (div_bounds R C Cpos j Hj) as (Hr' & Hc' & Ej).
    destruct o as [z|]; [|exfalso; apply Y2; auto; lia].
    destruct (Y1 z eq_refl) as (Z1 & Z2 & (k' & Z3)). left.
    destruct (div_bounds R C Cpos z Z1) as (_ & Hcz & Ez).
    assert (k = k') by nia. subst k'. rewrite Ej, Ez, Z2, Er. lia.
Qed.

Lemma width_eq : (get_width b == long_max b - long_min b)%Q.
Proof.
  unfold get_width. pose proof Hb as ((B1 & _) & _). qsplit. lra.
Qed.
Lemma gw_eq : (get_width b / cw == inject_Z C)%Q.
Proof. rewrite width_eq, HC. field. lra. Qed.

Lemma validate_ok : (0 <= long_max b - long_min b <= 360)%Q -> validate_bounds b cw ch = Ok tt.
Proof.
  intros HW. unfold validate_bounds.
  destruct (qeqb_spec cw 0) as [E|_]; [exfalso; lra|].
  destruct (qeqb_spec ch 0) as [E|_]; [exfalso; lra|]. cbn [orb].
  assert (M : forall k s, (0 < s)%Q -> (qmod (inject_Z k * s) s == 0)%Q).
  { intros k s Hs. unfold qmod. rewrite (qfloor_eq _ k); [lra|]. field. lra. }
  assert (E1 : (qmod (qmod (long_max b - long_min b) 360) cw == 0)%Q).
  { destruct (Qlt_le_dec (long_max b - long_min b) 360) as [H|H].
    - rewrite (qmod_comp _ (inject_Z C * cw) cw cw); [apply M; auto| |reflexivity].
      rewrite qmod_small by lra. auto.
    - assert (E : (long_max b - long_min b == 360)%Q) by lra.
      assert (E0 : (qmod (long_max b - long_min b) 360 == 0)%Q).
      { rewrite (qmod_comp _ (inject_Z 1 * 360) 360 360); [apply M; lra| |reflexivity]. rewrite E. reflexivity. }
      rewrite (qmod_comp _ (inject_Z 0 * cw) cw cw); [apply M; auto| |reflexivity]. rewrite E0. change (inject_Z 0) with 0%Q. lra. }
  assert (E2 : (qmod (lat_max b - lat_min b) ch == 0)%Q).
  { rewrite (qmod_comp _ (inject_Z R * ch) ch ch); [apply M; auto|auto|reflexivity]. }
  destruct (qeqb_spec (qmod (qmod (long_max b - long_min b) 360) cw) 0); [|contradiction]. cbn [negb].
  destruct (qeqb_spec (qmod (lat_max b - lat_min b) ch) 0); [|contradiction]. reflexivity.
Qed.

Lemma width_bounds : (0 <= long_max b - long_min b <= 360)%Q.
Proof. pose proof Hb as ((B1 & B2 & B3 & B4) & _). lra. Qed.

Definition is_global : bool := qeqb (long_max b) (qabs (long_min b)) && qeqb (qabs (long_min b)) 180.
Lemma is_global_spec : is_global = true <-> spans_globe b.
Proof.
  pose proof Hb as ((B1 & B2 & B3 & B4) & _). unfold is_global, spans_globe. rewrite andb_true_iff, !qeqb_true.
  destruct (Qlt_le_dec (long_min b) 0) as [H|H].
  - rewrite qabs_neg by lra. split; intros; lra.
  - rewrite qabs_nonneg by lra. split; intros; lra.
Qed.

(** The initial mesh exists and satisfies the invariant. *)
Lemma build_mesh_ok : (spans_globe b -> 3 <= C) ->
  exists m, build_mesh b cw ch srcs = Ok m /\ mesh_inv m /\ glob m = is_global /\ cells m = cs.
Proof.
  intros HG. unfold build_mesh. rewrite validate_ok by (apply width_bounds). cbn [bind].
  rewrite initialize_cellboxes_ok. cbn [bind].
  rewrite map_length, seq_length. fold n.
  assert (En : n = Z.to_nat (R * C)) by (pose proof n_RC; lia).
  pose proof (initialise_graph_rep R C Cpos HR0 _ gw_eq) as RG. rewrite <- En in RG.
  assert (Eid : map cb_id (map grid_cellbox (seq 0 n)) = map Z.of_nat (seq 0 n)).
  { rewrite map_map. apply map_ext. reflexivity. }
  rewrite Eid. rewrite (qfloor_eq _ C gw_eq).
  assert (LiveIff : forall i, 0 <= i < R * C <-> live_of cs i) by (intros; symmetry; apply live_cs).
  assert (Inv : forall gl, (gl = true -> (cw < 180)%Q) -> forall g f, rep KI g (fun i => 0 <= i < R * C) f ->
     exact_for (live_of cs) (icase gl (bx_of cs)) f -> mesh_inv (mkMesh cs g gl)).
  { intros gl Hgl g f Rg Ex. split; [|split]; unfold live_cell; cbn [cells glob ng].
    - intros i c Hi. apply cs_nth_inv in Hi as [L ->]. split; [reflexivity|].
      pose proof n_RC. destruct (div_bounds R C Cpos (Z.of_nat i) ltac:(lia)) as (Hr & Hc & _).
      eapply grid_cell_ok; eauto. apply grid_at; auto.
    - intros i j c c' Hi Hj N. apply cs_nth_inv in Hi as [Li ->]. apply cs_nth_inv in Hj as [Lj ->].
      pose proof n_RC. destruct (div_bounds R C Cpos (Z.of_nat i) ltac:(lia)) as (Hr & Hc & Ei).
      destruct (div_bounds R C Cpos (Z.of_nat j) ltac:(lia)) as (Hr' & Hc' & Ej).
      eapply grid_sep; [exact Hc|exact Hc'|apply grid_at; auto|apply grid_at; auto|].
      intros E. injection E as E1 E2. apply N. rewrite E1, E2 in Ei. lia.
    - exists f. split; auto. eapply rep_ext; [exact LiveIff| |exact Rg]; auto. }
  unfold check_global_mesh. fold is_global.
  destruct is_global eqn:EG.
  - pose proof (proj1 is_global_spec EG) as SG. specialize (HG SG).
    destruct (Z.eqb_spec C 0); [lia|].
    assert (W : (long_max b - long_min b == 360)%Q) by (destruct SG; lra).
    assert (Hw : (cw < 180)%Q).
    { assert (3 <= inject_Z C)%Q by (change 3%Q with (inject_Z 3); rewrite <- Zle_Qle; auto).
      assert (3 * cw <= inject_Z C * cw)%Q by (apply Qmult_le_compat_r; lra). lra. }
    rewrite En, !slice_rows by lia.
    rewrite (map_ext (fun r => Z.of_nat r * C + 0) (fun r => Z.of_nat r * C)) by (intros; lia).
    destruct (connect_rows_ok R C Cpos ltac:(lia) _ RG) as (g' & Eg & Rg').
    rewrite En in Eg. rewrite Eg. cbn [bind fst snd].
    exists (mkMesh cs g' true). rewrite <- En. split; [reflexivity|]. split; [|auto].
    eapply Inv; eauto. apply grid_exact_global; auto.
  - cbn [bind fst snd]. exists (mkMesh cs (initialise_neighbour_graph n (get_width b / cw)) false).
    split; [reflexivity|]. split; [|auto]. eapply Inv; eauto; [discriminate|]. apply grid_exact_regional.
Qed.

(** ** Tiling *)
Lemma column_of (x lo s : Q) (k : Z) : (0 < s)%Q -> (lo < x)%Q -> (x <= lo + inject_Z k * s)%Q ->
  exists c, 0 <= c < k /\ (lo + inject_Z c * s < x)%Q /\ (x <= lo + inject_Z c * s + s)%Q.
Proof.
  intros Hs Hlo Hhi. set (q := ((x - lo) / s)%Q).
  assert (Q0 : (x - lo == q * s)%Q) by (unfold q; field; lra).
  assert (Qp : (0 < q)%Q) by (unfold q; apply Qlt_shift_div_l; lra).
  assert (Qk : (q <= inject_Z k)%Q) by (unfold q; apply Qle_shift_div_r; lra).
  exists (Qceiling q - 1).
  pose proof (Qle_ceiling q) as U. pose proof (Qceiling_lt q) as L.
  assert (E : (inject_Z (Qceiling q - 1) == inject_Z (Qceiling q) - 1)%Q).
  { unfold Z.sub. rewrite inject_Z_plus. change (inject_Z (-(1))) with (-(1))%Q. lra. }
  split; [split|split].
  - assert (inject_Z 0 < inject_Z (Qceiling q))%Q by (change (inject_Z 0) with 0%Q; lra). rewrite <- Zlt_Qlt in H. lia.
  - assert (inject_Z (Qceiling q - 1) < inject_Z k)%Q by lra. rewrite <- Zlt_Qlt in H. auto.
  - assert (inject_Z (Qceiling q - 1) * s < q * s)%Q by (apply Qmult_lt_r; auto). lra.
  - assert (q * s <= inject_Z (Qceiling q) * s)%Q by (apply Qmult_le_compat_r; lra).
    assert (inject_Z (Qceiling q - 1) * s == inject_Z (Qceiling q) * s - s)%Q by (rewrite E; lra). lra.
Qed.

Lemma region_x1 : (x1 (region b) == long_max b)%Q.
Proof. pose proof Hb as ((B1 & _) & _). unfold region. cbn. qsplit. lra. Qed.

Lemma grid_tiles m : cells m = cs -> mesh_inv m -> mesh_tiles (region b) m.
Proof.
  intros Ecs (I1 & I2 & _). split; [|split].
  - intros x y ((X1 & X2) & (Y1 & Y2)). rewrite region_x1 in X2. cbn [region x0 y0 y1] in X1, Y1, Y2.
    destruct (column_of x (long_min b) cw C) as (c & Hc & C1 & C2); auto; [lra|].
    destruct (column_of y (lat_min b) ch R) as (r & Hr & R1 & R2); auto; [lra|].
    set (k := r * C + c). assert (Hk : 0 <= k < R * C) by (unfold k; nia).
    assert (Ek : k / C = r /\ k mod C = c).
    { unfold k. split; symmetry; [apply (Z.div_unique_pos _ _ _ c) | apply (Z.mod_unique_pos _ _ r)]; lia. }
    assert (Lk : (Z.to_nat k < n)%nat) by (pose proof n_RC; lia).
    exists (Z.to_nat k), (grid_cellbox (Z.to_nat k)). unfold live_cell. rewrite Ecs. split; [apply cs_nth; auto|].
    pose proof (grid_at _ Lk) as G. rewrite Z2Nat.id in G by lia. destruct Ek as [E1 E2]. rewrite E1, E2 in G.
    destruct (grid_region b cw ch C Hcw Hch r c _ Hc G) as (A1 & A2 & A3 & A4).
    unfold mem. rewrite A1, A2, A3, A4. auto.
  - intros i c x y Hi Hm. unfold live_cell in Hi. rewrite Ecs in Hi. apply cs_nth_inv in Hi as [L ->].
    pose proof n_RC. destruct (div_bounds R C Cpos (Z.of_nat i) ltac:(lia)) as (Hr & Hc & Ei).
    destruct (grid_region b cw ch C Hcw Hch _ _ _ Hc (grid_at _ L)) as (A1 & A2 & A3 & A4).
    unfold mem in *. rewrite A1, A2, A3, A4 in Hm. rewrite region_x1. cbn [region x0 y0 y1].
    pose proof (col_bound b cw C Hcw HC _ Hc). pose proof (inject_mul_nonneg (Z.of_nat i mod C) cw ltac:(lia) Hcw).
    pose proof (inject_mul_nonneg (Z.of_nat i / C) ch ltac:(lia) Hch).
    assert (lat_min b + inject_Z (Z.of_nat i / C) * ch + ch <= lat_max b)%Q.
    { assert (inject_Z (Z.of_nat i / C + 1) * ch <= inject_Z R * ch)%Q.
      { apply Qmult_le_compat_r; [|lra]. rewrite <- Zle_Qle. lia. }
      pose proof (inject_succ (Z.of_nat i / C) ch). lra. }
    lra.
  - intros i j c c' x y Hi Hj Mi Mj. destruct (Nat.eq_dec i j) as [|N]; auto. exfalso.
    specialize (I2 _ _ _ _ Hi Hj N). unfold mem, sep in *. lra.
Qed.

Lemma region_area : (area (region b) == inject_Z R * inject_Z C * (cw * ch))%Q.
Proof.
  unfold area. rewrite region_x1. cbn [region x0 y0 y1]. rewrite HC, HR. ring.
Qed.

Lemma grid_area m : cells m = cs -> (live_area m == area (region b))%Q.
Proof.
  intros Ecs. rewrite region_area. unfold live_area. rewrite Ecs. unfold cs. rewrite map_map.
  assert (X : forall l, (forall k, In k l -> (k < n)%nat) ->
    (fold_right (fun o acc => match o with Some c => area (region (cb_bounds c)) + acc | None => acc end)
      0 (map (fun k => Some (grid_cellbox k)) l) == inject_Z (Z.of_nat (List.length l)) * (cw * ch))%Q).
  { induction l as [|k l IH]; intros H; cbn [map fold_right List.length]; [change (inject_Z (Z.of_nat 0)) with 0%Q; lra|].
    rewrite IH by (intros; apply H; right; auto).
    pose proof (H k (or_introl eq_refl)) as Lk. pose proof n_RC.
    destruct (div_bounds R C Cpos (Z.of_nat k) ltac:(lia)) as (Hr & Hc & Ei).
    destruct (grid_region b cw ch C Hcw Hch _ _ _ Hc (grid_at _ Lk)) as (A1 & A2 & A3 & A4).
    unfold area. rewrite A1, A2, A3, A4. rewrite Nat2Z.inj_succ. unfold Z.succ. rewrite inject_Z_plus.
    change (inject_Z 1) with 1%Q. ring. }
  rewrite X by (intros k Hk; apply in_seq in Hk; lia). rewrite seq_length, n_RC, inject_Z_mult. reflexivity.
Qed.
End B.
