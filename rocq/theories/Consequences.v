(** Consequences of the mesh invariant: exact graph, symmetry, tiling, area,
    histories of splits. *)
From Verif Require Import Base Geo Graph Cell Builder Spec MeshSpec QLib CaseProofs SplitGeo Dict Rep SplitCore Stage BuilderSplit Invariant.
Open Scope Z_scope.

(** The contact relation of a mesh: in the plane, or on the cylinder. *)
Definition adjacency (gl : bool) : compass -> box -> box -> Prop :=
  if gl then touches_mod else touches.

Lemma adjacency_contact gl d a b : proper a -> proper b -> (adjacency gl d a b <-> contact gl d a b).
Proof.
  intros Pa Pb. destruct gl; cbn.
  - unfold touches_mod, lin_mod. split; intros (k & H); exists k.
    + apply touches_lin in H; auto. destruct Pb; split; cbn; lra.
    + apply touches_lin; auto. destruct Pb; split; cbn; lra.
  - apply touches_lin; auto.
Qed.

Section Inv.
Variable m : mesh.
Hypothesis Inv : mesh_inv m.

Lemma live_region i c : live_cell m i c -> proper (region (cb_bounds c)).
Proof.
  intros H. destruct Inv as (I1 & _). destruct (I1 _ _ H) as (_ & (Rg & _) & _). apply regular_proper; auto.
Qed.

Lemma live_of_cell i c : live_cell m i c -> live_of (cells m) (Z.of_nat i).
Proof. intros H. split; [lia|]. rewrite Nat2Z.id. eauto. Qed.
Lemma bx_of_cell i c : live_cell m i c -> bx_of (cells m) (Z.of_nat i) = cb_bounds c.
Proof. intros H. unfold bx_of. rewrite Nat2Z.id, H. auto. Qed.
Lemma live_of_inv z : live_of (cells m) z -> exists i c, z = Z.of_nat i /\ live_cell m i c.
Proof. intros (H & c & E). exists (Z.to_nat z), c. split; [lia|auto]. Qed.

Lemma live_case i j c c' d : live_cell m i c -> live_cell m j c' ->
  (get_neighbour_case (glob m) (cb_bounds c) (cb_bounds c') = code d <->
   adjacency (glob m) d (region (cb_bounds c)) (region (cb_bounds c'))).
Proof.
  intros Hi Hj. rewrite adjacency_contact by (eapply live_region; eauto).
  destruct Inv as (I1 & _). apply case_contact; [apply (I1 _ _ Hi) | apply (I1 _ _ Hj)].
Qed.

Theorem inv_graph_exact : graph_exact (adjacency (glob m)) m.
Proof.
  pose proof Inv as (I1 & I2 & f & R & E). destruct R as (R1 & R2 & R3). split; [|split]; auto.
  - intros k. rewrite R2. split.
    + intros (z & -> & L). apply live_of_inv in L as (i & c & -> & L). eauto.
    + intros (i & c & -> & L). exists (Z.of_nat i). split; auto. eapply live_of_cell; eauto.
  - intros i c d Hi. pose proof (live_of_cell i c Hi) as Li.
    assert (Hd : In (code d) dirs) by (apply In_dirs_code; eauto).
    exists (f (Z.of_nat i) (code d)).
    split; [apply (rep_get KI _ (live_of (cells m))); auto; split; auto|].
    destruct (E _ _ Li Hd) as [N X]. split; auto.
    intros z. rewrite X. split.
    + intros [Lz Ez]. apply live_of_inv in Lz as (j & c' & -> & Lj). exists j, c'. split; auto. split; auto.
      unfold icase in Ez. rewrite (bx_of_cell i c), (bx_of_cell j c') in Ez by auto. eapply live_case; eauto.
    + intros (j & c' & -> & Lj & T). split; [eapply live_of_cell; eauto|].
      unfold icase. rewrite (bx_of_cell i c), (bx_of_cell j c') by auto. eapply live_case; eauto.
Qed.

Theorem inv_ids : ids_are_positions m.
Proof. intros i c H. destruct Inv as (I1 & _). apply (I1 _ _ H). Qed.
End Inv.

Lemma adjacency_sym gl d a b : proper a -> proper b -> adjacency gl d a b -> adjacency gl (opposite d) b a.
Proof.
  intros Pa Pb H. apply adjacency_contact; auto. apply contact_sym. apply adjacency_contact; auto.
Qed.

(** ** Symmetry of an exact graph *)
Lemma exact_symmetric R m : graph_exact R m ->
  (forall i j c c' d, live_cell m i c -> live_cell m j c' ->
     R d (region (cb_bounds c)) (region (cb_bounds c')) -> R (opposite d) (region (cb_bounds c')) (region (cb_bounds c))) ->
  forall i j c c' d, live_cell m i c -> live_cell m j c' ->
  exists l l', get_neighbours (ng m) (KI (Z.of_nat i)) (KI (code d)) = Ok l /\
    get_neighbours (ng m) (KI (Z.of_nat j)) (KI (code (opposite d))) = Ok l' /\
    (In (Z.of_nat j) l <-> In (Z.of_nat i) l').
Proof.
  intros (G1 & G2 & G3) Sy i j c c' d Hi Hj.
  destruct (G3 i c d Hi) as (l & El & _ & X). destruct (G3 j c' (opposite d) Hj) as (l' & El' & _ & X').
  exists l, l'. split; auto. split; auto. rewrite X, X'.
  assert (U : forall k c1 c2, live_cell m k c1 -> live_cell m k c2 -> c1 = c2) by (unfold live_cell; congruence).
  split.
  - intros (j' & c1 & Ej & Lj & T). apply Nat2Z.inj in Ej. subst j'.
    rewrite (U _ _ _ Lj Hj) in T. exists i, c. split; auto. split; auto. eapply Sy; [exact Hi|exact Hj|exact T].
  - intros (i' & c1 & Ei & Li & T). apply Nat2Z.inj in Ei. subst i'.
    rewrite (U _ _ _ Li Hi) in T. exists j, c'. split; auto. split; auto.
    rewrite <- (opposite_involutive d). eapply Sy; [exact Hj|exact Hi|exact T].
Qed.

(** ** One split: cells *)
(** Everything a successful split does to the list of cells. *)
Lemma split_live m i m' : mesh_inv m -> split_and_replace m i = Ok m' -> exists c, live_cell m i c.
Proof.
  intros _ H. unfold split_and_replace in H.
  destruct (py_nth (cells m) (Z.of_nat i)) as [o|e] eqn:E; [|discriminate]. cbn [bind] in H.
  destruct o as [c|]; [|discriminate]. exists c. unfold live_cell.
  apply py_nth_ok in E; [|lia]. rewrite Nat2Z.id in E. auto.
Qed.

Lemma split_step m i m' : mesh_inv m -> split_and_replace m i = Ok m' ->
  exists c kidc, live_cell m i c /\ mesh_inv m' /\ split_result m i c m' kidc /\
  (forall j cj d, live_cell m j cj -> j <> i ->
     get_neighbour_case (glob m) (cb_bounds c) (cb_bounds cj) = 0 -> In d dirs ->
     get_neighbours (ng m') (KI (Z.of_nat j)) (KI d) = get_neighbours (ng m) (KI (Z.of_nat j)) (KI d)).
Proof.
  intros Inv H. destruct (split_live _ _ _ Inv H) as (c & Li).
  destruct (split_and_replace_ok m i c Inv Li) as (m1 & kidc & E & I' & S' & Lo).
  rewrite H in E. injection E as <-. exists c, kidc. auto.
Qed.

Theorem splits_inv m m' : mesh_inv m -> splits m m' -> mesh_inv m'.
Proof.
  intros H S. induction S as [|m m1 m2 i S IH E]; auto.
  destruct (split_step _ _ _ (IH H) E) as (c & kidc & _ & I' & _). auto.
Qed.
Lemma splits_glob m m' : mesh_inv m -> splits m m' -> glob m' = glob m.
Proof.
  intros H S. induction S as [|m m1 m2 i S IH E]; auto.
  destruct (split_step _ _ _ (splits_inv _ _ H S) E) as (c & kidc & _ & _ & (_ & G & _) & _). rewrite G. auto.
Qed.

Lemma after_split m i c m' kidc : mesh_inv m -> live_cell m i c -> split_result m i c m' kidc ->
  forall j x, live_cell m' j x <->
    (live_cell m j x /\ j <> i) \/ exists q, j = (List.length (cells m) + qpos q)%nat /\ x = kidc q.
Proof.
  intros Inv Li (Ec & Eg & Hk) j x. unfold live_cell at 1. rewrite Ec.
  apply (live_after m i c); auto.
Qed.

(** ** Tiling *)
Lemma quarter_mem q c k x y : proper c -> quarter q c k -> mem k x y -> mem c x y.
Proof. unfold proper, mem. destruct q; unfold quarter, xmid, ymid; intros; lra. Qed.
Lemma quarter_cover (kid : quad -> box) c x y : proper c -> (forall q, quarter q c (kid q)) -> mem c x y ->
  exists q, mem (kid q) x y.
Proof.
  intros P H M. unfold proper, mem in *.
  pose proof (H qNW) as A. pose proof (H qNE) as B. pose proof (H qSW) as D. pose proof (H qSE) as E.
  unfold quarter, xmid, ymid in *.
  destruct (Qlt_le_dec ((x0 c + x1 c) * (1#2)) x), (Qlt_le_dec ((y0 c + y1 c) * (1#2)) y);
  [exists qNE | exists qSE | exists qNW | exists qSW]; lra.
Qed.

Lemma split_tiles whole m i m' : mesh_inv m -> split_and_replace m i = Ok m' -> mesh_tiles whole m -> mesh_tiles whole m'.
Proof.
  intros Inv E (T1 & T2 & T3).
  destruct (split_step _ _ _ Inv E) as (c & kidc & Li & I' & SR & _).
  pose proof (after_split _ _ _ _ _ Inv Li SR) as A. destruct SR as (_ & _ & Hk).
  pose proof (live_region _ Inv _ _ Li) as P.
  split; [|split].
  - intros x y M. destruct (T1 x y M) as (j & cj & Lj & Mj).
    destruct (Nat.eq_dec j i) as [->|N].
    + assert (cj = c) by (unfold live_cell in *; congruence). subst cj.
      destruct (quarter_cover (fun q => region (cb_bounds (kidc q))) (region (cb_bounds c)) x y P) as (q & Mq); auto.
      { intros q. apply Hk. }
      exists (List.length (cells m) + qpos q)%nat, (kidc q). split; auto. apply A. right. eauto.
    + exists j, cj. split; auto. apply A. left. auto.
  - intros j cj x y Lj Mj. apply A in Lj as [[Lj N]|(q & -> & ->)].
    + eapply T2; eauto.
    + eapply T2; [exact Li|]. eapply quarter_mem; [exact P| |exact Mj]. apply Hk.
  - intros j k cj ck x y Lj Lk Mj Mk. destruct (Nat.eq_dec j k) as [|N]; auto. exfalso.
    destruct I' as (_ & I2 & _). specialize (I2 _ _ _ _ Lj Lk N). unfold sep, mem in *. lra.
Qed.

Theorem splits_tiles whole m m' : mesh_inv m -> splits m m' -> mesh_tiles whole m -> mesh_tiles whole m'.
Proof.
  intros H S T. induction S as [|m m1 m2 i S IH E]; auto.
  eapply split_tiles; [|exact E|]; auto. eapply splits_inv; eauto.
Qed.

(** ** Area *)
Definition oarea (o : option cellbox) : Q := match o with Some c => area (region (cb_bounds c)) | None => 0%Q end.
Definition sum_area (l : list (option cellbox)) : Q :=
  fold_right (fun o acc => match o with Some c => area (region (cb_bounds c)) + acc | None => acc end)%Q 0%Q l.
Lemma sum_area_app l l' : (sum_area (l ++ l') == sum_area l + sum_area l')%Q.
Proof.
  induction l as [|o l IH]; [change (sum_area l' == 0 + sum_area l')%Q; lra|].
  destruct o as [c|]; cbn; fold (sum_area (l ++ l')) (sum_area l); rewrite IH; lra.
Qed.
Lemma sum_area_set l i c : nth_error l i = Some (Some c) ->
  (sum_area (list_set l i None) == sum_area l - area (region (cb_bounds c)))%Q.
Proof.
  revert i. induction l as [|o l IH]; intros [|i] H; try discriminate; cbn in H.
  - injection H as ->. cbn. fold (sum_area l). lra.
  - destruct o as [c'|]; cbn; fold (sum_area (list_set l i None)) (sum_area l); rewrite (IH _ H); lra.
Qed.
Lemma quarter_area q c k : quarter q c k -> (area k == area c * (1#4))%Q.
Proof.
  unfold area. intros H.
  assert ((x1 k - x0 k == (x1 c - x0 c) * (1#2)) /\ (y1 k - y0 k == (y1 c - y0 c) * (1#2)))%Q as [A B].
  { destruct q; unfold quarter, xmid, ymid in H; lra. }
  rewrite A, B. ring.
Qed.

Lemma split_area m i m' : mesh_inv m -> split_and_replace m i = Ok m' -> (live_area m' == live_area m)%Q.
Proof.
  intros Inv E. destruct (split_step _ _ _ Inv E) as (c & kidc & Li & I' & (Ec & _ & Hk) & _).
  unfold live_area. rewrite Ec. fold (sum_area (list_set (cells m ++ map Some (map kidc quads)) i None)) (sum_area (cells m)).
  assert (Hi : (i < List.length (cells m))%nat) by (apply nth_error_Some; unfold live_cell in Li; congruence).
  rewrite (sum_area_set _ _ c) by (rewrite nth_error_app1; auto).
  rewrite sum_area_app.
  assert (Q4 : forall q, (area (region (cb_bounds (kidc q))) == area (region (cb_bounds c)) * (1#4))%Q).
  { intros q. apply (quarter_area q). apply Hk. }
  pose proof (Q4 qNW). pose proof (Q4 qNE). pose proof (Q4 qSW). pose proof (Q4 qSE).
  unfold sum_area at 2. cbn [map quads fold_right]. lra.
Qed.
Theorem splits_area m m' : mesh_inv m -> splits m m' -> (live_area m' == live_area m)%Q.
Proof.
  intros H S. induction S as [|m m1 m2 i S IH E]; [reflexivity|].
  rewrite (split_area m1 i m2); auto. eapply splits_inv; eauto.
Qed.

(** ** Positions are never reused *)
Lemma split_positions m i m' : mesh_inv m -> split_and_replace m i = Ok m' ->
  (List.length (cells m) <= List.length (cells m'))%nat /\
  forall j, (j < List.length (cells m))%nat -> j <> i -> nth_error (cells m') j = nth_error (cells m) j.
Proof.
  intros Inv E. destruct (split_step _ _ _ Inv E) as (c & kidc & Li & I' & (Ec & _ & Hk) & _).
  rewrite Ec, list_set_length, app_length. split; [lia|].
  intros j Hj N. rewrite list_set_nth. destruct (Nat.eqb_spec j i); [contradiction|]. cbn [andb].
  apply nth_error_app1; auto.
Qed.
Lemma split_dead m i m' : mesh_inv m -> split_and_replace m i = Ok m' -> nth_error (cells m') i = Some None.
Proof.
  intros Inv E. destruct (split_step _ _ _ Inv E) as (c & kidc & Li & I' & (Ec & _ & Hk) & _).
  rewrite Ec, list_set_nth, Nat.eqb_refl. unfold live_cell in Li.
  assert (Hi : (i < List.length (cells m))%nat) by (apply nth_error_Some; congruence).
  rewrite app_length. replace (Nat.ltb i _) with true by (symmetry; apply Nat.ltb_lt; lia). auto.
Qed.
(** A position is born live, may die once, and is never live with another cell. *)
Theorem splits_positions m m' : mesh_inv m -> splits m m' ->
  (List.length (cells m) <= List.length (cells m'))%nat /\
  forall j, (j < List.length (cells m))%nat ->
    nth_error (cells m') j = nth_error (cells m) j \/ nth_error (cells m') j = Some None.
Proof.
  intros H S. induction S as [m|m m1 m2 i S IH E]; [split; auto|].
  destruct (IH H) as [L P]. pose proof (splits_inv _ _ H S) as I1.
  destruct (split_positions _ _ _ I1 E) as [L' P']. pose proof (split_dead _ _ _ I1 E) as D.
  split; [lia|]. intros j Hj. destruct (Nat.eq_dec j i) as [->|N]; [auto|].
  rewrite P' by (auto; lia). auto.
Qed.
