(** The statements of PropsMesh.v, assembled from the lemmas. *)
From Verif Require Import Base Geo Graph Cell Builder Spec MeshSpec QLib CaseProofs SplitGeo Dict Rep SplitCore Invariant Grid Build Consequences Reach.
Open Scope Z_scope.

Lemma globe_cell_ok a : globe_cell a -> cell_ok true a.
Proof. intros (H1 & H2 & H3 & H4 & H5). repeat split; auto. Qed.

Lemma zero_case (x : Z) (P : compass -> Prop) :
  (x = 0 \/ exists d, x = code d) -> (forall d, x = code d <-> P d) -> (x = 0 <-> forall d, ~ P d).
Proof.
  intros Hr H. split.
  - intros -> d Hd. apply H in Hd. symmetry in Hd. exact (code_nonzero d Hd).
  - intros N. destruct Hr as [|(d & E)]; auto. exfalso. apply (N d). apply H. auto.
Qed.

Theorem case_is_contact : forall a b : boundary,
  (long_min a < long_max a /\ lat_min a < lat_max a)%Q ->
  (long_min b < long_max b /\ lat_min b < lat_max b)%Q ->
  get_neighbour_case false a b = get_neighbour_case_bounds a b /\
  (forall d, get_neighbour_case_bounds a b = code d <-> touches d (region a) (region b)) /\
  (get_neighbour_case_bounds a b = 0 <-> forall d, ~ touches d (region a) (region b)).
Proof.
  intros a b Ha Hb. split; auto.
  assert (X : forall d, get_neighbour_case_bounds a b = code d <-> touches d (region a) (region b)).
  { intros d. rewrite touches_lin by (apply regular_proper; auto). apply case_bounds_lin; auto. }
  split; auto. apply zero_case; auto. exact (case_range false a b).
Qed.

Lemma case_anti (x y : Z) : (x = 0 \/ exists d, x = code d) -> (y = 0 \/ exists d, y = code d) ->
  (forall d, x = code d <-> y = code (opposite d)) -> y = - x.
Proof.
  intros [->|(d & ->)] [->|(e & ->)] H; auto.
  - exfalso. destruct (H (opposite e)) as [_ H']. rewrite opposite_involutive in H'. specialize (H' eq_refl).
    symmetry in H'. exact (code_nonzero _ H').
  - exfalso. destruct (H d) as [H' _]. specialize (H' eq_refl). symmetry in H'. exact (code_nonzero _ H').
  - destruct (H d) as [H' _]. rewrite (H' eq_refl). apply code_opposite.
Qed.

Lemma contact_anti gl a b : cell_ok gl a -> cell_ok gl b -> get_neighbour_case gl b a = - get_neighbour_case gl a b.
Proof.
  intros Ha Hb. apply case_anti; [apply case_range|apply case_range|].
  intros d. rewrite !case_contact by auto. split; intros H.
  - apply contact_sym; auto.
  - rewrite <- (opposite_involutive d). apply contact_sym; auto.
Qed.

Lemma flat_anti a b : regular a -> regular b -> get_neighbour_case false b a = - get_neighbour_case false a b.
Proof.
  intros Ha Hb. apply case_anti; [apply case_range|apply case_range|].
  intros d. unfold get_neighbour_case. cbn [andb]. rewrite !case_bounds_lin by auto. split; intros H.
  - apply lin_sym in H; auto.
  - rewrite <- (opposite_involutive d). apply lin_sym; auto.
Qed.

Theorem case_antisymmetric : forall a b : boundary,
  (long_min a < long_max a /\ lat_min a < lat_max a)%Q ->
  (long_min b < long_max b /\ lat_min b < lat_max b)%Q ->
  get_neighbour_case false b a = - get_neighbour_case false a b /\
  (forall d d', touches d (region a) (region b) -> touches d' (region a) (region b) -> d = d').
Proof.
  intros a b Ha Hb. split; [apply flat_anti; auto|].
  destruct (case_is_contact a b Ha Hb) as (_ & X & _). intros d d' H H'.
  apply X in H, H'. apply code_inj. congruence.
Qed.

Theorem global_case_is_contact : forall a b : boundary,
  globe_cell a -> globe_cell b ->
  (forall d, get_neighbour_case true a b = code d <-> touches_mod d (region a) (region b)) /\
  (get_neighbour_case true a b = 0 <-> forall d, ~ touches_mod d (region a) (region b)).
Proof.
  intros a b Ha Hb. pose proof (globe_cell_ok a Ha) as Ka. pose proof (globe_cell_ok b Hb) as Kb.
  assert (X : forall d, get_neighbour_case true a b = code d <-> touches_mod d (region a) (region b)).
  { intros d. rewrite case_contact by auto. symmetry.
    apply (adjacency_contact true); apply regular_proper; [apply Ka | apply Kb]. }
  split; auto. apply zero_case; auto. apply case_range.
Qed.

Theorem global_case_antisymmetric : forall a b : boundary,
  globe_cell a -> globe_cell b ->
  get_neighbour_case true b a = - get_neighbour_case true a b /\
  (forall d d', touches_mod d (region a) (region b) -> touches_mod d' (region a) (region b) -> d = d').
Proof.
  intros a b Ha Hb. split; [apply contact_anti; apply globe_cell_ok; auto|].
  destruct (global_case_is_contact a b Ha Hb) as (X & _). intros d d' H H'.
  apply X in H, H'. apply code_inj. congruence.
Qed.

Theorem two_columns_not_antisymmetric : exists a b : boundary,
  (long_min a == -180 /\ long_max a == 0 /\ long_min b == 0 /\ long_max b == 180)%Q /\
  get_neighbour_case true b a <> - get_neighbour_case true a b.
Proof.
  exists (mkB 0 1 (-180) 0 []), (mkB 0 1 0 180 []). split; [repeat split; reflexivity|]. vm_compute. discriminate.
Qed.

Theorem initial_cells : forall b cw ch srcs m,
  admissible b cw ch -> build_mesh b cw ch srcs = Ok m ->
  mesh_tiles (region b) m /\
  exists R C : nat,
    (inject_Z (Z.of_nat C) * cw == long_max b - long_min b)%Q /\
    (inject_Z (Z.of_nat R) * ch == lat_max b - lat_min b)%Q /\
    List.length (cells m) = (R * C)%nat /\
    (forall r c, (r < R)%nat -> (c < C)%nat -> exists x, live_cell m (r * C + c) x /\
       cb_id x = Z.of_nat (r * C + c) /\ cb_depth x = 0 /\ cb_parent x = None /\
       time_range (cb_bounds x) = time_range b /\
       cb_sources x = map (fun s => mkMeta (m_loader s) (m_conds s) (m_fill s)
                                    (l_trim (m_loader s) (cb_bounds x) (m_subset s))) srcs /\
       (let g := region (cb_bounds x) in
        x0 g == long_min b + inject_Z (Z.of_nat c) * cw /\ x1 g == x0 g + cw /\
        y0 g == lat_min b + inject_Z (Z.of_nat r) * ch /\ y1 g == y0 g + ch)%Q).
Proof.
  intros b cw ch srcs m A E. split.
  - apply (reachable_tiles b cw ch srcs m A). exists m. split; [auto|constructor].
  - apply (build_grid b cw ch srcs m A E).
Qed.

Lemma built_reachable b cw ch srcs m : build_mesh b cw ch srcs = Ok m -> reachable b cw ch srcs m.
Proof. intros E. exists m. split; [auto|constructor]. Qed.

Theorem initial_graph_exact : forall b cw ch srcs m,
  admissible b cw ch -> ~ spans_globe b -> build_mesh b cw ch srcs = Ok m -> graph_exact touches m.
Proof. intros b cw ch srcs m A N E. eapply reachable_exact_regional; eauto. apply built_reachable. eauto. Qed.
Theorem initial_global_graph_exact : forall b cw ch srcs m,
  admissible b cw ch -> spans_globe b -> build_mesh b cw ch srcs = Ok m -> graph_exact touches_mod m.
Proof. intros b cw ch srcs m A N E. eapply reachable_exact_global; eauto. apply built_reachable. eauto. Qed.

Theorem split_never_raises : forall b cw ch srcs m i c,
  admissible b cw ch -> reachable b cw ch srcs m -> live_cell m i c ->
  exists m', split_and_replace m i = Ok m'.
Proof.
  intros b cw ch srcs m i c A H Li. destruct (reachable_inv _ _ _ _ _ A H) as (I & _).
  destruct (split_and_replace_ok m i c I Li) as (m' & _ & E & _). eauto.
Qed.

Theorem no_dangling : forall b cw ch srcs m,
  admissible b cw ch -> reachable b cw ch srcs m ->
  ids_are_positions m /\
  (forall k, In k (dkeys (ng m)) <-> exists i c, live_cell m i c /\ k = KI (cb_id c)) /\
  (forall i c d l, live_cell m i c -> get_neighbours (ng m) (KI (cb_id c)) (KI (code d)) = Ok l ->
     ~ In (cb_id c) l /\ forall z, In z l -> exists j c', live_cell m j c' /\ cb_id c' = z).
Proof.
  intros b cw ch srcs m A H. destruct (reachable_inv _ _ _ _ _ A H) as (I & _).
  pose proof (inv_ids m I) as P. destruct (inv_graph_exact m I) as (G1 & G2 & G3).
  split; auto. split.
  - intros k. rewrite G2. split.
    + intros (i & c & -> & L). exists i, c. rewrite (P i c L). auto.
    + intros (i & c & L & ->). exists i, c. rewrite (P i c L). auto.
  - intros i c d l L El. rewrite (P i c L) in El |- *. split; [eapply exact_no_self; eauto|].
    intros z Hz. destruct (G3 i c d L) as (l' & El' & _ & X). rewrite El in El'. injection El' as <-.
    apply X in Hz as (j & c' & -> & Lj & _). exists j, c'. split; auto.
Qed.

Theorem ids_never_reused : forall b cw ch srcs m m',
  admissible b cw ch -> reachable b cw ch srcs m -> splits m m' ->
  (List.length (cells m) <= List.length (cells m'))%nat /\
  forall j, (j < List.length (cells m))%nat ->
    nth_error (cells m') j = nth_error (cells m) j \/ nth_error (cells m') j = Some None.
Proof.
  intros b cw ch srcs m m' A H S. destruct (reachable_inv _ _ _ _ _ A H) as (I & _).
  apply splits_positions; auto.
Qed.

Theorem split_quarters : forall b cw ch srcs m i m',
  admissible b cw ch -> reachable b cw ch srcs m -> split_and_replace m i = Ok m' ->
  exists c nw ne sw se,
    live_cell m i c /\
    cells m' = list_set (cells m ++ [Some nw; Some ne; Some sw; Some se]) i None /\
    quarter qNW (region (cb_bounds c)) (region (cb_bounds nw)) /\
    quarter qNE (region (cb_bounds c)) (region (cb_bounds ne)) /\
    quarter qSW (region (cb_bounds c)) (region (cb_bounds sw)) /\
    quarter qSE (region (cb_bounds c)) (region (cb_bounds se)) /\
    (forall k, In k [nw; ne; sw; se] ->
       cb_depth k = cb_depth c + 1 /\ cb_parent k = Some c /\
       time_range (cb_bounds k) = time_range (cb_bounds c)) /\
    (forall x y, mem (region (cb_bounds c)) x y <->
       mem (region (cb_bounds nw)) x y \/ mem (region (cb_bounds ne)) x y \/
       mem (region (cb_bounds sw)) x y \/ mem (region (cb_bounds se)) x y).
Proof.
  intros b cw ch srcs m i m' A H E. destruct (reachable_inv _ _ _ _ _ A H) as (I & _).
  destruct (split_step _ _ _ I E) as (c & kidc & Li & I' & (Ec & Eg & Hk) & _).
  exists c, (kidc qNW), (kidc qNE), (kidc qSW), (kidc qSE).
  pose proof (live_region _ I _ _ Li) as P.
  assert (Q : forall q, quarter q (region (cb_bounds c)) (region (cb_bounds (kidc q)))) by (intros q; apply Hk).
  split; [auto|]. split; [exact Ec|]. do 4 (split; [apply Q|]). split.
  - intros k Hin. assert (X : exists q, k = kidc q).
    { cbn in Hin. destruct Hin as [<-|[<-|[<-|[<-|[]]]]]; eauto. }
    destruct X as (q & ->). destruct (Hk q) as (K1 & K2 & K3 & K4 & K5 & _). auto.
  - intros x y. split.
    + intros M. destruct (quarter_cover (fun q => region (cb_bounds (kidc q))) _ x y P Q M) as (q & Mq). destruct q; tauto.
    + intros [M|[M|[M|M]]]; (eapply quarter_mem; [exact P| |exact M]); apply Q.
Qed.

Theorem neighbours_symmetric : forall b cw ch srcs m,
  admissible b cw ch -> reachable b cw ch srcs m ->
  forall i j c c' d, live_cell m i c -> live_cell m j c' ->
  exists l l', get_neighbours (ng m) (KI (Z.of_nat i)) (KI (code d)) = Ok l /\
    get_neighbours (ng m) (KI (Z.of_nat j)) (KI (code (opposite d))) = Ok l' /\
    (In (Z.of_nat j) l <-> In (Z.of_nat i) l').
Proof.
  intros b cw ch srcs m A H. destruct (reachable_inv _ _ _ _ _ A H) as (I & _).
  apply (exact_symmetric (adjacency (glob m))); [apply inv_graph_exact; auto|].
  intros i j c c' d Li Lj. apply adjacency_sym; eapply live_region; eauto.
Qed.

Theorem split_is_local : forall b cw ch srcs m i m',
  admissible b cw ch -> reachable b cw ch srcs m -> split_and_replace m i = Ok m' ->
  exists c, live_cell m i c /\
  forall j cj, live_cell m j cj -> j <> i ->
    live_cell m' j cj /\
    ((forall d, ~ touches d (region (cb_bounds c)) (region (cb_bounds cj))) ->
     (spans_globe b -> forall d, ~ touches_mod d (region (cb_bounds c)) (region (cb_bounds cj))) ->
     forall d, get_neighbours (ng m') (KI (Z.of_nat j)) (KI (code d)) =
               get_neighbours (ng m) (KI (Z.of_nat j)) (KI (code d))).
Proof.
  intros b cw ch srcs m i m' A H E. destruct (reachable_inv _ _ _ _ _ A H) as (I & G).
  destruct (split_local _ _ _ I E) as (c & Li & X). exists c. split; auto.
  intros j cj Lj N. destruct (X j cj Lj N) as [X1 X2]. split; auto.
  intros T1 T2. apply X2. unfold adjacency. destruct (glob m); [apply T2; tauto | exact T1].
Qed.
