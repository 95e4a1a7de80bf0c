(** Writing a mesh over a region that crosses the antimeridian, and reading it back. *)
From Verif Require Import Base Geo Graph Cell Loaders Builder Env Spec MeshSpec GlobeSpec CrossSpec EnvSpec DataSpec QLib CaseProofs SplitGeo Dict Rep SplitCore Stage BuilderSplit Invariant Grid Build Consequences Reach MeshFacts Adaptive ChainProofs AdaptiveFacts GlobeProofs EnvSplit EnvInv EnvJson EnvLink WktProofs Cross CrossInv CrossBuild CrossSound PipeSpec CrossPipeSpec CrossData.
Open Scope Z_scope.

(** ** The same place *)
Definition turned (r r' : box) : Prop :=
  (y0 r' == y0 r /\ y1 r' == y1 r /\ exists k : Z, x0 r' == x0 r + inject_Z k * 360 /\ x1 r' == x1 r + inject_Z k * 360)%Q.
Lemma turned_refl r : turned r r.
Proof. split; [reflexivity|]. split; [reflexivity|]. exists 0. change (inject_Z 0) with 0%Q. lra. Qed.
Lemma turned_sym r r' : turned r r' -> turned r' r.
Proof. intros (A & B & k & C & D). split; [lra|]. split; [lra|]. exists (- k). rewrite inject_Z_opp. lra. Qed.
Lemma turned_mem r r' x y : turned r r' -> mem_globe r x y -> mem_globe r' x y.
Proof.
  intros (A & B & k & C & D) (j & M1 & M2). exists (j + k). unfold mem. rewrite inject_Z_plus, A, B, C, D. split; lra.
Qed.
Lemma turned_touches d r r' s s' : turned r r' -> turned s s' -> touches_mod d r s -> touches_mod d r' s'.
Proof.
  intros (A & B & k & C & D) (A' & B' & k' & C' & D') (j & T). exists (j + k + - k').
  assert (E : (inject_Z (j + k + - k') == inject_Z j + inject_Z k - inject_Z k')%Q) by (rewrite !inject_Z_plus, inject_Z_opp; lra).
  assert (X0 : (x0 s' + inject_Z (j + k + - k') * 360 == x0 s + inject_Z j * 360 + inject_Z k * 360)%Q) by (rewrite E, C'; lra).
  assert (X1 : (x1 s' + inject_Z (j + k + - k') * 360 == x1 s + inject_Z j * 360 + inject_Z k * 360)%Q) by (rewrite E, D'; lra).
  assert (XO : x_overlap r (shift (inject_Z j * 360) s) -> x_overlap r' (shift (inject_Z (j + k + - k') * 360) s')).
  { intros (x & O). exists (x + inject_Z k * 360)%Q. cbn [shift x0 x1] in *. rewrite X0, X1, C, D. lra. }
  assert (YO : y_overlap r (shift (inject_Z j * 360) s) -> y_overlap r' (shift (inject_Z (j + k + - k') * 360) s')).
  { intros (y & O). exists y. cbn [shift y0 y1] in *. rewrite A, B, A', B'. lra. }
  clear E. destruct d; unfold touches in *; destruct T as [T1 T2]; (split; [|auto]); cbn [shift x0 x1 y0 y1] in *;
    rewrite ?X0, ?X1, ?A, ?B, ?C, ?D, ?A', ?B'; lra.
Qed.

(** ** A cell *)
Lemma load_same b : meaningful b -> exists b', load_bounds (to_polygon b) = Ok b' /\ time_range b' = [] /\ same_on_globe b b'.
Proof.
  intros (H & A & B & N). unfold in_domain in *.
  assert (RR : forall w s e n, (w <= e -> s <= n ->
     min_list (ring_xs (rect_ring w s e n)) == w /\ max_list (ring_xs (rect_ring w s e n)) == e /\
     min_list (ring_ys (rect_ring w s e n)) == s /\ max_list (ring_ys (rect_ring w s e n)) == n)%Q).
  { intros w s e n L1 L2. unfold ring_xs, ring_ys, rect_ring. cbn [map fst snd].
    destruct (min_rect_q w e L1), (max_rect_q w e L1), (min_rect_q s n L2), (max_rect_q s n L2). auto. }
  unfold to_polygon. destruct (qltb_spec (long_min b) (long_max b)) as [L|L];
    [|destruct (qeqb_spec (long_min b) 180) as [E|E]; [|destruct (qeqb_spec (long_max b) (-180)) as [E'|E']]];
    cbn [load_bounds].
  - destruct (RR (long_min b) (lat_min b) (long_max b) (lat_max b)) as (X & Y & Z & T); try lra.
    rewrite Boundary_makes' by lra. eexists. split; [reflexivity|]. split; [reflexivity|].
    unfold same_on_globe, region; cbn [x0 x1 y0 y1 lat_min lat_max long_min long_max]. split; [lra|]. split; [lra|].
    exists 0; change (inject_Z 0) with 0%Q. qsplit; lra.
  - destruct (RR (-180)%Q (lat_min b) (long_max b) (lat_max b)) as (X & Y & Z & T); try lra.
    rewrite Boundary_makes' by lra. eexists. split; [reflexivity|]. split; [reflexivity|].
    assert (L' : (-180 < long_max b)%Q). { apply Qnot_le_lt. intro Q. apply N. split; lra. }
    unfold same_on_globe, region; cbn [x0 x1 y0 y1 lat_min lat_max long_min long_max]. split; [lra|]. split; [lra|].
    exists (-1); change (inject_Z (-1)) with (-1)%Q. qsplit; lra.
  - destruct (RR (long_min b) (lat_min b) 180%Q (lat_max b)) as (X & Y & Z & T); try lra.
    rewrite Boundary_makes' by lra. eexists. split; [reflexivity|]. split; [reflexivity|].
    unfold same_on_globe, region; cbn [x0 x1 y0 y1 lat_min lat_max long_min long_max]. split; [lra|]. split; [lra|].
    exists 0; change (inject_Z 0) with 0%Q. qsplit; lra.
  - destruct (RR (long_min b) (lat_min b) 180%Q (lat_max b)) as (X & Y & Z & T); try lra.
    destruct (RR (-180)%Q (lat_min b) (long_max b) (lat_max b)) as (X' & Y' & Z' & T'); try lra.
    rewrite Boundary_makes' by lra. eexists. split; [reflexivity|]. split; [reflexivity|].
    unfold same_on_globe, region; cbn [x0 x1 y0 y1 lat_min lat_max long_min long_max]. split; [lra|]. split; [lra|].
    exists 0; change (inject_Z 0) with 0%Q. qsplit; lra.
Qed.
Lemma cell_trip c b' : load_bounds (to_polygon (e_bounds c)) = Ok b' -> plain_data (e_data c) ->
  cell_from_json (cell_to_json c) = Ok (mkE b' (e_data c) (e_id c)).
Proof.
  intros D P. rewrite cell_json_eq by auto. unfold cell_from_json.
  assert (Hid : ~ In "id"%string (map fst (e_data c))).
  { intros X. apply (proj2 P) in X. apply X. cbn. tauto. }
  rewrite sget_app, sget_app. replace (sget (e_data c) "id") with (@None jval) by (symmetry; apply sget_none; auto).
  cbn [sget]. cbn [String.eqb Ascii.eqb Bool.eqb].
  rewrite sget_app. cbn [sget]. cbn [String.eqb Ascii.eqb Bool.eqb].
  rewrite D. cbn [bind]. do 2 f_equal.
  rewrite !filter_app. cbn [filter]. cbn.
  rewrite app_nil_r. apply filter_all. intros kv H. apply negb_true_iff. apply not_true_is_false. intros R.
  apply reserved_In in R. apply (proj2 P) in R; auto. apply in_map; auto.
Qed.
Lemma cells_trip cs : (forall c, In c cs -> meaningful (e_bounds c) /\ plain_data (e_data c)) ->
  exists cs', mapM cell_from_json (map cell_to_json cs) = Ok cs' /\ Forall2 same_cell cs cs'.
Proof.
  induction cs as [|c cs IH]; intros H; [exists []; split; [reflexivity|constructor]|].
  destruct (H c (or_introl eq_refl)) as [M P]. destruct (load_same _ M) as (b' & E & T & S).
  destruct IH as (cs' & E' & F). { intros; apply H; right; auto. }
  exists (mkE b' (e_data c) (e_id c) :: cs'). split.
  - cbn [map mapM]. rewrite (cell_trip c b' E P). cbn [bind]. rewrite E'. reflexivity.
  - constructor; auto. split; [reflexivity|]. split; [reflexivity|]. split; auto.
Qed.

(** ** The mesh *)
Definition cells_of (m : mesh) (cs : list ecell) : Prop :=
  (forall c, In c cs -> exists i x, live_cell m i x /\ e_id c = Z.of_nat i /\ turned (region (cb_bounds x)) (region (e_bounds c))) /\
  (forall i x, live_cell m i x -> exists c, In c cs /\ e_id c = Z.of_nat i /\ turned (region (cb_bounds x)) (region (e_bounds c))).
Lemma live_list_nodup m : ids_are_positions m -> NoDup (map cb_id (live_list m)).
Proof.
  intros I1. unfold live_list.
  assert (X : forall l off, (forall i c, nth_error l i = Some (Some c) -> cb_id c = Z.of_nat (off + i)) ->
     NoDup (map cb_id (flat_map (fun o => match o with Some c => [c] | None => [] end) l)) /\
     forall z, In z (map cb_id (flat_map (fun o => match o with Some c => [c] | None => [] end) l)) -> Z.of_nat off <= z).
  { clear. induction l as [|o l IH]; intros off H; [split; [constructor|intros z []]|].
    destruct (IH (S off)) as [N B]. { intros i c Hi. rewrite (H (S i) c Hi). f_equal. lia. }
    destruct o as [c|]; cbn [flat_map app map].
    - pose proof (H 0%nat c eq_refl) as Hc. split.
      + constructor; auto. intros Hin. apply B in Hin. lia.
      + intros z [<-|Hz]; [lia|]. apply B in Hz. lia.
    - split; auto. intros z Hz. apply B in Hz. lia. }
  apply (X (cells m) 0%nat). intros i c Hi. apply (I1 i c Hi).
Qed.
Lemma read_cells m acs cs' : ids_are_positions m ->
  map ac_id acs = map cb_id (live_list m) -> map ac_bounds acs = map cb_bounds (live_list m) ->
  Forall2 same_cell (map ecell_of acs) cs' -> cells_of m cs' /\ NoDup (map e_id cs').
Proof.
  intros I E1 E2 F.
  assert (G : Forall2 (fun x c => e_id c = cb_id x /\ turned (region (cb_bounds x)) (region (e_bounds c))) (live_list m) cs').
  { clear I. revert acs cs' E1 E2 F. induction (live_list m) as [|x l IH]; intros [|ac acs] cs' E1 E2 F; try discriminate; cbn [map] in *.
    - inversion F; subst. constructor.
    - inversion F as [|? c ? cs0 (S1 & S2 & S3 & S4) F']; subst. injection E1 as E1 E1'. injection E2 as E2 E2'.
      constructor; [|apply (IH acs); auto]. split; [cbn in S1; congruence|]. rewrite <- E2. exact S4. }
  assert (Ids : map e_id cs' = map cb_id (live_list m)).
  { clear - G. induction G as [|x c l l' [E _] G IH]; auto. cbn. congruence. }
  split; [|rewrite Ids; apply live_list_nodup; auto]. split.
  - intros c Hc. assert (X : exists x, In x (live_list m) /\ e_id c = cb_id x /\ turned (region (cb_bounds x)) (region (e_bounds c))).
    { clear - G Hc. induction G as [|x a l l' H G IH]; [destruct Hc|]. destruct Hc as [->|Hc]; [exists x; split; [left; auto|auto]|].
      destruct (IH Hc) as (y & Hy & ?). exists y. split; [right; auto|auto]. }
    destruct X as (x & Hx & E & T). apply live_list_In in Hx as (i & L). exists i, x. split; auto. rewrite E. split; [apply (I i x L)|auto].
  - intros i x L. assert (Hx : In x (live_list m)) by (apply live_list_In; eauto).
    assert (X : exists c, In c cs' /\ e_id c = cb_id x /\ turned (region (cb_bounds x)) (region (e_bounds c))).
    { clear - G Hx. induction G as [|y a l l' H G IH]; [destruct Hx|]. destruct Hx as [->|Hx]; [exists a; split; [left; auto|auto]|].
      destruct (IH Hx) as (z & Hz & ?). exists z. split; [right; auto|auto]. }
    destruct X as (c & Hc & E & T). exists c. split; auto. rewrite E. split; [apply (I i x L)|auto].
Qed.
Lemma read_tiles whole m cs : globe_tiled whole m -> cells_of m cs -> tiles_globe whole cs.
Proof.
  intros (T1 & T2 & T3) (S1 & S2). split; [|split].
  - intros x y M. destruct (T1 x y M) as (i & c & L & Mc). destruct (S2 i c L) as (e & He & _ & T). exists e. split; auto. eapply turned_mem; eauto.
  - intros e x y He M. destruct (S1 e He) as (i & c & L & _ & T). eapply T2; eauto. eapply turned_mem; [apply turned_sym; exact T|auto].
  - intros e e' x y He He' M M'. destruct (S1 e He) as (i & c & L & Ei & T). destruct (S1 e' He') as (j & c' & L' & Ej & T').
    rewrite Ei, Ej, (T3 i j c c' x y); auto; eapply turned_mem; try (apply turned_sym; eassumption); auto.
Qed.
Lemma read_keys m cs f : rep KI (ng m) (live_of (cells m)) f -> cells_of m cs ->
  NoDup (dkeys (graph_to_json (ng m))) /\
  (forall k, In k (dkeys (graph_to_json (ng m))) <-> exists c, k = KS (e_id c) /\ In c cs) /\
  (forall c mp, In c cs -> dget_opt (graph_to_json (ng m)) (KS (e_id c)) = Some mp ->
     NoDup (dkeys mp) /\ forall k, In k (dkeys mp) <-> exists d, k = KS (code d)).
Proof.
  intros Rp (S1 & S2). pose proof (rep_to_json _ _ _ Rp) as (R1 & R2 & R3). split; [|split]; auto.
  - intros k. rewrite R2. split.
    + intros (i & -> & L). apply live_of_inv in L as (n & x & -> & L). destruct (S2 n x L) as (c & Hc & Ec & _).
      exists c. rewrite Ec. auto.
    + intros (c & -> & Hc). destruct (S1 c Hc) as (i & x & L & -> & _). exists (Z.of_nat i). split; auto.
      eapply live_of_cell; eauto.
  - intros c mp Hc Em. destruct (S1 c Hc) as (i & x & L & Ei & _).
    destruct (R3 (Z.of_nat i)) as (mp' & Em' & M1 & M2 & _); [eapply live_of_cell; eauto|].
    rewrite Ei, Em' in Em. injection Em as <-. split; auto. intros k. rewrite M2. split.
    + intros (d & -> & Hd). apply In_dirs_code in Hd as (dd & ->). eauto.
    + intros (dd & ->). exists (code dd). split; auto. apply In_dirs_code; eauto.
Qed.
Lemma read_list m f i d l : rep KI (ng m) (live_of (cells m)) f -> live_of (cells m) i ->
  get_neighbours (ng m) (KI i) (KI (code d)) = Ok l -> get_neighbours (graph_to_json (ng m)) (KS i) (KS (code d)) = Ok l.
Proof.
  intros Rp Li El. assert (Hd : In (code d) dirs) by (apply In_dirs_code; eauto).
  rewrite (rep_get KI _ _ _ _ _ Rp Li Hd) in El. injection El as <-.
  apply (rep_get KS _ _ _ _ _ (rep_to_json _ _ _ Rp)); auto.
Qed.
Lemma read_only m cs f : rep KI (ng m) (live_of (cells m)) f -> only_contacts touches_mod m -> cells_of m cs ->
  lists_only_contacts touches_mod cs (graph_to_json (ng m)).
Proof.
  intros Rp (_ & _ & X) S. destruct (read_keys m cs f Rp S) as (K1 & K2 & K3). destruct S as (S1 & S2).
  split; auto. split; auto. split; auto.
  intros c d Hc. destruct (S1 c Hc) as (i & x & L & Ei & T).
  destruct (X i x d L) as (l & El & Nl & Il). exists l. rewrite Ei. split; [|split; auto].
  - apply (read_list m f); auto. eapply live_of_cell; eauto.
  - intros z Hz. destruct (Il z Hz) as (j & y & l' & -> & Lj & Tj & El' & Hi). destruct (S2 j y Lj) as (c' & Hc' & Ec' & T').
    exists c', l'. split; auto. split; auto. split; [eapply turned_touches; eauto|]. split; auto.
    apply (read_list m f); auto. eapply live_of_cell; eauto.
Qed.
Lemma read_exact m cs f : rep KI (ng m) (live_of (cells m)) f -> graph_exact touches_mod m -> cells_of m cs ->
  lists_contacts touches_mod cs (graph_to_json (ng m)).
Proof.
  intros Rp (_ & _ & X) S. destruct (read_keys m cs f Rp S) as (K1 & K2 & K3). destruct S as (S1 & S2).
  split; auto. split; auto. split; auto.
  intros c d Hc. destruct (S1 c Hc) as (i & x & L & Ei & T).
  destruct (X i x d L) as (l & El & Nl & Il). exists l. rewrite Ei. split; [|split; auto].
  - apply (read_list m f); auto. eapply live_of_cell; eauto.
  - intros z. rewrite Il. split.
    + intros (j & y & -> & Lj & Tj). destruct (S2 j y Lj) as (c' & Hc' & Ec' & T'). exists c'. split; auto. split; auto.
      eapply turned_touches; eauto.
    + intros (c' & -> & Hc' & Tc). destruct (S1 c' Hc') as (j & y & Lj & Ej & T'). exists j, y. split; auto. split; auto.
      eapply turned_touches; [apply turned_sym; exact T|apply turned_sym; exact T'|exact Tc].
Qed.
Lemma frame_meaningful off W a v : (W < 360)%Q -> in_frame W v -> unrolled off a v -> (lat_min a <= lat_max a)%Q -> meaningful a.
Proof.
  intros HW Fr U La. pose proof (frame_box off W a v HW Fr U) as (A & B & C). split; auto. unfold in_domain in *.
  split; [lra|]. split; [lra|]. intros [X Y]. cbn [region x0 x1] in C. destruct (qltb_spec (long_min a) (long_max a)); lra.
Qed.
