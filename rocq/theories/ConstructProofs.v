(** Proofs about the construction of sources (C62). *)
From Coq Require Import Sorting.Sorted.
From Verif Require Import Base QLib Geo Graph Cell Loaders Builder Env Spec MeshSpec DataSpec TrimProofs XrProofs AggProofs Construct ConstructSpec.
Open Scope Q_scope.

(** ** Areas *)
Lemma min_list_is l m : In m l -> (forall x, In x l -> m <= x) -> min_list l == m.
Proof.
  destruct l as [|a l]; [intros []|]. cbn [min_list]. revert a m. induction l as [|c l IH]; intros a m I H; cbn.
  - destruct I as [->|[]]. reflexivity.
  - unfold qmin at 2. assert (A := H a (or_introl eq_refl)). assert (C := H c (or_intror (or_introl eq_refl))).
    destruct (qltb_spec c a) as [L|L].
    + apply IH; [|intros x X; apply H; right; exact X]. destruct I as [<-|I]; [lra|exact I].
    + destruct I as [<-|[<-|I]]; [apply IH; [left; reflexivity|]|transitivity (fold_left qmin l a); [reflexivity|]|apply IH; [right; exact I|]].
      * intros x [<-|X]; [lra|]. apply H. right. right. exact X.
      * assert (E : a == c) by lra. rewrite (IH a a); [exact E|left; reflexivity|]. intros x [<-|X]; [lra|]. assert (K := H x (or_intror (or_intror X))). lra.
      * intros x [<-|X]; [exact A|]. apply H. right. right. exact X.
Qed.
Lemma max_list_is l m : In m l -> (forall x, In x l -> x <= m) -> max_list l == m.
Proof.
  destruct l as [|a l]; [intros []|]. cbn [max_list]. revert a m. induction l as [|c l IH]; intros a m I H; cbn.
  - destruct I as [->|[]]. reflexivity.
  - unfold qmax at 2. assert (A := H a (or_introl eq_refl)). assert (C := H c (or_intror (or_introl eq_refl))).
    destruct (qltb_spec a c) as [L|L].
    + apply IH; [|intros x X; apply H; right; exact X]. destruct I as [<-|I]; [lra|exact I].
    + destruct I as [<-|[<-|I]]; [apply IH; [left; reflexivity|]|transitivity (fold_left qmax l a); [reflexivity|]|apply IH; [right; exact I|]].
      * intros x [<-|X]; [lra|]. apply H. right. right. exact X.
      * assert (E : a == c) by lra. rewrite (IH a a); [exact E|left; reflexivity|]. intros x [<-|X]; [lra|]. assert (K := H x (or_intror (or_intror X))). lra.
      * intros x [<-|X]; [exact A|]. apply H. right. right. exact X.
Qed.
Lemma rect_bounds w s e n : w <= e -> s <= n ->
  min_list (ring_xs (rect_ring w s e n)) == w /\ max_list (ring_xs (rect_ring w s e n)) == e /\
  min_list (ring_ys (rect_ring w s e n)) == s /\ max_list (ring_ys (rect_ring w s e n)) == n.
Proof.
  intros H1 H2. unfold ring_xs, ring_ys, rect_ring. cbn [map fst snd].
  split; [apply min_list_is|split; [apply max_list_is|split; [apply min_list_is|apply max_list_is]]].
  all: cbn [In]; auto 8; intros x X; repeat destruct X as [<-|X]; try lra; destruct X.
Qed.
Lemma qmin_comp a a' b b' : a == a' -> b == b' -> qmin a b == qmin a' b'.
Proof. intros A B. unfold qmin. qsplit; lra. Qed.
Lemma qmax_comp a a' b b' : a == a' -> b == b' -> qmax a b == qmax a' b'.
Proof. intros A B. unfold qmax. qsplit; lra. Qed.
Lemma qmin_is a b : qmin a b <= a /\ qmin a b <= b /\ (qmin a b = a \/ qmin a b = b).
Proof. unfold qmin. qsplit; repeat split; try lra; auto. Qed.
Lemma qmax_is a b : a <= qmax a b /\ b <= qmax a b /\ (qmax a b = a \/ qmax a b = b).
Proof. unfold qmax. qsplit; repeat split; try lra; auto. Qed.
Lemma span_comp a a' b b' c c' d d' : a == a' -> b == b' -> c == c' -> d == d' -> span a b c d == span a' b' c' d'.
Proof.
  intros A B C D. unfold span. apply qmax_comp; [reflexivity|]. rewrite (qmin_comp b b' d d'), (qmax_comp a a' c c') by assumption. reflexivity.
Qed.
Lemma span_nonneg a b c d : 0 <= span a b c d.
Proof. apply qmax_is. Qed.
Lemma span_pos a b c d : a <= b -> c <= d -> (0 < span a b c d <-> exists x, a < x < b /\ c < x < d).
Proof.
  intros H1 H2. unfold span. destruct (qmin_is b d) as (A1 & A2 & A3). destruct (qmax_is a c) as (B1 & B2 & B3).
  generalize dependent (qmax a c). generalize dependent (qmin b d). intros hi A1 A2 A3 lo B1 B2 B3. destruct (qmax_is 0 (hi - lo)) as (C1 & C2 & C3). split.
  - intros P. exists ((lo + hi) * (1#2)). assert (lo < hi) by (destruct C3 as [C3|C3]; rewrite C3 in P; lra).
    assert (lo < (lo + hi) * (1#2)) by lra. assert ((lo + hi) * (1#2) < hi) by lra. lra.
  - intros (x & X1 & X2). assert (lo < x) by (destruct B3 as [E|E]; rewrite E; lra). assert (x < hi) by (destruct A3 as [E|E]; rewrite E; lra). lra.
Qed.
Lemma overlap_rects w s e n w' s' e' n' : w <= e -> s <= n -> w' <= e' -> s' <= n' ->
  ring_overlap (rect_ring w s e n) (rect_ring w' s' e' n') == span w e w' e' * span s n s' n'.
Proof.
  intros. unfold ring_overlap. destruct (rect_bounds w s e n) as (A & B & C & D); auto. destruct (rect_bounds w' s' e' n') as (A' & B' & C' & D'); auto.
  rewrite (span_comp _ _ _ _ _ _ _ _ A B A' B'), (span_comp _ _ _ _ _ _ _ _ C D C' D'). reflexivity.
Qed.

Lemma overlap_plain o b : plain_region b -> lat_min o <= lat_max o -> long_min o <= long_max o -> -180 <= long_min o -> long_max o <= 180 ->
  exists X, 0 <= X /\ overlap_area (to_polygon o) (to_polygon b) == X * span (lat_min o) (lat_max o) (lat_min b) (lat_max b) /\
    (0 < X <-> long_min o == long_max o \/ exists x, long_min o < x < long_max o /\ long_min b < x < long_max b).
Proof.
  intros (B1 & B2 & B3 & B4 & _) L1 L2 L3 L4. unfold overlap_area. unfold to_polygon at 1.
  destruct (qltb_spec (long_min b) (long_max b)); [|lra]. cbn [rings map]. unfold to_polygon.
  destruct (qltb_spec (long_min o) (long_max o)) as [L|L].
  - exists (span (long_min o) (long_max o) (long_min b) (long_max b)). split; [apply span_nonneg|]. split.
    + cbn [rings flat_map map app qsum fold_right]. rewrite overlap_rects by lra. ring.
    + rewrite span_pos by lra. split; [auto|]. intros [E|E]; [lra|auto].
  - assert (E : long_min o == long_max o) by lra.
    destruct (qeqb_spec (long_min o) 180); [|destruct (qeqb_spec (long_max o) (-180))].
    + exists (span (-180) (long_max o) (long_min b) (long_max b)). split; [apply span_nonneg|]. split.
      * cbn [rings flat_map map app qsum fold_right]. rewrite overlap_rects by lra. ring.
      * split; [auto|]. intros _. apply span_pos; try lra. exists ((long_min b + long_max b) * (1#2)). lra.
    + exists (span (long_min o) 180 (long_min b) (long_max b)). split; [apply span_nonneg|]. split.
      * cbn [rings flat_map map app qsum fold_right]. rewrite overlap_rects by lra. ring.
      * split; [auto|]. intros _. apply span_pos; try lra. exists ((long_min b + long_max b) * (1#2)). lra.
    + exists (span (long_min o) 180 (long_min b) (long_max b) + span (-180) (long_max o) (long_min b) (long_max b)).
      pose proof (span_nonneg (long_min o) 180 (long_min b) (long_max b)). pose proof (span_nonneg (-180) (long_max o) (long_min b) (long_max b)).
      split; [lra|]. split.
      * cbn [rings flat_map map app qsum fold_right]. rewrite !overlap_rects by lra. ring.
      * split; [auto|]. intros _. destruct (Qlt_le_dec (long_min b) (long_max o)).
        -- assert (0 < span (-180) (long_max o) (long_min b) (long_max b)); [|lra]. apply span_pos; try lra.
           exists ((long_min b + qmin (long_max o) (long_max b)) * (1#2)). unfold qmin. qsplit; lra.
        -- assert (0 < span (long_min o) 180 (long_min b) (long_max b)); [|lra]. apply span_pos; try lra.
           exists ((long_min b + long_max b) * (1#2)). lra.
Qed.

Lemma area_plain b : plain_region b -> 0 < polygon_area (to_polygon b).
Proof.
  intros (B1 & B2 & B3 & B4 & _). unfold to_polygon. destruct (qltb_spec (long_min b) (long_max b)); [|lra].
  unfold polygon_area. cbn [rings map qsum fold_right]. unfold ring_area. destruct (rect_bounds (long_min b) (lat_min b) (long_max b) (lat_max b)) as (A & B & C & D); try lra.
  rewrite A, B, C, D. nra.
Qed.

Lemma coverage_spec b lats longs : plain_region b -> lats <> [] -> longs <> [] -> (forall x, In x longs -> -180 <= x <= 180) ->
  exists c, coverage_of b lats longs = Ok c /\
    (qeqb c 0 = false <->
       (exists y, qmin_list lats < y < qmax_list lats /\ lat_min b < y < lat_max b) /\
       (qmin_list longs == qmax_list longs \/ exists x, qmin_list longs < x < qmax_list longs /\ long_min b < x < long_max b)).
Proof.
  intros R Na No In0. destruct (qmin_list_spec lats Na) as [A1 A2]. destruct (qmax_list_spec lats Na) as [A3 A4].
  destruct (qmin_list_spec longs No) as [O1 O2]. destruct (qmax_list_spec longs No) as [O3 O4].
  assert (La := A2 _ A3). assert (Lo := O2 _ O3). destruct (In0 _ O1) as [I1 _]. destruct (In0 _ O3) as [_ I2].
  unfold coverage_of, Boundary. destruct (qltb_spec (qmax_list lats) (qmin_list lats)); [lra|].
  destruct (qltb_spec (qmin_list longs) (-180)); [lra|]. destruct (qltb_spec 180 (qmax_list longs)); [lra|]. cbn [orb bind].
  assert (P := area_plain b R). destruct (qeqb_spec (polygon_area (to_polygon b)) 0); [lra|]. eexists. split; [reflexivity|].
  destruct (overlap_plain (mkB (qmin_list lats) (qmax_list lats) (qmin_list longs) (qmax_list longs) []) b R) as (X & X0 & E & Xp); cbn [lat_min lat_max long_min long_max] in *; try lra.
  rewrite qeqb_false, E. destruct R as (B1 & B2 & B3 & B4 & _). rewrite <- (span_pos (qmin_list lats) (qmax_list lats) (lat_min b) (lat_max b)) by lra. rewrite <- Xp.
  set (Y := span (qmin_list lats) (qmax_list lats) (lat_min b) (lat_max b)). assert (Y0 : 0 <= Y) by apply span_nonneg.
  set (A := polygon_area (to_polygon b)) in *. assert (F : X * Y / A == 0 <-> X * Y == 0).
  { split; intros H.
    - assert (K : X * Y == X * Y / A * A) by (field; lra). rewrite K, H. ring.
    - rewrite H. field. lra. }
  rewrite F. split.
  - intros N. split.
    + destruct (Qlt_le_dec 0 Y); [assumption|]. exfalso. apply N. assert (K : Y == 0) by lra. rewrite K. ring.
    + destruct (Qlt_le_dec 0 X); [assumption|]. exfalso. apply N. assert (K : X == 0) by lra. rewrite K. ring.
  - intros [P1 P2] N. nra.
Qed.

(** ** Extents of points *)
Lemma extent_between (P : point -> Prop) (f : point -> Q) d l x : l <> [] ->
  (forall q, In q l <-> exists p, In p d /\ P p /\ f p = q) ->
  ((qmin_list l < x < qmax_list l) <-> between P f d x).
Proof.
  intros N H. destruct (qmin_list_spec l N) as [A1 A2]. destruct (qmax_list_spec l N) as [A3 A4]. split.
  - intros [L1 L2]. apply H in A1 as (p & Ip & Pp & Ep). apply H in A3 as (q & Iq & Pq & Eq). exists p, q. rewrite Ep, Eq. auto 10.
  - intros (p & q & Ip & Iq & Pp & Pq & L1 & L2). assert (K1 : In (f p) l) by (apply H; eauto). assert (K2 : In (f q) l) by (apply H; eauto).
    apply A2 in K1. apply A4 in K2. lra.
Qed.
Lemma extent_single (P : point -> Prop) (f : point -> Q) d l : l <> [] ->
  (forall q, In q l <-> exists p, In p d /\ P p /\ f p = q) ->
  (qmin_list l == qmax_list l <-> forall p q, In p d -> In q d -> P p -> P q -> f p == f q).
Proof.
  intros N H. destruct (qmin_list_spec l N) as [A1 A2]. destruct (qmax_list_spec l N) as [A3 A4]. split.
  - intros E p q Ip Iq Pp Pq. assert (K1 : In (f p) l) by (apply H; eauto). assert (K2 : In (f q) l) by (apply H; eauto).
    assert (K1' := K1). assert (K2' := K2). apply A2 in K1, K2. apply A4 in K1', K2'. lra.
  - intros E. apply H in A1 as (p & Ip & Pp & Ep). apply H in A3 as (q & Iq & Pq & Eq). rewrite <- Ep, <- Eq. auto.
Qed.

Lemma coverage_reaches (P : point -> Prop) b d lats longs : plain_region b -> longs_in_range P d -> lats <> [] -> longs <> [] ->
  (forall q, In q lats <-> exists p, In p d /\ P p /\ p_lat p = q) ->
  (forall q, In q longs <-> exists p, In p d /\ P p /\ p_long p = q) ->
  exists c, coverage_of b lats longs = Ok c /\ (qeqb c 0 = false <-> reaches P b d).
Proof.
  intros R Lr Na No Ha Ho. destruct (coverage_spec b lats longs R Na No) as (c & E & C).
  { intros x X. apply Ho in X as (p & Ip & Pp & <-). apply Lr; assumption. }
  exists c. split; [exact E|]. rewrite C. unfold reaches. rewrite (extent_single P p_long d longs No Ho).
  split; intros [(y & Y1 & Y2) X]; (split; [exists y; split; [apply (extent_between P p_lat d lats y Na Ha); assumption|assumption]|]).
  - destruct X as [X|(x & X1 & X2)]; [right; exact X|]. left. exists x. split; [apply (extent_between P p_long d longs x No Ho); assumption|assumption].
  - destruct X as [(x & X1 & X2)|X]; [|left; exact X]. right. exists x. split; [apply (extent_between P p_long d longs x No Ho); assumption|assumption].
Qed.

(** ** DataFrames *)
Lemma complete_spec p : complete p = true <-> all_known p.
Proof.
  unfold complete, all_known, has_nan. rewrite negb_true_iff. split.
  - intros H I. assert (X : existsb (fun v : option Q => match v with None => true | _ => false end) (p_vals p) = true); [|congruence].
    apply existsb_exists. exists None. auto.
  - intros H. destruct (existsb _ (p_vals p)) eqn:E; [|reflexivity]. exfalso. apply existsb_exists in E as ([q|] & I & K); [discriminate|]. apply H, I.
Qed.

Lemma reaches_some P b d : reaches P b d -> exists p, In p d /\ P p.
Proof. intros [(y & (p & q & Ip & _ & Pp & _) & _) _]. eauto. Qed.

Theorem construct_df_ok b d : plain_region b -> longs_in_range all_known d ->
  exists d', construct_df b d = Ok d' /\ (reaches all_known b d /\ selected (belongs b) d d' \/ ~ reaches all_known b d /\ d' = d).
Proof.
  intros R Lr. unfold construct_df, coverage_df.
  assert (Hf : forall p, In p (filter complete d) <-> In p d /\ all_known p).
  { intros p. rewrite filter_In, complete_spec. reflexivity. }
  destruct (filter complete d) as [|p0 d0] eqn:Ef.
  - cbn. exists d. split; [reflexivity|]. right. split; [|reflexivity]. intros Re. apply reaches_some in Re as (p & Ip & Pp).
    assert (X : In p []) by (apply Hf; auto). destruct X.
  - destruct (coverage_reaches all_known b d (map p_lat (p0 :: d0)) (map p_long (p0 :: d0)) R Lr) as (c & E & C); try discriminate.
    + intros q. rewrite in_map_iff. split; [intros (p & <- & Ip); apply Hf in Ip; exists p; tauto|intros (p & I & K & <-); exists p; split; [reflexivity|apply Hf; auto]].
    + intros q. rewrite in_map_iff. split; [intros (p & <- & Ip); apply Hf in Ip; exists p; tauto|intros (p & I & K & <-); exists p; split; [reflexivity|apply Hf; auto]].
    + rewrite E. cbn [bind]. destruct R as (_ & R1 & _ & _ & R2). destruct (qeqb c 0) eqn:Ec.
      * exists d. split; [reflexivity|]. right. split; [|reflexivity]. intros Re. apply C in Re. congruence.
      * exists (df_trim b d). split; [reflexivity|]. left. split; [apply C; reflexivity|apply df_trim_selects; assumption].
Qed.

(** ** Datasets *)
Lemma all_nan_spec l : negb (all_nan l) = true <-> exists q, In (Some q) l.
Proof.
  unfold all_nan. rewrite negb_true_iff. split.
  - intros H. induction l as [|[q|] l IH]; [discriminate|exists q; left; reflexivity|]. cbn in H. destruct (IH H) as (q & I). exists q. right. exact I.
  - intros (q & I). induction l as [|v l IH]; [destruct I|]. destruct I as [->|I]; [reflexivity|]. cbn. rewrite IH by exact I. apply andb_false_r.
Qed.
Lemma xr_points_in ds p : In p (xr_points ds) <-> exists la lo, In la (x_lat ds) /\ In lo (x_long ds) /\
  match x_time ds with
  | None => p = mkP (fst la) (fst lo) None (x_val ds (snd la) (snd lo) 0%nat)
  | Some ts => exists t, In t ts /\ p = mkP (fst la) (fst lo) (Some (fst t)) (x_val ds (snd la) (snd lo) (snd t))
  end.
Proof.
  unfold xr_points. rewrite in_flat_map. split.
  - intros (la & Ia & H). apply in_flat_map in H as (lo & Io & H). exists la, lo. split; [exact Ia|]. split; [exact Io|].
    destruct (x_time ds) as [ts|]; [apply in_map_iff in H as (t & <- & It); exists t; auto|]. destruct H as [H|[]]. auto.
  - intros (la & lo & Ia & Io & H). exists la. split; [exact Ia|]. apply in_flat_map. exists lo. split; [exact Io|].
    destruct (x_time ds) as [ts|]; [destruct H as (t & It & ->); apply in_map_iff; exists t; auto|]. left. auto.
Qed.
Lemma x_some_spec ds la lo : In la (x_lat ds) -> In lo (x_long ds) ->
  (x_some ds la lo = true -> exists p, In p (xr_points ds) /\ some_known p /\ p_lat p = fst la /\ p_long p = fst lo).
Proof.
  intros Ia Io H. unfold x_some in H. destruct (x_time ds) as [ts|] eqn:Et.
  - apply existsb_exists in H as (t & It & H). apply all_nan_spec in H.
    exists (mkP (fst la) (fst lo) (Some (fst t)) (x_val ds (snd la) (snd lo) (snd t))). split; [|auto].
    apply xr_points_in. exists la, lo. rewrite Et. eauto.
  - apply all_nan_spec in H. exists (mkP (fst la) (fst lo) None (x_val ds (snd la) (snd lo) 0%nat)). split; [|auto].
    apply xr_points_in. exists la, lo. rewrite Et. auto.
Qed.
Lemma x_some_point ds p : In p (xr_points ds) -> some_known p ->
  exists la lo, In la (x_lat ds) /\ In lo (x_long ds) /\ x_some ds la lo = true /\ p_lat p = fst la /\ p_long p = fst lo.
Proof.
  intros Ip K. apply xr_points_in in Ip as (la & lo & Ia & Io & H). exists la, lo. split; [exact Ia|]. split; [exact Io|].
  unfold x_some. destruct (x_time ds) as [ts|].
  - destruct H as (t & It & ->). split; [|auto]. apply existsb_exists. exists t. split; [exact It|]. apply all_nan_spec. exact K.
  - subst p. split; [|auto]. apply all_nan_spec. exact K.
Qed.

Lemma coverage_xr_ok b ds : plain_region b -> longs_in_range some_known (xr_points ds) ->
  exists c, coverage_xr b ds = Ok c /\ (qeqb c 0 = false <-> reaches some_known b (xr_points ds)).
Proof.
  intros R Lr. unfold coverage_xr.
  set (lats := filter (fun la => existsb (x_some ds la) (x_long ds)) (x_lat ds)).
  set (longs := filter (fun lo => existsb (fun la => x_some ds la lo) lats) (x_long ds)).
  assert (Ha : forall q, In q (map fst lats) <-> exists p, In p (xr_points ds) /\ some_known p /\ p_lat p = q).
  { intros q. rewrite in_map_iff. split.
    - intros (la & <- & I). apply filter_In in I as [Ia I]. apply existsb_exists in I as (lo & Io & X).
      destruct (x_some_spec ds la lo Ia Io X) as (p & Ip & K & E & _). eauto.
    - intros (p & Ip & K & <-). destruct (x_some_point ds p Ip K) as (la & lo & Ia & Io & X & E & _). exists la. split; [auto|].
      apply filter_In. split; [exact Ia|]. apply existsb_exists. eauto. }
  assert (Ho : forall q, In q (map fst longs) <-> exists p, In p (xr_points ds) /\ some_known p /\ p_long p = q).
  { intros q. rewrite in_map_iff. split.
    - intros (lo & <- & I). apply filter_In in I as [Io I]. apply existsb_exists in I as (la & Ia & X). apply filter_In in Ia as [Ia _].
      destruct (x_some_spec ds la lo Ia Io X) as (p & Ip & K & _ & E). eauto.
    - intros (p & Ip & K & <-). destruct (x_some_point ds p Ip K) as (la & lo & Ia & Io & X & _ & E). exists lo. split; [auto|].
      apply filter_In. split; [exact Io|]. apply existsb_exists. exists la. split; [|exact X]. apply filter_In. split; [exact Ia|]. apply existsb_exists. eauto. }
  assert (Z0 : forall (l : list (Q * nat)) (f : point -> Q), (forall q, In q (map fst l) <-> exists p, In p (xr_points ds) /\ some_known p /\ f p = q) -> l = [] -> ~ reaches some_known b (xr_points ds)).
  { intros l f H -> Re. apply reaches_some in Re as (p & Ip & K). assert (X : In (f p) (map fst (@nil (Q * nat)))) by (apply H; eauto). destruct X. }
  destruct lats as [|la lats'] eqn:El.
  - exists 0. split; [reflexivity|]. split; [discriminate|]. intros Re. exfalso. apply (Z0 [] p_lat Ha eq_refl Re).
  - destruct longs as [|lo longs'] eqn:Eo.
    + exists 0. split; [reflexivity|]. split; [discriminate|]. intros Re. exfalso. apply (Z0 [] p_long Ho eq_refl Re).
    + apply coverage_reaches; try discriminate; assumption.
Qed.


Theorem construct_xr_ok b ds : plain_region b -> ordered ds -> period_given b ds -> longs_in_range some_known (xr_points ds) ->
  exists ds', construct_xr b ds = Ok ds' /\ (reaches some_known b (xr_points ds) /\ selected (belongs b) (xr_points ds) (xr_points ds') \/
    ~ reaches some_known b (xr_points ds) /\ ds' = ds).
Proof.
  intros R (Ia & Io & It) Ip Lr. unfold construct_xr. destruct (coverage_xr_ok b ds R Lr) as (c & E & C). rewrite E. cbn [bind].
  destruct R as (_ & R1 & _ & _ & R2). destruct (qeqb c 0) eqn:Ec.
  - exists ds. split; [reflexivity|]. right. split; [|reflexivity]. intros Re. apply C in Re. congruence.
  - destruct (xr_trim_rows_ok b ds Ia Io It Ip (or_introl R1)) as (ds' & E' & P). exists ds'. split; [exact E'|]. left. split; [apply C; reflexivity|].
    rewrite P, xr_trim_rows_df by exact R1. apply df_trim_selects; assumption.
Qed.

Lemma selected_all {A} (P : A -> Prop) l : selected P l l <-> forall x, In x l -> P x.
Proof.
  split.
  - intros H x I. eapply selected_In in H. apply H. exact I.
  - induction l as [|a l IH]; intros H; constructor; [apply H; left; reflexivity|apply IH; intros; apply H; right; assumption].
Qed.

(** ** Cells *)
Lemma df_spatial_part b c p : long_min b < long_max b -> part_of c b -> df_spatial c p = true -> df_spatial b p = true.
Proof.
  intros L (C1 & C2 & C3 & _ & C4). unfold df_spatial. destruct (qltb_spec (long_min b) (long_max b)); [|contradiction].
  destruct (qltb_spec (long_min c) (long_max c)); [|contradiction]. rewrite !andb_true_iff, !qltb_true, !qleb_true. intros H. repeat split; lra.
Qed.
Lemma in_time_part b c p : time_range c = time_range b -> in_time c p = in_time b p.
Proof. intros E. unfold in_time. rewrite E. reflexivity. Qed.

Lemma filter_within {A} (f g : A -> bool) l : (forall x, f x = true -> g x = true) -> filter f (filter g l) = filter f l.
Proof.
  intros H. rewrite filter_filter. apply filter_ext. intros x. destruct (f x) eqn:E; [rewrite (H x E); reflexivity|apply andb_false_r].
Qed.

Theorem construct_df_cells b d d' c : long_min b < long_max b -> construct_df b d = Ok d' -> part_of c b -> df_trim c d' = df_trim c d.
Proof.
  intros L H P. unfold construct_df in H. destruct (coverage_df b d) as [cv|]; [|discriminate]. cbn [bind] in H.
  destruct (qeqb cv 0); injection H as <-; [reflexivity|]. unfold df_trim. apply filter_within. intros p K.
  apply andb_true_iff in K as [K1 K2]. rewrite (df_spatial_part b c p L P K1). rewrite <- (in_time_part b c) by apply P. exact K2.
Qed.

Lemma xr_spatial_part b c p : (long_min b < long_max b \/ long_max b < long_min b) -> part_of c b -> -180 <= long_min c -> long_max c <= 180 ->
  xr_spatial c p = true -> xr_spatial b p = true.
Proof.
  intros O (C1 & C2 & C3 & _ & C4) G1 G2. unfold xr_spatial. destruct (qltb_spec (long_min c) (long_max c)); [|contradiction].
  rewrite !andb_true_iff, !negb_true_iff, !qeqb_false, !qleb_true. intros ((((H1 & H2) & H3) & H4 & H5) & H6).
  assert (X1 : lat_min c < p_lat p) by (apply Qle_lteq in H1 as [H1|H1]; [exact H1|exfalso; apply H3; symmetry; exact H1]).
  assert (X2 : long_min c < p_long p) by (apply Qle_lteq in H4 as [H4|H4]; [exact H4|exfalso; apply H6; symmetry; exact H4]).
  destruct (qltb_spec (long_min b) (long_max b)) as [L|L].
  - rewrite andb_true_iff, !qleb_true. repeat split; lra.
  - rewrite orb_true_iff, !andb_true_iff, !qleb_true. destruct C4 as [C4|C4].
    + split; [split; [split; lra|right; lra]|lra].
    + split; [split; [split; lra|left; lra]|lra].
Qed.

(** The axes of a trimmed dataset are still in order. *)
Lemma increasing_sorted {I} (l : list (Q * I)) : increasing l <-> StronglySorted (fun x y => fst x <= fst y) l.
Proof.
  split.
  - induction l as [|a l IH]; intros H; constructor; [apply IH; eapply increasing_tail; eauto|].
    apply Forall_forall. intros x X. eapply increasing_head; eauto.
  - induction 1 as [|a l H IH F]; intros i j x y Hij Hx Hy; [destruct i; discriminate|]. destruct j as [|j]; [lia|]. destruct i as [|i].
    + injection Hx as <-. rewrite Forall_forall in F. apply F. eapply nth_error_In; eauto.
    + apply (IH i j); auto. lia.
Qed.
Lemma sorted_filter {A} (R : A -> A -> Prop) f l : StronglySorted R l -> StronglySorted R (filter f l).
Proof.
  induction 1 as [|a l H IH F]; cbn; [constructor|]. destruct (f a); [constructor|]; auto. apply Forall_forall. intros x X. apply filter_In in X as [X _].
  rewrite Forall_forall in F. auto.
Qed.
Lemma sorted_app {A} (R : A -> A -> Prop) l l' : StronglySorted R l -> StronglySorted R l' ->
  (forall x y, In x l -> In y l' -> R x y) -> StronglySorted R (l ++ l').
Proof.
  intros H H' X. induction H as [|a l H IH F]; [exact H'|]. cbn. constructor.
  - apply IH. intros; apply X; [right|]; auto.
  - apply Forall_app. split; [exact F|]. apply Forall_forall. intros y Y. apply X; [left; reflexivity|exact Y].
Qed.
Lemma increasing_z_filter {I} f (l : list (Z * I)) : increasing_z l -> increasing_z (filter f l).
Proof.
  intros H. assert (S : StronglySorted (fun x y => (fst x <= fst y)%Z) l).
  { induction l as [|a l IH]; constructor.
    - apply IH. intros i j x y Hij Hx Hy. apply (H (S i) (S j)); auto. lia.
    - apply Forall_forall. intros x X. apply In_nth_error in X as (j & J). apply (H 0%nat (S j) a x); auto. lia. }
  apply (sorted_filter _ f) in S. clear H. induction S as [|a l' H IH F]; intros i j x y Hij Hx Hy; [destruct i; discriminate|]. destruct j as [|j]; [lia|]. destruct i as [|i].
  - injection Hx as <-. rewrite Forall_forall in F. apply F. eapply nth_error_In; eauto.
  - apply (IH i j); auto. lia.
Qed.

Lemma xr_trim_ordered b ds ds' : ordered ds -> (long_min b < long_max b \/ long_max b < long_min b) -> xr_trim b ds = Ok ds' ->
  ordered ds' /\ (x_time ds' <> None -> x_time ds <> None).
Proof.
  intros (Ia & Io & It) O H. unfold xr_trim, sel_slice in H. rewrite (increasing_monotone _ Ia), (increasing_monotone _ Io) in H. cbn [bind] in H.
  assert (Sa : StronglySorted (fun x y => fst x <= fst y) (x_lat ds)) by (apply increasing_sorted; exact Ia).
  assert (So : StronglySorted (fun x y => fst x <= fst y) (x_long ds)) by (apply increasing_sorted; exact Io).
  assert (exists long time, (if qltb (long_min b) (long_max b)
     then Ok (filter (fun x => qleb (long_min b) (fst x) && qleb (fst x) (long_max b)) (x_long ds))
     else Ok (filter (fun x => qleb (-180) (fst x) && qleb (fst x) (long_max b)) (x_long ds) ++ filter (fun x => qleb (long_min b) (fst x) && qleb (fst x) 180) (x_long ds))) = Ok long /\
     (x_time ds = None /\ time = None \/ exists ts f, x_time ds = Some ts /\ time = Some (filter f ts)) /\
     x_lat ds' = filter (fun x => negb (qeqb (fst x) (lat_min b))) (filter (fun x => qleb (lat_min b) (fst x) && qleb (fst x) (lat_max b)) (x_lat ds)) /\
     x_long ds' = filter (fun x => negb (qeqb (fst x) (long_min b))) long /\ x_time ds' = time) as (long & time & El & Et & E1 & E2 & E3).
  { destruct (qltb (long_min b) (long_max b)); cbn [bind] in H; destruct (x_time ds) as [ts|].
    all: try (destruct (time_range b) as [|t0 [|t1 tr]]; [discriminate|discriminate|]; rewrite (increasing_z_monotone _ (It ts eq_refl)) in H; cbn [bind] in H).
    all: try (injection H as <-; do 2 eexists; split; [reflexivity|]; cbn; split; [|auto]; right; eauto; fail).
    all: cbn [bind] in H; injection H as <-; do 2 eexists; split; [reflexivity|]; cbn; split; [|auto]; left; auto. }
  split; [|rewrite E3; destruct Et as [[Et ->]|(ts & f & Et & ->)]; congruence]. split; [|split].
  - rewrite E1. apply increasing_sorted, sorted_filter, sorted_filter, Sa.
  - rewrite E2. apply increasing_sorted, sorted_filter. destruct (qltb_spec (long_min b) (long_max b)); injection El as <-; [apply sorted_filter, So|].
    apply sorted_app; [apply sorted_filter, So|apply sorted_filter, So|]. intros x y X Y. apply filter_In in X as [_ X]. apply filter_In in Y as [_ Y].
    apply andb_true_iff in X as [_ X]. apply andb_true_iff in Y as [Y _]. apply qleb_true in X, Y. destruct O; lra.
  - intros ts Ets. rewrite E3 in Ets. destruct Et as [[_ ->]|(ts0 & f & Et & ->)]; [discriminate|]. injection Ets as <-. apply increasing_z_filter, It, Et.
Qed.

Theorem construct_xr_cells b ds ds' c : (long_min b < long_max b \/ long_max b < long_min b) -> ordered ds -> period_given b ds ->
  construct_xr b ds = Ok ds' -> part_of c b -> -180 <= long_min c -> long_max c <= 180 ->
  exists dc dc', xr_trim c ds = Ok dc /\ xr_trim c ds' = Ok dc' /\ xr_points dc' = xr_points dc.
Proof.
  intros O Or Ip H P G1 G2. destruct Or as (Ia & Io & It). assert (C1 := proj1 P).
  assert (Ipc : period_given c ds) by (intros X; destruct (Ip X) as (t0 & t1 & E); exists t0, t1; destruct P as (_ & _ & _ & -> & _); exact E).
  destruct (xr_trim_rows_ok c ds Ia Io It Ipc (or_introl C1)) as (dc & Ec & Pc).
  unfold construct_xr in H. destruct (coverage_xr b ds) as [cv|]; [|discriminate]. cbn [bind] in H. destruct (qeqb cv 0).
  - injection H as <-. exists dc, dc. auto.
  - destruct (xr_trim_rows_ok b ds Ia Io It Ip O) as (db & Eb & Pb). rewrite H in Eb. injection Eb as <-.
    destruct (xr_trim_ordered b ds ds' (conj Ia (conj Io It)) O H) as ((Ia' & Io' & It') & T).
    destruct (xr_trim_rows_ok c ds' Ia' Io' It') as (dc' & Ec' & Pc'); [intros X; apply Ipc, T, X|left; exact C1|].
    exists dc, dc'. split; [exact Ec|]. split; [exact Ec'|]. rewrite Pc', Pb, Pc. unfold xr_trim_rows. apply filter_within. intros p K.
    apply andb_true_iff in K as [K1 K2]. rewrite (xr_spatial_part b c p O P G1 G2 K1). rewrite <- (in_time_part b c) by apply P. exact K2.
Qed.
