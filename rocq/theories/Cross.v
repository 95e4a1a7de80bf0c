(** Meshes over a region crossing the antimeridian: the cells are compared with
    copies of them moved into one frame in which the region is an interval. *)
From Verif Require Import Base Geo Graph Cell Builder Spec MeshSpec GlobeSpec CrossSpec QLib CaseProofs SplitGeo Dict Rep SplitCore Stage BuilderSplit Invariant Grid Build GlobeProofs.
Open Scope Q_scope.

(** The case cascade on any two cells of positive size. *)
Lemma case_bounds_proper a b : proper (region a) -> proper (region b) ->
  forall d, get_neighbour_case_bounds a b = code d <-> lin d (region a) (region b).
Proof.
  intros Pa Pb d.
  assert (X : exists z, get_neighbour_case_bounds a b = z /\
     ((z = 0%Z /\ forall d', ~ lin d' (region a) (region b)) \/
      exists d', z = code d' /\ lin d' (region a) (region b))).
  { eexists; split; [reflexivity|]. unfold get_neighbour_case_bounds. cbv zeta.
    pose proof (width_region a) as Wa. pose proof (width_region b) as Wb.
    pose proof (height_region a) as Ha. pose proof (height_region b) as Hb.
    assert (Ex0a : x0 (region a) = long_min a) by reflexivity.
    assert (Ex0b : x0 (region b) = long_min b) by reflexivity.
    assert (Ey0a : y0 (region a) = lat_min a) by reflexivity.
    assert (Ey0b : y0 (region b) = lat_min b) by reflexivity.
    generalize dependent (get_width a). generalize dependent (get_width b).
    generalize dependent (get_height a). generalize dependent (get_height b). intros.
    destruct Pa as [Pa1 Pa2], Pb as [Pb1 Pb2].
    generalize dependent (region a). generalize dependent (region b). intros rb. intros.
    rewrite <- Ex0a, <- Ex0b, <- Ey0a, <- Ey0b in *. clear Ex0a Ex0b Ey0a Ey0b.
    qsplit;
      first [ right; exists dNE; split; [reflexivity|cbn; repeat split; lra]
            | right; exists dE; split; [reflexivity|cbn; repeat split; lra]
            | right; exists dSE; split; [reflexivity|cbn; repeat split; lra]
            | right; exists dS; split; [reflexivity|cbn; repeat split; lra]
            | right; exists dSW; split; [reflexivity|cbn; repeat split; lra]
            | right; exists dW; split; [reflexivity|cbn; repeat split; lra]
            | right; exists dNW; split; [reflexivity|cbn; repeat split; lra]
            | right; exists dN; split; [reflexivity|cbn; repeat split; lra]
            | left; split; [reflexivity|intros d'; destruct d'; cbn; intro; lra] ]. }
  destruct X as (z & Ez & [[-> Hn] | (d' & -> & Hd')]); rewrite Ez; split.
  - intro E. symmetry in E. destruct (code_nonzero _ E).
  - intro H. destruct (Hn _ H).
  - intro E. apply code_inj in E. subst. exact Hd'.
  - intro H. f_equal. exact (lin_unique _ _ _ _ Pa Pb Hd' H).
Qed.

(** ** Frames *)
(** [a] is [v] moved by [off] and a number of full circles. *)
Definition unrolled (off : Q) (a v : boundary) : Prop :=
  (lat_min a == lat_min v /\ lat_max a == lat_max v) /\ (-180 < long_min a <= 180 /\ in_domain (long_max a)) /\
  exists k : Z, x0 (region a) == long_min v + off + inject_Z k * 360 /\
                x1 (region a) == long_max v + off + inject_Z k * 360.
Definition in_frame (W : Q) (v : boundary) : Prop := cell_ok false v /\ long_max v <= -180 + W.

Lemma unrolled_proper off W a v : in_frame W v -> unrolled off a v -> proper (region a).
Proof.
  intros [([R1 R2] & _) _] ((A1 & A2) & _ & k & K0 & K1). unfold proper. rewrite K0, K1.
  change (y0 (region a)) with (lat_min a). change (y1 (region a)) with (lat_max a). split; lra.
Qed.
Lemma frame_proper W v : in_frame W v -> proper (region v).
Proof. intros [(R & _) _]. apply regular_proper; auto. Qed.

Lemma frame_lin W off a b u v d : W < 360 -> in_frame W u -> in_frame W v -> unrolled off a u -> unrolled off b v ->
  (touches_mod d (region a) (region b) <-> lin d (region u) (region v)).
Proof.
  intros HW Fu Fv Ua Ub.
  pose proof (unrolled_proper off W a u Fu Ua) as Pa. pose proof (unrolled_proper off W b v Fv Ub) as Pb.
  pose proof (frame_proper W u Fu) as Pu. pose proof (frame_proper W v Fv) as Pv.
  destruct Fu as [(Ru & U1 & U2 & _) U3], Fv as [(Rv & V1 & V2 & _) V3].
  destruct Ua as ((A1 & A2) & _ & ka & KA0 & KA1). destruct Ub as ((B1 & B2) & _ & kb & KB0 & KB1).
  pose proof (regular_x1 u Ru) as Xu. pose proof (regular_x1 v Rv) as Xv.
  change (lat_min a) with (y0 (region a)) in *. change (lat_max a) with (y1 (region a)) in *.
  change (lat_min b) with (y0 (region b)) in *. change (lat_max b) with (y1 (region b)) in *.
  change (lat_min u) with (y0 (region u)) in *. change (lat_max u) with (y1 (region u)) in *.
  change (lat_min v) with (y0 (region v)) in *. change (lat_max v) with (y1 (region v)) in *.
  change (long_min u) with (x0 (region u)) in *. change (long_min v) with (x0 (region v)) in *.
  rewrite <- Xu, <- Xv in *. clear Xu Xv Ru Rv.
  generalize dependent (region a). intros ra. generalize dependent (region b). intros rb.
  generalize dependent (region u). intros ru. generalize dependent (region v). intros rv. intros.
  unfold touches_mod. split.
  - intros (k & T). apply touches_lin in T; [|auto|apply shift_proper; auto].
    assert (EM : inject_Z (kb + k - ka) == inject_Z kb + inject_Z k - inject_Z ka).
    { unfold Z.sub. rewrite !inject_Z_plus, inject_Z_opp. lra. }
    destruct (int_cases (kb + k - ka)) as [M|[M|M]].
    + exfalso. unfold proper in *. destruct d; cbn in T; lra.
    + rewrite M in EM. change (inject_Z 0) with 0 in EM. destruct d; cbn in T |- *; lra.
    + exfalso. unfold proper in *. destruct d; cbn in T; lra.
  - intros T. exists (ka + - kb)%Z. apply touches_lin; [auto|apply shift_proper; auto|].
    assert (EM : inject_Z (ka + - kb) == inject_Z ka - inject_Z kb) by (rewrite inject_Z_plus, inject_Z_opp; lra).
    destruct d; cbn in T |- *; lra.
Qed.

(** ** Splitting a cell *)
Definition qb (q : quad) (v : boundary) : boundary :=
  let mx := (long_min v + long_max v) * (1#2) in
  let my := (lat_min v + lat_max v) * (1#2) in
  match q with
  | qNW => mkB my (lat_max v) (long_min v) mx (time_range v)
  | qNE => mkB my (lat_max v) mx (long_max v) (time_range v)
  | qSW => mkB (lat_min v) my (long_min v) mx (time_range v)
  | qSE => mkB (lat_min v) my mx (long_max v) (time_range v)
  end.
Lemma qb_ok W q v : in_frame W v -> in_frame W (qb q v) /\ quarter q (region v) (region (qb q v)).
Proof.
  intros [([R1 R2] & V1 & V2 & _) V3].
  assert (X : forall la lb oa ob t, oa < ob -> x1 (region (mkB la lb oa ob t)) = ob).
  { intros. cbn. destruct (qltb_spec oa ob); auto. lra. }
  pose proof (regular_x1 v (conj R1 R2)) as X1. split.
  - unfold in_frame, cell_ok, regular. destruct q; cbn; repeat split; try lra; discriminate.
  - unfold quarter, xmid, ymid. destruct q; unfold qb; rewrite X, X1 by lra; cbn [x0 y0 y1 region lat_min lat_max long_min long_max]; repeat split; lra.
Qed.

Lemma domain_cases x : -180 < x < 540 ->
  (x <= 180 /\ longitude_domain x == x) \/ (180 < x /\ longitude_domain x == x - 360).
Proof.
  intros H. destruct (Qlt_le_dec 180 x) as [L|L].
  - right. split; auto. pose proof (domain_range x) as [D1 D2]. destruct (domain_same x) as (k & E).
    assert (inject_Z (k + 1) == inject_Z k + 1) by (rewrite inject_Z_plus; reflexivity).
    assert (K : (k + 1 = 0)%Z) by (apply int_zero; lra). rewrite K in H0. change (inject_Z 0) with 0 in H0. lra.
  - left. split; auto. apply domain_fix. unfold in_domain. lra.
Qed.

(** The region between two longitudes [x] and [y], each brought into the domain. *)
Lemma region_domain la lb x y x' y' t : -180 < x <= 180 \/ 180 < x < 540 -> x < y -> y - x < 360 -> y < 540 ->
  ((x <= 180 /\ x' == x) \/ (180 < x /\ x' == x - 360)) -> ((y <= 180 /\ y' == y) \/ (180 < y /\ y' == y - 360)) ->
  exists k : Z, x0 (region (mkB la lb x' y' t)) == x + inject_Z k * 360 /\ x1 (region (mkB la lb x' y' t)) == y + inject_Z k * 360.
Proof.
  intros Hx L W Hy [[X1 X2]|[X1 X2]] [[Y1 Y2]|[Y1 Y2]].
  - exists 0%Z. change (inject_Z 0) with 0. cbn. destruct (qltb_spec x' y'); lra.
  - exists 0%Z. change (inject_Z 0) with 0. cbn. destruct (qltb_spec x' y'); lra.
  - exfalso. lra.
  - exists (-1)%Z. change (inject_Z (-1)) with (-1). cbn. destruct (qltb_spec x' y'); lra.
Qed.

Lemma split_bounds_cross off W a v : W < 360 -> in_frame W v -> unrolled off a v -> times_ok (time_range a) ->
  exists ks, split_bounds a = Ok (map ks quads) /\
    forall q, unrolled off (ks q) (qb q v) /\ time_range (ks q) = time_range a.
Proof.
  intros HW [([R1 R2] & V1 & V2 & _) V3] ((A1 & A2) & A3 & k & K0 & K1) T.
  pose proof (width_region a) as Wa. change (x0 (region a)) with (long_min a) in *.
  assert (WW : get_width a == long_max v - long_min v) by lra.
  pose proof (half_lin (get_width a)) as HWa.
  assert (HH : get_height a == lat_max a - lat_min a) by (unfold get_height; lra).
  pose proof (half_lin (get_height a)) as HHa.
  unfold split_bounds. cbv zeta.
  destruct (domain_cases (long_min a + get_width a / 2)) as [DM|DM]; [lra| |];
  (destruct (domain_cases (long_min a + get_width a)) as [DE|DE]; [lra| |]);
  pose proof (domain_range (long_min a + get_width a / 2)) as RM; pose proof (domain_range (long_min a + get_width a)) as RE;
  unfold in_domain in RM, RE; try (exfalso; lra);
  generalize dependent (longitude_domain (long_min a + get_width a / 2)); intros xm DM RM;
  generalize dependent (longitude_domain (long_min a + get_width a)); intros xe DE RE;
  generalize dependent (get_width a / 2); intros hw HWa DM;
  generalize dependent (get_height a / 2); intros hh HHa;
  (rewrite !Boundary_ok by (auto; lra)); cbn [bind];
  (exists (fun q => match q with
     | qNW => mkB (lat_min a + hh) (lat_min a + get_height a) (long_min a) xm (time_range a)
     | qNE => mkB (lat_min a + hh) (lat_min a + get_height a) xm xe (time_range a)
     | qSW => mkB (lat_min a) (lat_min a + hh) (long_min a) xm (time_range a)
     | qSE => mkB (lat_min a) (lat_min a + hh) xm xe (time_range a) end));
  (split; [reflexivity|]);
  (assert (WX : forall la lb t, exists j : Z, x0 (region (mkB la lb (long_min a) xm t)) == long_min a + inject_Z j * 360 /\ x1 (region (mkB la lb (long_min a) xm t)) == long_min a + hw + inject_Z j * 360)
    by (intros; apply region_domain; first [lra | (left; lra) | (right; lra)]));
  (assert (EX : forall la lb t, exists j : Z, x0 (region (mkB la lb xm xe t)) == long_min a + hw + inject_Z j * 360 /\ x1 (region (mkB la lb xm xe t)) == long_min a + get_width a + inject_Z j * 360)
    by (intros; apply region_domain; first [lra | (left; lra) | (right; lra)]));
  (intros q; split; [|destruct q; reflexivity]);
  (destruct q; (split; [cbn [qb lat_min lat_max]; split; lra|]); (split; [unfold in_domain; cbn [long_min long_max]; lra|]);
   [ destruct (WX (lat_min a + hh) (lat_min a + get_height a) (time_range a)) as (j & J0 & J1)
   | destruct (EX (lat_min a + hh) (lat_min a + get_height a) (time_range a)) as (j & J0 & J1)
   | destruct (WX (lat_min a) (lat_min a + hh) (time_range a)) as (j & J0 & J1)
   | destruct (EX (lat_min a) (lat_min a + hh) (time_range a)) as (j & J0 & J1)];
   exists (k + j)%Z; rewrite J0, J1, inject_Z_plus; cbn [qb long_min long_max]; split; lra).
Qed.
