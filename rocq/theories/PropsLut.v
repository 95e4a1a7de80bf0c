(** Property theorems C46 and C56-C58: lookup tables.  Statements only. *)
From Coq Require Import Permutation Sorted.
From Verif Require Import Base QLib Geo Cell Loaders Spec Dates DateSpec CalProofs Lut LutSpec LutProofs.
Open Scope Z_scope.

(** A geometry for the concrete cases: lists of separate rectangles. *)
Definition box_meet (a b : box) : list box :=
  let m := Box (qmax2 (x0 a) (x0 b)) (qmin2 (x1 a) (x1 b)) (qmax2 (y0 a) (y0 b)) (qmin2 (y1 a) (y1 b)) in
  if qltb (x0 m) (x1 m) && qltb (y0 m) (y1 m) then [m] else [].
Definition rects_meet (a b : list box) : list box := flat_map (fun x => flat_map (box_meet x) b) a.
Definition boxes_touch (a b : box) : bool :=
  qleb (x0 a) (x1 b) && qleb (x0 b) (x1 a) && qleb (y0 a) (y1 b) && qleb (y0 b) (y1 a).
Definition rects_area (l : list box) : Q := qsum (map area l).
Lemma box_eq_dec : forall a b : list box, {a = b} + {a <> b}.
Proof. repeat decide equality. Defined.
Definition rects : geometry := {|
  geom := list box;
  g_shape s := match s with
               | Rect b => [region b]
               | NorthWithout b => [Box (-180) 180 0 (lat_min b); Box (-180) 180 (lat_max b) 90;
                                    Box (-180) (long_min b) (lat_min b) (lat_max b); Box (long_max b) 180 (lat_min b) (lat_max b)]
               end;
  g_inter := rects_meet;
  g_kind l := match l with [] => KPolygon | [_] => KPolygon | _ => KMulti end;
  g_empty l := match l with [] => true | _ => false end;
  g_eq := box_eq_dec;
  g_parts := map (fun b => [b]);
  g_intersects a b := existsb (fun x => existsb (boxes_touch x) b) a;
  g_covered l g := (rects_area (rects_meet (List.concat l) g) / rects_area g)%Q |}.

(** Two parts of the Antarctic, from 29 February to 1 March 2020. *)
Definition lx_times : list Z := [ymd2ord 2020 2 29; ymd2ord 2020 3 1].
Definition lx_bounds : boundary := mkB (-70) (-60) 10 30 lx_times.
Definition lx_start : Z * Z * Z := (2020, 2, 29).
Lemma lx_day : days_after 1 lx_start (2020, 3, 1).
Proof.
  econstructor; [|constructor]. apply (nd_month 2020 2 29); [|lia]. apply ml_29. split; [exists 505; reflexivity|].
  left. intros (z & Z). lia.
Qed.
Lemma lx_calendar : calendar_date lx_start.
Proof.
  exists 29. split; [|lia]. apply ml_29. split; [exists 505; reflexivity|]. left. intros (z & Z). lia.
Qed.
Lemma lx_days : days_are lx_bounds lx_start 1.
Proof.
  exists (2020, 3, 1). split; [exact lx_calendar|]. split; [exact lx_day|]. split; [reflexivity|]. vm_compute. split; discriminate.
Qed.

(** C46.  The regions of the thickness table cover the globe, every point once. *)
Theorem C46_regions : forall x y, (-180 < x <= 180)%Q -> (-90 < y <= 90)%Q ->
  exists i r, nth_error regions i = Some r /\ in_shape (rg_shape r) x y /\
    forall j r', nth_error regions j = Some r' -> in_shape (rg_shape r') x y -> j = i.
Proof. exact regions_once. Qed.
Print Assumptions C46_regions.
(** The density table holds, for every day of the range and each hemisphere that
    meets the region, the value of the season of the day's month, once. *)
Theorem C46_density : forall o b a n, days_are b a n ->
  exists rows, density_data o b = Ok rows /\ table_is rows (density_wanted o b a n) /\
    StronglySorted (fun r r' => r_time r <= r_time r') rows /\
    (apart o b [half_globe true; half_globe false] -> one_each rows).
Proof. exact density_table. Qed.
Print Assumptions C46_density.
Example C46_density_case : days_are lx_bounds lx_start 1 /\ apart rects lx_bounds [half_globe true; half_globe false] /\
  density_data rects lx_bounds = Ok [mkRow (ymd2ord 2020 2 29) [Box 10 30 (-70) (-60)] 875%Q; mkRow (ymd2ord 2020 3 1) [Box 10 30 (-70) (-60)] 900%Q].
Proof.
  split; [exact lx_days|]. split; [|vm_compute; reflexivity].
  intros i j s s' Ei Ej. destruct i as [|[|[|]]], j as [|[|[|]]]; try discriminate; try reflexivity; injection Ei as <-; injection Ej as <-; vm_compute; discriminate.
Qed.
(** The thickness table is right as long as all the days are in one season. *)
Theorem C46_thickness_partial : forall o b a n, days_are b a n -> (exists r, In r regions /\ usable o (part o (rg_shape r) b) = true) ->
  one_season a n ->
  exists rows, thickness_data o b = Ok rows /\ table_is rows (thickness_wanted true o b a n) /\
    StronglySorted (fun r r' => r_time r <= r_time r') rows /\
    (apart o b (map rg_shape regions) -> one_each rows).
Proof.
  intros o b a n D U OS. destruct (thickness_table o b a n D U) as (rows & E & [T1 T2] & S & O). exists rows. split; [exact E|].
  destruct D as (e & C & _). split; [|split; [exact S|intros A; exact (O A OS)]]. split.
  - intros r I. apply (wanted_right o b a n); [exact C|exact OS|apply T1, I].
  - intros t g v W. apply T2. apply (wanted_right o b a n); [exact C|exact OS|exact W].
Qed.
Print Assumptions C46_thickness_partial.
Definition lx_single : boundary := mkB (-70) (-60) 10 30 [ymd2ord 2020 2 29; ymd2ord 2020 2 29].
Example C46_thickness_case : days_are lx_single lx_start 0 /\ one_season lx_start 0 /\
  (exists r, In r regions /\ usable rects (part rects (rg_shape r) lx_single) = true) /\
  thickness_data rects lx_single = Ok [mkRow (ymd2ord 2020 2 29) [Box 10 20 (-70) (-60)] (87#100); mkRow (ymd2ord 2020 2 29) [Box 20 30 (-70) (-60)] (105#100)].
Proof.
  split; [|split; [|split]].
  - exists lx_start. split; [exact lx_calendar|]. split; [constructor|]. split; [reflexivity|]. vm_compute. split; discriminate.
  - intros north k y m d k' y' m' d' s [K D] [K' D'] S. assert (k = 0%nat) as -> by lia. assert (k' = 0%nat) as -> by lia.
    inversion D; subst. inversion D'; subst. exact S.
  - exists (nth 4 regions (mkReg "" (Rect lx_single) densities [])). split; [right; right; right; right; left; reflexivity|]. vm_compute. reflexivity.
  - vm_compute. reflexivity.
Qed.
(** In general it holds for every day the values of all the seasons of the range. *)
Theorem C46_thickness_all : forall o b a n, days_are b a n -> (exists r, In r regions /\ usable o (part o (rg_shape r) b) = true) ->
  exists rows, thickness_data o b = Ok rows /\ table_is rows (thickness_wanted false o b a n).
Proof. intros o b a n D U. destruct (thickness_table o b a n D U) as (rows & E & T & _). exists rows. split; assumption. Qed.
Print Assumptions C46_thickness_all.
(** So whenever a region's values differ between two days of the range, the table
    holds a wrong value for the first of them. *)
Theorem C46_refuted : forall o b a n r k k' y m d y' m' d' s s', days_are b a n -> In r regions -> usable o (part o (rg_shape r) b) = true ->
  day_of a n k y m d -> day_of a n k' y' m' d' -> is_season (northern (rg_shape r)) m s -> is_season (northern (rg_shape r)) m' s' ->
  ~ (rg_values r s == rg_values r s')%Q ->
  exists rows x, thickness_data o b = Ok rows /\ In x rows /\ r_time x = ord_of a + Z.of_nat k /\ r_geom x = part o (rg_shape r) b /\
    ~ (r_val x == rg_values r s)%Q.
Proof.
  intros o b a n r k k' y m d y' m' d' s s' D Ir U Dk Dk' S S' N. destruct (C46_thickness_all o b a n D (ex_intro _ r (conj Ir U))) as (rows & E & _ & T).
  destruct (T (ord_of a + Z.of_nat k) (part o (rg_shape r) b) (rg_values r s')) as (x & I & E1 & E2 & E3).
  { exists r, k, k', y', m', d', s'. split; [exact Ir|]. split; [apply Dk|]. split; [discriminate|]. split; [exact Dk'|]. repeat (split; [first [reflexivity|assumption]|]). reflexivity. }
  exists rows, x. split; [exact E|]. split; [exact I|]. split; [exact E1|]. split; [exact E2|]. rewrite E3. intros X. apply N. symmetry. exact X.
Qed.
Print Assumptions C46_refuted.
Example C46_refuted_case : exists r, In r regions /\ usable rects (part rects (rg_shape r) lx_bounds) = true /\
  day_of lx_start 1 0 2020 2 29 /\ day_of lx_start 1 1 2020 3 1 /\ is_season (northern (rg_shape r)) 2 Su /\ is_season (northern (rg_shape r)) 3 Au /\
  ~ (rg_values r Su == rg_values r Au)%Q.
Proof.
  exists (nth 4 regions (mkReg "" (Rect lx_single) densities [])). split; [right; right; right; right; left; reflexivity|].
  split; [vm_compute; reflexivity|]. split; [split; [lia|constructor]|]. split; [split; [lia|exact lx_day]|].
  split; [vm_compute; tauto|]. split; [vm_compute; tauto|]. vm_compute. discriminate.
Qed.

(** C56.  verify_data unpacks each row into its polygons if no two rows have the
    same index. *)
Theorem C56_partial : forall o rows, rows <> [] -> NoDup (map r_time rows) -> (forall r, In r rows -> g_kind o (r_geom r) <> KOther) ->
  verify_data o rows = Ok (unpacked o rows).
Proof. exact verify_distinct. Qed.
Print Assumptions C56_partial.
Example C56_case : let rows := [mkRow 0 [Box 0 1 0 1] 5%Q; mkRow 1 [Box 1 2 0 1; Box 3 4 0 1] 7%Q] in
  NoDup (map r_time rows) /\ (forall r, In r rows -> g_kind rects (r_geom r) <> KOther) /\
  verify_data rects rows = Ok [([Box 0 1 0 1], 5); ([Box 1 2 0 1], 7); ([Box 3 4 0 1], 7)]%Q.
Proof. split; [repeat constructor; cbn; intuition discriminate|]. split; [intros r [<-|[<-|[]]]; discriminate|reflexivity]. Qed.
(** A table with several polygons for a day comes out with each of them as often as
    the day has rows, and the day is no longer known. *)
Theorem C56_repeats_refuted : forall o rows, rows <> [] -> (forall r, In r rows -> g_kind o (r_geom r) = KPolygon) ->
  verify_data o rows = Ok (map (fun r => (r_geom r, r_val r)) (flat_map (fun r => filter (fun x => r_time x =? r_time r) rows) rows)).
Proof. exact verify_repeats. Qed.
Print Assumptions C56_repeats_refuted.
Example C56_repeats_case : exists rows, density_data rects (mkB (-5) 5 0 1 [ymd2ord 2020 2 29; ymd2ord 2020 2 29]) = Ok rows /\
  List.length rows = 2%nat /\ (exists d, verify_data rects rows = Ok d /\ List.length d = 4%nat) /\ (forall r, In r rows -> g_kind rects (r_geom r) = KPolygon).
Proof.
  eexists. split; [vm_compute; reflexivity|]. split; [reflexivity|]. split; [eexists; split; vm_compute; reflexivity|].
  intros r [<-|[<-|[]]]; reflexivity.
Qed.
(** ... and it is rejected when one of them is a MultiPolygon. *)
Theorem C56_multi_refuted : forall o rows r, In r rows -> g_kind o (r_geom r) = KMulti -> g_parts o (r_geom r) <> [] ->
  (2 <= List.length (filter (fun x => (r_time x =? r_time r)%Z) rows))%nat -> verify_data o rows = Err ValueError.
Proof. exact verify_multi_fails. Qed.
Print Assumptions C56_multi_refuted.
Example C56_multi_case : let rows := [mkRow 0 [Box 0 1 0 1] 5%Q; mkRow 0 [Box 1 2 0 1; Box 3 4 0 1] 7%Q] in
  exists r, In r rows /\ g_kind rects (r_geom r) = KMulti /\ g_parts rects (r_geom r) <> [] /\ (2 <= List.length (filter (fun x => (r_time x =? r_time r)%Z) rows))%nat.
Proof. eexists. split; [right; left; reflexivity|]. split; [reflexivity|]. split; [discriminate|cbn; lia]. Qed.

(** C57.  MIN, MAX and COUNT of a lookup table are those of the polygons meeting
    the cell; without any the value is NaN. *)
Theorem C57_extremes : forall o b d p0, meeting o b d p0 ->
  (exists v, lut_value o "MIN" b d = Ok (LNum (Some v)) /\ (exists p, meeting o b d p /\ snd p = v) /\ forall p, meeting o b d p -> (v <= snd p)%Q) /\
  (exists v, lut_value o "MAX" b d = Ok (LNum (Some v)) /\ (exists p, meeting o b d p /\ snd p = v) /\ forall p, meeting o b d p -> (snd p <= v)%Q).
Proof. exact lut_extremes. Qed.
Print Assumptions C57_extremes.
Definition lx_cell : boundary := mkB 0 1 0 4 [].
Definition lx_table : list (list box * Q) := [([Box 0 3 0 1], 0); ([Box 3 4 0 1], 1); ([Box 4 5 0 1], 9); ([Box 7 8 0 1], 20)]%Q.
Example C57_extremes_case : meeting rects lx_cell lx_table ([Box 4 5 0 1], 9%Q) /\ ~ meeting rects lx_cell lx_table ([Box 7 8 0 1], 20%Q) /\
  lut_value rects "MAX" lx_cell lx_table = Ok (LNum (Some 9%Q)) /\ lut_value rects "COUNT" lx_cell lx_table = Ok (LCount 3).
Proof.
  split; [split; [right; right; left; reflexivity|reflexivity]|]. split; [intros [_ H]; discriminate|]. split; reflexivity.
Qed.
Theorem C57_none : forall o agg b d, (forall p, ~ meeting o b d p) -> agg <> "COUNT"%string -> lut_value o agg b d = Ok (LNum None).
Proof.
  intros o agg b d H N. unfold lut_value. destruct (String.eqb agg "COUNT") eqn:E; [apply String.eqb_eq in E; contradiction|].
  destruct (lut_trim o b d) as [|p ps] eqn:T; [reflexivity|]. exfalso. apply (H p), in_trim. rewrite T. left. reflexivity.
Qed.
Print Assumptions C57_none.
(** MEAN is the plain mean of the polygons meeting the cell, an error if they only
    touch it. *)
Theorem C57_mean : forall o b d, lut_trim o b d <> [] ->
  let ps := lut_trim o b d in let w := lut_coverage o b (map fst ps) in
  ((w == 0)%Q -> lut_value o "MEAN" b d = Err ZeroDivisionError) /\
  (~ (w == 0)%Q -> exists v, lut_value o "MEAN" b d = Ok (LNum (Some v)) /\ (v * inject_Z (Z.of_nat (List.length ps)) == qsum (map snd ps))%Q).
Proof. exact mean_unweighted. Qed.
Print Assumptions C57_mean.
(** It is the mean weighted with the areas if all the areas are equal, *)
Theorem C57_mean_partial : forall o b d w, lut_trim o b d <> [] -> ~ (lut_coverage o b (map fst (lut_trim o b d)) == 0)%Q ->
  (forall p, meeting o b d p -> (weight o b (fst p) == w)%Q) ->
  exists v, lut_value o "MEAN" b d = Ok (LNum (Some v)) /\ weighted_mean o b (lut_trim o b d) v.
Proof.
  intros o b d w N C H. destruct (proj2 (mean_unweighted o b d N) C) as (v & E & V). exists v. split; [exact E|]. unfold weighted_mean.
  assert (forall p, In p (lut_trim o b d) -> (weight o b (fst p) == w)%Q) as H' by (intros p I; apply H, in_trim, I).
  set (ps := lut_trim o b d) in *. clearbody ps.
  assert (fold_right Qplus 0 (map (fun p => weight o b (fst p)) ps) == w * inject_Z (Z.of_nat (List.length ps)) /\
          fold_right Qplus 0 (map (fun p => weight o b (fst p) * snd p) ps) == w * qsum (map snd ps))%Q as [A B].
  { clear N C V E H. induction ps as [|p ps IH]; [cbn; split; ring|]. destruct IH as [A B]; [intros q I; apply H'; right; exact I|].
    unfold qsum in *. cbn [map fold_right List.length]. rewrite A, B, (H' p (or_introl eq_refl)), Nat2Z.inj_succ, <- Z.add_1_r, inject_Z_plus.
    change (inject_Z 1) with 1%Q. split; ring. }
  rewrite A, B, <- V. ring.
Qed.
Print Assumptions C57_mean_partial.
(** ... and not otherwise: a cell three quarters of which have value 0 and one
    quarter 1, touched by a polygon of value 9, gets 10/3. *)
Theorem C57_mean_refuted : exists o b d v, lut_value o "MEAN" b d = Ok (LNum (Some v)) /\ (v == 10#3)%Q /\
  (exists u, weighted_mean o b (lut_trim o b d) u /\ (u == 1#4)%Q) /\ ~ weighted_mean o b (lut_trim o b d) v.
Proof.
  exists rects, lx_cell, lx_table. eexists. split; [vm_compute; reflexivity|]. split; [reflexivity|].
  split; [exists (1#4)%Q; split; [vm_compute; reflexivity|reflexivity]|]. vm_compute. discriminate.
Qed.
Print Assumptions C57_mean_refuted.
Theorem C57_touching_refuted : exists o b d p, meeting o b d p /\ lut_value o "MEAN" b d = Err ZeroDivisionError.
Proof.
  exists rects, lx_cell, [([Box 4 5 0 1], 9%Q)], ([Box 4 5 0 1], 9%Q). split; [split; [left; reflexivity|reflexivity]|vm_compute; reflexivity].
Qed.
Print Assumptions C57_touching_refuted.
(** MEDIAN returns a row of the table, never a number. *)
Theorem C57_median_refuted : forall o b d p0, meeting o b d p0 -> (0 <= lut_coverage o b (map fst (lut_trim o b d)))%Q ->
  exists r, lut_value o "MEDIAN" b d = Ok (LRow r) /\ meeting o b d r.
Proof. exact median_row. Qed.
Print Assumptions C57_median_refuted.
Example C57_median_case : meeting rects lx_cell lx_table ([Box 4 5 0 1], 9%Q) /\ (0 <= lut_coverage rects lx_cell (map fst (lut_trim rects lx_cell lx_table)))%Q.
Proof. split; [split; [right; right; left; reflexivity|reflexivity]|]. vm_compute. discriminate. Qed.
(** The cell's times make no difference. *)
Theorem C57_times_refuted : forall o agg b b' d, g_shape o (Rect b) = g_shape o (Rect b') -> lut_value o agg b d = lut_value o agg b' d.
Proof. intros o agg b b' d E. unfold lut_value, lut_trim, lut_coverage. rewrite E. reflexivity. Qed.
Print Assumptions C57_times_refuted.
Example C57_times_case : g_shape rects (Rect (mkB 0 1 0 4 [1; 2])) = g_shape rects (Rect (mkB 0 1 0 4 [5; 9])). Proof. reflexivity. Qed.

(** C58.  Homogeneity of lookup tables: HET exactly when splitting at boundaries is
    asked for and the edge of a polygon meeting the cell goes through it, HOM
    exactly when no polygon meets the cell and splitting is locked; never MIN. *)
Theorem C58_hom : forall o edge b lock at_b d,
  (lut_hom o edge b lock at_b d = HET <-> at_b = true /\ exists p, meeting o b d p /\ edge (fst p) (g_shape o (Rect b)) = true) /\
  (lut_hom o edge b lock at_b d = HOM <-> lock = true /\ ~ exists p, meeting o b d p) /\
  lut_hom o edge b lock at_b d <> MIN.
Proof. exact hom_answers. Qed.
Print Assumptions C58_hom.
(** The documentation promises MIN when there is no data. *)
Theorem C58_refuted : forall o edge b lock at_b d, (forall p, ~ meeting o b d p) -> lut_hom o edge b lock at_b d = (if lock then HOM else CLR).
Proof.
  intros o edge b lock at_b d H. unfold lut_hom. destruct (lut_trim o b d) as [|p ps] eqn:T; [reflexivity|].
  exfalso. apply (H p), in_trim. rewrite T. left. reflexivity.
Qed.
Print Assumptions C58_refuted.
