(** Property theorems C81: the size of a boundary. *)
From Verif Require Import Base Geo GreatCircle GreatCircleSpec.
From Coq Require Import Reals Qreals Lra Psatz.
Open Scope R_scope.

Definition havers (lat1 lon1 lat2 lon2 : R) : R := (sin ((lat2 - lat1) / 2)) ^ 2 + cos lat1 * cos lat2 * (sin ((lon2 - lon1) / 2)) ^ 2.
Lemma half_sin x : (sin (x / 2)) ^ 2 = (1 - cos x) / 2.
Proof. replace (cos x) with (cos (2 * (x / 2))) by (f_equal; lra). rewrite cos_2a_sin. lra. Qed.
Lemma havers_dot lat1 lon1 lat2 lon2 : 1 - 2 * havers lat1 lon1 lat2 lon2 =
  dot (cos lat1 * cos lon1, cos lat1 * sin lon1, sin lat1) (cos lat2 * cos lon2, cos lat2 * sin lon2, sin lat2).
Proof. unfold havers, dot. rewrite !half_sin, !cos_minus. lra. Qed.
Lemma dot_bound p l q m : -1 <= dot (cos p * cos l, cos p * sin l, sin p) (cos q * cos m, cos q * sin m, sin q) <= 1.
Proof.
  assert (E : dot (cos p * cos l, cos p * sin l, sin p) (cos q * cos m, cos q * sin m, sin q) = cos p * cos q * cos (l - m) + sin p * sin q).
  { unfold dot. rewrite cos_minus. lra. }
  rewrite E. pose proof (COS_bound (l - m)) as (B1 & B2). pose proof (COS_bound (p - q)) as (C1 & C2). pose proof (COS_bound (p + q)) as (D1 & D2).
  rewrite cos_minus in C1, C2. rewrite cos_plus in D1, D2. set (k := cos p * cos q) in *. set (s := sin p * sin q) in *. set (c := cos (l - m)) in *.
  destruct (Rle_dec 0 k) as [K|K].
  - assert (- k <= k * c <= k) by nra. lra.
  - assert (k <= k * c <= - k) by nra. lra.
Qed.
Lemma havers_bound lat1 lon1 lat2 lon2 : 0 <= havers lat1 lon1 lat2 lon2 <= 1.
Proof. pose proof (havers_dot lat1 lon1 lat2 lon2) as E. pose proof (dot_bound lat1 lon1 lat2 lon2) as B. rewrite <- E in B. lra. Qed.
Lemma asin_nonneg x : 0 <= x <= 1 -> 0 <= asin x <= PI / 2.
Proof.
  intros B. pose proof (asin_bound x) as (A1 & A2). split; [|lra]. destruct (Rle_dec 0 (asin x)) as [H|H]; [exact H|]. exfalso.
  assert (S : sin (asin x) < 0).
  { assert (P := PI_RGT_0). rewrite <- (Ropp_involutive (asin x)), sin_neg. assert (0 < sin (- asin x)) by (apply sin_gt_0; lra). lra. }
  rewrite sin_asin in S by lra. lra.
Qed.
Lemma angle a : 0 <= a <= 1 -> 0 <= 2 * asin (sqrt a) <= PI /\ cos (2 * asin (sqrt a)) = 1 - 2 * a.
Proof.
  intros B. assert (S : 0 <= sqrt a <= 1).
  { split; [apply sqrt_pos|]. rewrite <- sqrt_1. apply sqrt_le_1_alt. lra. }
  pose proof (asin_nonneg _ S). split; [lra|]. rewrite cos_2a_sin, sin_asin by lra. rewrite Rmult_assoc, sqrt_sqrt by lra. reflexivity.
Qed.

Lemma zero3 a b c : a * a + b * b + c * c = 0 -> a = 0.
Proof.
  intros H. pose proof (Rle_0_sqr a). pose proof (Rle_0_sqr b). pose proof (Rle_0_sqr c). unfold Rsqr in *.
  assert (E : a * a = 0) by lra. apply Rmult_integral in E. tauto.
Qed.

(** C81.  The size of a boundary is the length of the shortest way between its south-west
    and north-east corners, divided by the square root of two; whether or not it crosses
    the antimeridian. *)
Theorem C81_great_circle : forall b, exists d, great_circle (Q2R (lat_min b)) (Q2R (long_min b)) (Q2R (lat_max b)) (Q2R (long_max b)) d /\ calc_size b = d / sqrt 2.
Proof.
  intros b. unfold calc_size. fold (havers (radians (Q2R (lat_min b))) (radians (Q2R (long_min b))) (radians (Q2R (lat_max b))) (radians (Q2R (long_max b)))).
  set (a := havers _ _ _ _). destruct (angle a (havers_bound _ _ _ _)) as (A & C).
  exists (6371000 * (2 * asin (sqrt a))). split; [|f_equal; lra]. exists (2 * asin (sqrt a)). split; [exact A|]. split; [|reflexivity].
  rewrite C. apply havers_dot.
Qed.
Print Assumptions C81_great_circle.
(** There is exactly one such length, it is not negative, at most half the way round, and
    0 only between places of one direction. *)
Theorem C81_length : forall lat1 long1 lat2 long2 d, great_circle lat1 long1 lat2 long2 d ->
  0 <= d <= 6371000 * PI /\ great_circle lat2 long2 lat1 long1 d /\ (forall d', great_circle lat1 long1 lat2 long2 d' -> d' = d) /\
  (d = 0 <-> direction_of lat1 long1 = direction_of lat2 long2).
Proof.
  intros lat1 long1 lat2 long2 d (t & T & C & ->). assert (P := PI_RGT_0). split; [split; nra|]. split.
  - exists t. split; [exact T|]. split; [|reflexivity]. rewrite C. unfold dot, direction_of. lra.
  - split.
    + intros d' (s & S & C' & ->). f_equal. apply cos_inj; [lra|lra|congruence].
    + unfold direction_of, dot in *. set (p := lat1 * PI / 180) in *. set (l := long1 * PI / 180) in *. set (q := lat2 * PI / 180) in *. set (m := long2 * PI / 180) in *.
      pose proof (sin2_cos2 p) as Hp. pose proof (sin2_cos2 l) as Hl. pose proof (sin2_cos2 q) as Hq. pose proof (sin2_cos2 m) as Hm. unfold Rsqr in *. split.
      * intros E. assert (t = 0) by lra. subst t. rewrite cos_0 in C.
        set (x := cos p * cos l) in *. set (y := cos p * sin l) in *. set (z := sin p) in *. set (u := cos q * cos m) in *. set (v := cos q * sin m) in *. set (w := sin q) in *.
        assert (X : x * x + y * y + z * z = 1) by (unfold x, y; nra). assert (U : u * u + v * v + w * w = 1) by (unfold u, v; nra).
        assert ((x - u) * (x - u) + (y - v) * (y - v) + (z - w) * (z - w) = 0) by nra.
        assert (x - u = 0) by (eapply zero3; eassumption). assert (y - v = 0) by (apply (zero3 _ (x - u) (z - w)); lra).
        assert (z - w = 0) by (apply (zero3 _ (x - u) (y - v)); lra). f_equal; [f_equal|]; lra.
      * intros E. injection E as E1 E2 E3. rewrite <- E1, <- E2, <- E3 in C. assert (cos t = 1) by (rewrite C; nra).
        assert (t = 0) by (apply cos_inj; [lra|lra|rewrite cos_0; assumption]). subst t. lra.
Qed.
Print Assumptions C81_length.
(** C81.  A band around the whole globe has the size of its height alone. *)
Theorem C81_band_refuted : forall s n, calc_size (mkB s n (-180) 180 []) = calc_size (mkB s n 0 0 []).
Proof.
  intros s n. unfold calc_size. cbn [lat_min lat_max long_min long_max].
  assert (E1 : radians (Q2R 180) - radians (Q2R (-180)) = 2 * PI) by (unfold radians, Q2R; cbn; field).
  assert (E2 : radians (Q2R 0) - radians (Q2R 0) = 0) by ring.
  rewrite E1, E2. replace (2 * PI / 2) with PI by field. replace (0 / 2) with 0 by field. rewrite sin_PI, sin_0. reflexivity.
Qed.
Print Assumptions C81_band_refuted.
(** A quarter of the equator: 10007.5 km, over the square root of two. *)
Example C81_case : calc_size (mkB 0 0 0 90 []) = 6371000 * (PI / 2) / sqrt 2.
Proof.
  unfold calc_size. cbn [lat_min lat_max long_min long_max].
  assert (L0 : radians (Q2R 0) = 0) by (unfold radians, Q2R; cbn; field). assert (L1 : radians (Q2R 90) = PI / 2) by (unfold radians, Q2R; cbn; field). rewrite L0, L1.
  replace ((0 - 0) / 2) with 0 by field. replace ((PI / 2 - 0) / 2) with (PI / 4) by field. rewrite sin_0, cos_0.
  replace (0 ^ 2 + 1 * 1 * sin (PI / 4) ^ 2) with (sin (PI / 4) * sin (PI / 4)) by ring.
  assert (P := PI_RGT_0). rewrite sqrt_square by (left; apply sin_gt_0; lra). rewrite asin_sin by lra. field. apply Rgt_not_eq, sqrt_lt_R0. lra.
Qed.
