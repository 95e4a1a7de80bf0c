(** Property theorems C35-C38: longitudes and boundaries.  Statements only; every
    proof is a lemma of another file. *)
From Coq Require Import DecimalString Decimal.
From Verif Require Import Base Geo Graph Cell Builder Env PyStr Wkt Spec MeshSpec EnvSpec GlobeSpec QLib GlobeProofs StrLib WktProofs.
Open Scope Q_scope.

(** C35.  [longitude_domain] gives the same meridian within [-180, 180], leaves
    longitudes that are already there alone, and hence is idempotent. *)
Theorem C35_longitude_domain : forall a,
  in_domain (longitude_domain a) /\ same_meridian (longitude_domain a) a /\
  (in_domain a -> longitude_domain a == a) /\
  longitude_domain (longitude_domain a) == longitude_domain a.
Proof.
  intros a. split; [apply domain_range|]. split; [apply domain_same|]. split; [apply domain_fix|].
  apply domain_fix, domain_range.
Qed.
Print Assumptions C35_longitude_domain.
(** [longitude_distance] is the length of the shorter arc, so it is a metric on
    meridians with values in [0, 180]. *)
Theorem C35_longitude_distance : forall a b,
  shorter_arc a b (longitude_distance a b) /\
  0 <= longitude_distance a b <= 180 /\
  longitude_distance a b == longitude_distance b a /\
  (longitude_distance a b == 0 <-> same_meridian a b) /\
  (forall c, longitude_distance a c <= longitude_distance a b + longitude_distance b c) /\
  (forall a' b', same_meridian a a' -> same_meridian b b' -> longitude_distance a b == longitude_distance a' b').
Proof.
  intros a b. split; [apply distance_shorter_arc|]. split; [apply distance_range|]. split; [apply distance_sym|].
  split; [apply distance_zero|]. split; [apply distance_triangle|]. apply distance_periodic.
Qed.
Print Assumptions C35_longitude_distance.
Example C35_case :
  longitude_domain 540 == -180 /\ longitude_domain 190 == -170 /\ longitude_domain 180 == 180 /\
  longitude_distance 170 (-170) == 20 /\ longitude_distance 180 (-180) == 0 /\ longitude_distance (-725) 100 == 105.
Proof. repeat split; vm_compute; reflexivity. Qed.

(** C36.  Measures of every boundary whose longitudes lie in the domain, except the
    empty range [180, -180]. *)
Theorem C36_measures : forall b, meaningful b ->
  get_width b == x1 (region b) - x0 (region b) /\ get_height b == y1 (region b) - y0 (region b) /\
  0 < get_width b <= 360 /\
  in_domain (getcx b) /\ within_globe (region b) (getcx b) (getcy b).
Proof.
  intros b M. split; [apply width_region|]. split; [apply height_region|]. split; [apply width_bounds; auto|].
  apply centre_inside; auto.
Qed.
Print Assumptions C36_measures.
(** [split] gives four equal parts of the boundary exactly when the middle meridian
    is not beyond +180, in particular whenever the boundary does not cross the
    antimeridian. *)
Theorem C36_split_partial : forall b, meaningful b -> times_ok (time_range b) ->
  (long_min b + get_width b / 2 <= 180 -> exists l, boundary_split b = Ok l /\ quartered b l) /\
  (180 < long_min b + get_width b / 2 -> boundary_split b = Err ValueError) /\
  (long_min b < long_max b -> long_min b + get_width b / 2 <= 180).
Proof.
  intros b M T. split; [apply split_quarters; auto|]. split; [apply split_fails; auto|].
  intros L. destruct M as (_ & A & B & _). unfold in_domain in *. pose proof (Invariant.half_lin (get_width b)) as H.
  assert (get_width b == long_max b - long_min b) by (unfold get_width; qsplit; reflexivity). lra.
Qed.
Print Assumptions C36_split_partial.
Definition C36_crossing : boundary := mkB 0 10 170 (-178) [3; 9]%Z.
Example C36_case : meaningful C36_crossing /\ times_ok (time_range C36_crossing) /\
  long_min C36_crossing + get_width C36_crossing / 2 <= 180.
Proof.
  split; [|split].
  - unfold meaningful, in_domain. cbn. repeat split; try lra; intros []; lra.
  - right. exists 3%Z, 9%Z. split; [reflexivity|lia].
  - vm_compute. discriminate.
Qed.
(** False for other crossing boundaries (the full statement of C36 fails). *)
Theorem C36_split_refuted : exists b, meaningful b /\ times_ok (time_range b) /\ boundary_split b = Err ValueError.
Proof.
  exists (mkB 0 10 175 (-165) []). split; [|split].
  - unfold meaningful, in_domain. cbn. repeat split; try lra; intros []; lra.
  - left; reflexivity.
  - vm_compute. reflexivity.
Qed.
Print Assumptions C36_split_refuted.
(** The constructor also accepts boundaries of zero and of negative width. *)
Theorem C36_width_refuted :
  (exists b, Boundary [0; 1] [180; -180] [] = Ok b /\ get_width b == 0) /\
  (exists b, Boundary [0; 1] [600; 0] [] = Ok b /\ get_width b < 0).
Proof. split; eexists; (split; [reflexivity|vm_compute; reflexivity]). Qed.
Print Assumptions C36_width_refuted.

(** C37.  Whatever text numbers are written as, provided it is made of the
    characters numbers are made of and reads back as the same number, the polygon
    text of a boundary is read back as a boundary of the same region, with the same
    ranges unless the boundary has an edge on the antimeridian. *)
Theorem C37_polygon_text : forall fmt float b, float ""%string = None -> readable_bounds fmt float b ->
  meaningful b ->
  exists b', from_poly_string float (to_poly_string fmt b) = Ok b' /\ time_range b' = [] /\
    (forall x y, within_globe (region b') x y <-> within_globe (region b) x y) /\
    (long_min b < 180 -> -180 < long_max b ->
      lat_min b' == lat_min b /\ lat_max b' == lat_max b /\ long_min b' == long_min b /\ long_max b' == long_max b).
Proof.
  intros fmt float b F R M. destruct (load_polygon b M) as (b' & L & H). exists b'. split; [|exact H].
  rewrite string_is_polygon; auto.
Qed.
Print Assumptions C37_polygon_text.
(** A text of two polygons is read exactly if they have the same latitudes, corner by
    corner. *)
Theorem C37_two_parts : forall fmt float a b, float ""%string = None -> a <> [] -> b <> [] ->
  (forall p, In p (a ++ b) -> readable_point fmt float p) ->
  (Forall2 Qeq (map snd a) (map snd b) -> from_poly_string float (wkt fmt (MPoly [a; b])) = load_bounds (MPoly [a; b])) /\
  (~ Forall2 Qeq (map snd a) (map snd b) -> from_poly_string float (wkt fmt (MPoly [a; b])) = Err AssertionError).
Proof.
  intros fmt float a b F Na Nb H.
  rewrite (any_multipolygon fmt float a b F Na Nb) by (intros p I; apply H, in_or_app; auto).
  pose proof (qlist_eqb_spec (map snd a) (map snd b)) as E. unfold ring_ys.
  destruct (qlist_eqb (map snd a) (map snd b)); split; intros X; try reflexivity; exfalso; [apply X, E; reflexivity|apply E in X; discriminate].
Qed.
Print Assumptions C37_two_parts.
(** Numbers written in decimal, for the example. *)
Definition int_text (q : Q) : string := NilZero.string_of_int (Z.to_int (Qnum q)).
Definition int_float (s : string) : option Q := option_map (fun i => inject_Z (Z.of_int i)) (NilZero.int_of_string s).
Example C37_case : let b := mkB (-10) 20 170 (-165) [] in
  int_float ""%string = None /\ readable_bounds int_text int_float b /\ meaningful b /\
  to_poly_string int_text b =
   "MULTIPOLYGON (((170 -10, 170 20, 180 20, 180 -10, 170 -10)), ((-180 -10, -180 20, -165 20, -165 -10, -180 -10)))"%string /\
  from_poly_string int_float (to_poly_string int_text b) = Ok b /\
  from_poly_string int_float "MULTIPOLYGON (((170 -10, 170 20)), ((-180 -10, -180 20, -165 20)))" = Err AssertionError.
Proof.
  split; [reflexivity|]. split; [|split; [|split; [|split]]].
  - unfold readable_bounds, readable, number_text. cbn [lat_min lat_max long_min long_max].
    repeat split; try (vm_compute; reflexivity); vm_compute; intros c I;
      repeat (destruct I as [<-|I]; [tauto|]); destruct I.
  - unfold meaningful, in_domain. cbn. repeat split; try lra; intros []; lra.
  - vm_compute. reflexivity.
  - vm_compute. reflexivity.
  - vm_compute. reflexivity.
Qed.
(** With an edge on the antimeridian the ranges differ although the region is the
    same: [180, -170] comes back as [-180, -170]. *)
Theorem C37_edge_refuted : exists b b', meaningful b /\ readable_bounds int_text int_float b /\
  from_poly_string int_float (to_poly_string int_text b) = Ok b' /\ boundary_eqb b b' = false.
Proof.
  exists (mkB 0 10 180 (-170) []). eexists. split; [|split; [|split]].
  - unfold meaningful, in_domain. cbn. repeat split; try lra; intros []; lra.
  - unfold readable_bounds, readable, number_text. cbn [lat_min lat_max long_min long_max].
    repeat split; try (vm_compute; reflexivity); vm_compute; intros c I;
      repeat (destruct I as [<-|I]; [tauto|]); destruct I.
  - vm_compute. reflexivity.
  - vm_compute. reflexivity.
Qed.
Print Assumptions C37_edge_refuted.

(** C38.  Equality compares the four edges ... *)
Theorem C38_spatial_partial : forall a b, boundary_eqb a b = true <->
  (lat_min a == lat_min b /\ lat_max a == lat_max b /\ long_min a == long_min b /\ long_max a == long_max b).
Proof. exact eqb_iff. Qed.
Print Assumptions C38_spatial_partial.
Example C38_case : boundary_eqb (mkB 0 1 2 3 []) (mkB 0 1 2 3 []) = true /\ boundary_eqb (mkB 0 1 2 3 []) (mkB 0 1 2 4 []) = false.
Proof. split; reflexivity. Qed.
(** ... and never the time ranges: it is false that equal boundaries have equal
    time ranges. *)
Theorem C38_refuted : exists a b, boundary_eqb a b = true /\ time_range a <> time_range b.
Proof. exists (mkB 0 1 2 3 [10; 20]%Z), (mkB 0 1 2 3 [30; 40]%Z). split; [reflexivity|discriminate]. Qed.
Print Assumptions C38_refuted.
