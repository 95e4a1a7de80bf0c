(** Property theorem C71: random fields.  Statements only. *)
From Coq Require Import Permutation Sorted.
From Verif Require Import Base QLib Geo Cell Loaders AggProofs Shapes ShapeSpec ShapeProofs Grf GrfSpec GrfProofs.
Open Scope Q_scope.

(** C71.  Whatever the noise, the data are values of the field at the points of a square
    grid over the region. *)
Theorem C71_grid : forall p noise turns cos sin b, (2 <= r_size p)%Z -> ~ lat_min b == lat_max b -> ~ long_min b == long_max b ->
  List.length noise = (Z.to_nat (r_size p) * Z.to_nat (r_size p))%nat -> List.length turns = List.length noise ->
  on_grid (r_size p) b (map (fun v => [v]) (grf_values p noise)) (import_scalar_grf p noise b) /\
  on_grid (r_size p) b (grf_vector cos sin p noise turns) (import_vector_grf cos sin p noise turns b).
Proof.
  intros p noise turns cos sin b S D1 D2 L L'. split.
  - apply grf_on_grid; auto. rewrite map_length, values_length. exact L.
  - apply grf_on_grid; auto. rewrite vector_length; auto.
Qed.
Print Assumptions C71_grid.
(** The field itself is the noise rescaled to range from 0 to 1. *)
Theorem C71_field : forall noise, uneven noise -> exists g, random_field noise = Some g /\ rescaled 0 1 noise g /\
  (forall y, In y g -> 0 <= y <= 1) /\ (exists y, In y g /\ y == 0) /\ (exists y, In y g /\ y == 1).
Proof.
  intros noise U. destruct (normalise_ok noise U) as (g & E & R). exists g. split; [exact E|]. split; [exact R|]. apply (rescaled_bounds 0 1 noise g); [lra|exact R].
Qed.
Print Assumptions C71_field.
(** Binary fields: 1 exactly where the field reaches the threshold. *)
Theorem C71_binary : forall p noise g, r_binary p = true -> random_field noise = Some g -> uneven noise ->
  Forall2 (fun y v => (r_t0 p <= y -> v = Some 1) /\ (y < r_t0 p -> v = Some 0)) g (grf_values p noise).
Proof.
  intros p noise g B E U. destruct (C71_field noise U) as (g' & E' & _ & R & _). rewrite E in E'. injection E' as <-.
  unfold grf_values. rewrite B, E. cbn [grf_to_binary]. rewrite map_map. apply Forall2_map2. intros y Y. specialize (R y Y). set (t := r_t0 p).
  destruct (qleb_spec t y) as [H|H].
  - destruct (qltb_spec 1 t); [lra|]. split; [reflexivity|lra].
  - destruct (qltb_spec y t); [|lra]. split; [lra|reflexivity].
Qed.
Print Assumptions C71_binary.
(** Other fields: the field limited to the thresholds and rescaled; the least and greatest
    values are those documented. *)
Theorem C71_scalar_partial : forall p noise, r_binary p = false -> uneven noise -> r_t0 p < r_t1 p -> r_t0 p < 1 -> 0 < r_t1 p ->
  exists g c s, random_field noise = Some g /\ Forall2 (limited (r_t0 p) (r_t1 p)) g c /\ rescaled (r_min p) (r_max p) c s /\
    grf_values p noise = map (fun x => Some (r_mult p * x + r_offset p)) s.
Proof.
  intros p noise B U T A C. destruct (normalise_ok noise U) as (g & E & R). destruct (normalise_ok _ (clip_uneven _ _ _ _ T A C R)) as (s & E' & R').
  exists g, (clip (r_t0 p) (r_t1 p) g), (map (fun x => x * (r_max p - r_min p) + r_min p) s). split; [exact E|]. split; [apply clip_limited; lra|]. split; [apply rescaled_map; exact R'|].
  unfold grf_values, random_field, grf_to_scalar. rewrite B, E, E'. reflexivity.
Qed.
Print Assumptions C71_scalar_partial.
Theorem C71_range : forall p noise, r_binary p = false -> uneven noise -> r_t0 p < r_t1 p -> r_t0 p < 1 -> 0 < r_t1 p -> r_min p <= r_max p -> 0 <= r_mult p ->
  (forall v, In v (grf_values p noise) -> exists x, v = Some x /\ r_mult p * r_min p + r_offset p <= x <= r_mult p * r_max p + r_offset p) /\
  (exists x, In (Some x) (grf_values p noise) /\ x == r_mult p * r_min p + r_offset p) /\ (exists x, In (Some x) (grf_values p noise) /\ x == r_mult p * r_max p + r_offset p).
Proof.
  intros p noise B U T A C M P. destruct (C71_scalar_partial p noise B U T A C) as (g & c & s & _ & _ & R & ->).
  destruct (rescaled_bounds _ _ _ _ M R) as (I & (x & X & E) & (y & Y & F)). split; [|split].
  - intros v V. apply in_map_iff in V as (z & <- & Z). specialize (I z Z). eexists. split; [reflexivity|]. nra.
  - exists (r_mult p * x + r_offset p). split; [apply (in_map (fun x => Some (r_mult p * x + r_offset p))); exact X|]. rewrite E. reflexivity.
  - exists (r_mult p * y + r_offset p). split; [apply (in_map (fun x => Some (r_mult p * x + r_offset p))); exact Y|]. rewrite F. reflexivity.
Qed.
Print Assumptions C71_range.
(** Vectors: magnitudes between the given ones, for any functions with cos^2 + sin^2 = 1. *)
Theorem C71_vector : forall cos sin p noise turns, (forall t, cos t * cos t + sin t * sin t == 1) -> uneven noise -> uneven turns -> r_min p <= r_max p ->
  forall v, In v (grf_vector cos sin p noise turns) -> exists x y m t, v = [Some x; Some y] /\ x == sin t * m /\ y == cos t * m /\ x * x + y * y == m * m /\ r_min p <= m <= r_max p /\ 0 <= t <= 1.
Proof.
  intros cos sin p noise turns CS U U' M v V. destruct (C71_field noise U) as (g & E & _ & R & _). destruct (C71_field turns U') as (h & E' & _ & R' & _).
  unfold grf_vector in V. rewrite E, E' in V. apply in_map_iff in V as ([a t] & <- & I). cbn [fst snd]. assert (Ia := in_combine_l _ _ _ _ I). assert (It := in_combine_r _ _ _ _ I).
  specialize (R a Ia). specialize (R' t It). exists (sin t * (a * (r_max p - r_min p) + r_min p)), (cos t * (a * (r_max p - r_min p) + r_min p)), (a * (r_max p - r_min p) + r_min p), t.
  split; [reflexivity|]. split; [reflexivity|]. split; [reflexivity|]. split; [|split; [nra|exact R']].
  set (m := a * (r_max p - r_min p) + r_min p). transitivity ((cos t * cos t + sin t * sin t) * (m * m)); [ring|]. rewrite CS. ring.
Qed.
Print Assumptions C71_vector.
(** The Fourier coordinates of an even size. *)
Theorem C71_fourier_partial : forall size i, (0 < size)%Z -> Z.even size = true -> (i < Z.to_nat size)%nat -> fourier size (Z.of_nat i) (nth i (fftind size) 0%Z).
Proof.
  intros size i P E I. unfold fftind. set (f := fun i => ((Z.of_nat i - size / 2) mod size - (size + 1) / 2)%Z).
  rewrite (nth_indep _ 0%Z (f 0%nat)) by (rewrite map_length, seq_length; exact I). rewrite map_nth, seq_nth by exact I. cbn [Nat.add]. unfold f. clear f. apply Z.even_spec in E as (k & ->).
  replace (2 * k / 2)%Z with k by (Z.div_mod_to_equations; lia). replace ((2 * k + 1) / 2)%Z with k by (Z.div_mod_to_equations; lia).
  split; [|pose proof (Z.mod_pos_bound (Z.of_nat i - k) (2 * k) ltac:(lia)); lia].
  rewrite Zminus_mod_idemp_l. replace (Z.of_nat i - k - k)%Z with (Z.of_nat i + (-1) * (2 * k))%Z by lia. apply Z_mod_plus_full.
Qed.
Print Assumptions C71_fourier_partial.

(** A case. *)
Definition gx : grf_params := mkGrf 2 false 0 1 (-10) 10 1 0.
Example C71_case : uneven [3; 7; 5; 4] /\ map (option_map Qred) (grf_values gx [3; 7; 5; 4]) = [Some (-10); Some 10; Some 0; Some (-5)] /\
  map (option_map Qred) (grf_values (mkGrf 2 true (1#2) 0 0 1 1 0) [3; 7; 5; 4]) = [Some 0; Some 1; Some 1; Some 0].
Proof. split; [exists 3, 7; split; [left; reflexivity|]; split; [right; left; reflexivity|reflexivity]|]. split; vm_compute; reflexivity. Qed.

(** Findings.  Thresholds the wrong way round, or outside the range of the field, give NaN
    everywhere, whatever the noise. *)
Theorem C71_thresholds_refuted : forall p noise, r_binary p = false -> r_t1 p <= r_t0 p \/ 1 <= r_t0 p \/ r_t1 p <= 0 -> forall v, In v (grf_values p noise) -> v = None.
Proof.
  intros p noise B T v V. unfold grf_values, random_field, grf_to_scalar in V. rewrite B in V.
  destruct (normalise noise) as [g|] eqn:E; [|apply repeat_spec in V; exact V].
  assert (N : normalise (clip (r_t0 p) (r_t1 p) g) = None); [|rewrite N in V; cbn in V; apply repeat_spec in V; exact V].
  apply normalise_even. destruct (uneven_or noise) as [U|U]; [|apply normalise_even in U; congruence].
  destruct (C71_field noise U) as (g' & E' & _ & R & _). unfold random_field in E'. rewrite E in E'. injection E' as <-.
  destruct (Qlt_le_dec (r_t0 p) (r_t1 p)) as [L|L]; [|apply clip_even; exact L]. destruct T as [T|[T|T]]; [lra| |].
  - apply clip_above; [exact L|]. intros x X. specialize (R x X). lra.
  - apply clip_below; [exact L|]. intros x X. specialize (R x X). lra.
Qed.
Print Assumptions C71_thresholds_refuted.
(** A field of one point is NaN. *)
Theorem C71_one_refuted : forall p x, r_binary p = false -> grf_values p [x] = [None].
Proof.
  intros p x B. unfold grf_values, random_field. rewrite B, normalise_even; [reflexivity|]. intros a c [<-|[]] [<-|[]]. reflexivity.
Qed.
Print Assumptions C71_one_refuted.
(** The range of a binary field is not used: a threshold in the middle of 0 to 10 gives no
    point above it. *)
Theorem C71_binary_range_refuted : forall noise, uneven noise -> forall v, In v (grf_values (mkGrf 2 true 5 0 0 10 1 0) noise) -> v = Some 0.
Proof.
  intros noise U v V. destruct (C71_field noise U) as (g & E & _ & R & _). assert (F := C71_binary (mkGrf 2 true 5 0 0 10 1 0) noise g eq_refl E U). cbn [r_t0] in F.
  clear E U. revert F V. generalize (grf_values (mkGrf 2 true 5 0 0 10 1 0) noise). intros l F V.
  induction F as [|y w g l (_ & A) F IH]; [destruct V|]. destruct V as [->|V]; [apply A; specialize (R y (or_introl eq_refl)); lra|]. apply IH; [intros z Z; apply R; right; exact Z|exact V].
Qed.
Print Assumptions C71_binary_range_refuted.
(** The Fourier coordinates of an odd size are not those of least magnitude. *)
Theorem C71_fourier_refuted : fftind 3 = [0; -2; -1]%Z /\ ~ fourier 3 1 (-2) /\ fourier 3 1 1.
Proof. split; [reflexivity|]. split; [intros (_ & H); lia|split; [reflexivity|lia]]. Qed.
Print Assumptions C71_fourier_refuted.
(** In a region across the antimeridian the inner points lie outside the region. *)
Theorem C71_antimeridian_refuted : forall size vals b g i, long_max b < long_min b -> grf_grid size vals b = Ok g -> (0 < i)%nat -> (S i < List.length (g_long g))%nat -> ~ long_in b (nth i (g_long g) 0).
Proof.
  intros size vals b g i C G I J. unfold grf_grid in G. destruct (size <=? 0)%Z; [discriminate|].
  destruct (linspace true (lat_min b) (lat_max b) size) as [lat|]; [|discriminate]. cbn [bind] in G.
  destruct (linspace true (long_min b) (long_max b) size) as [long|] eqn:E; [|discriminate]. cbn [bind] in G. injection G as <-. cbn [g_long] in *. exact (proj1 (crossing_outside b size long i C E I J)).
Qed.
Print Assumptions C71_antimeridian_refuted.
Example C71_antimeridian_case : exists g, grf_grid 5 [] (mkB (-10) 10 170 (-170) []) = Ok g /\ (S 2 < List.length (g_long g))%nat.
Proof. eexists. split; [reflexivity|]. vm_compute. repeat constructor. Qed.
