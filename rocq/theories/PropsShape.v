(** Property theorem C60: synthetic sources.  Statements only. *)
From Coq Require Import Permutation Sorted.
From Verif Require Import Base QLib Geo Cell Loaders Shapes ShapeSpec ShapeProofs.
Open Scope Q_scope.

(** A region with an extent in both directions; it may cross the antimeridian. *)
Definition extended (b : boundary) : Prop := ~ lat_min b == lat_max b /\ ~ long_min b == long_max b.
Definition resolved (p : shape_params) : Prop := (2 <= s_nx p)%Z /\ (2 <= s_ny p)%Z.

Definition sx_bounds : boundary := mkB (-10) 10 20 40 [].
Definition sx_shape (c : option Q * option Q) (n : Z) : shape_params := mkShape n n [3] c 5 4 2 true (4, 5).

(** C60.  Circles, scalar and vector. *)
Theorem C60_circle_partial : forall p b, extended b -> resolved p ->
  centre_given (fst (s_centre p)) (s_ny p) -> centre_given (snd (s_centre p)) (s_nx p) ->
  imported gen_circle p b axis_over
    (filled (in_disc (centre_wanted (fst (s_centre p)) (lat_min b) (lat_max b))
                     (centre_wanted (snd (s_centre p)) (long_min b) (long_max b)) (s_radius p)) (s_mult p)).
Proof.
  intros p b [D1 D2] [Nx Ny] Cy Cx. destruct (circle p b) as (g & G & F & L1 & L2); try lia; auto.
  eapply imported_by; eauto.
Qed.
Print Assumptions C60_circle_partial.
(** Gradients. *)
Theorem C60_gradient : forall p b, extended b -> resolved p ->
  imported gen_gradient p b axis_over
    (valued (fun lat long => map (fun m => (if s_vertical p then ramp (lat_min b) (lat_max b) lat
                                            else ramp (long_min b) (long_max b) long) * m) (s_mult p))).
Proof.
  intros p b [D1 D2] [Nx Ny]. destruct (gradient p b) as (g & G & F & L1 & L2); auto; [destruct (s_vertical p); auto|].
  eapply imported_by; eauto.
Qed.
Print Assumptions C60_gradient.
Theorem C60_vector_gradient : forall p b mu mv, extended b -> resolved p -> s_mult p = [mu; mv] ->
  imported gen_vector_gradient p b axis_over
    (valued (fun lat long => if s_vertical p then [0; ramp (lat_min b) (lat_max b) lat * mv]
                             else [ramp (long_min b) (long_max b) long * mu; 0])).
Proof.
  intros p b mu mv [D1 D2] [Nx Ny] M. destruct (vector_gradient p b mu mv) as (g & G & F & L1 & L2); auto; [destruct (s_vertical p); auto|].
  eapply imported_by; eauto.
Qed.
Print Assumptions C60_vector_gradient.
(** Checkerboards of positive grid sizes: as documented for the multiplier 1, whatever
    the multiplier is.  Every point lies in exactly one square. *)
Theorem C60_checkerboard_partial : forall p b, extended b -> resolved p -> 0 < fst (s_grid p) -> 0 < snd (s_grid p) ->
  imported gen_checkerboard p b axis_below (chequered (lat_min b) (long_min b) (snd (s_grid p)) (fst (s_grid p)) 1) /\
  (forall v, exists k, in_stripe (lat_min b) (snd (s_grid p)) k v) /\ (forall v, exists k, in_stripe (long_min b) (fst (s_grid p)) k v).
Proof.
  intros p b [D1 D2] [Nx Ny] Gx Gy. split; [|split; intros v; apply stripe_exists; assumption].
  destruct (checkerboard p b) as (g & G & F & L1 & L2); auto; try lia. eapply imported_below; eauto; lia.
Qed.
Print Assumptions C60_checkerboard_partial.
(** Rectangles come out twice as wide and twice as high. *)
Theorem C60_rectangle_doubled : forall p b, extended b -> resolved p ->
  centre_given (fst (s_centre p)) (s_ny p) -> centre_given (snd (s_centre p)) (s_nx p) ->
  imported gen_rectangle p b axis_over
    (filled (in_rectangle (centre_wanted (fst (s_centre p)) (lat_min b) (lat_max b))
                          (centre_wanted (snd (s_centre p)) (long_min b) (long_max b)) (2 * s_width p) (2 * s_height p)) (s_mult p)).
Proof.
  intros p b [D1 D2] [Nx Ny] Cy Cx. destruct (rectangle p b) as (g & G & F & L1 & L2); try lia; auto.
  eapply imported_by; eauto.
Qed.
Print Assumptions C60_rectangle_doubled.
Example C60_case : extended sx_bounds /\ resolved (sx_shape (Some 5, None) 5) /\
  centre_given (fst (s_centre (sx_shape (Some 5, None) 5))) 5 /\ centre_given (snd (s_centre (sx_shape (Some 5, None) 5))) 5 /\
  0 < fst (s_grid (sx_shape (Some 5, None) 5)) /\ 0 < snd (s_grid (sx_shape (Some 5, None) 5)) /\
  exists g, gen_circle (sx_shape (Some 5, None) 5) sx_bounds = Ok g /\
    g_val g 3 2 = [Some 3] /\ g_val g 2 2 = [Some 3] /\ g_val g 1 2 = [Some 0] /\ g_val g 2 1 = [Some 0].
Proof.
  unfold extended, resolved, centre_given. cbn. repeat split; try lra; try lia; try discriminate.
  eexists. split; [reflexivity|]. repeat split; vm_compute; reflexivity.
Qed.

(** The names of the shapes; any other name is refused. *)
Theorem C60_names : forall n,
  (forall g, shape_generator n = Ok g <->
     In (n, g) [("circle", gen_circle); ("checkerboard", gen_checkerboard); ("gradient", gen_gradient); ("rectangle", gen_rectangle)]%string) /\
  (forall g, vector_shape_generator n = Ok g <->
     In (n, g) [("vector_circle", gen_circle); ("vector_gradient", gen_vector_gradient); ("vector_rectangle", gen_rectangle)]%string) /\
  (forall e, shape_generator n = Err e -> e = ValueError) /\ (forall e, vector_shape_generator n = Err e -> e = ValueError).
Proof.
  assert (D : forall {A} (k m : string) (f g : A), (k, f) = (m, g) <-> m = k /\ g = f) by (intros A k m f g; split; [intros [= -> ->]; auto|intros [-> ->]; reflexivity]).
  intros n. unfold shape_generator, vector_shape_generator. cbn [In].
  repeat match goal with |- context [String.eqb n ?s] => destruct (String.eqb_spec n s) as [->|?] end;
    (split; [intros g; rewrite ?D; split; [intros H; try discriminate H; injection H as <-; tauto
      |intros H; repeat (destruct H as [[? ?]|H]; [subst; first [reflexivity|contradiction|discriminate]|]); destruct H]|]);
    (split; [intros g; rewrite ?D; split; [intros H; try discriminate H; injection H as <-; tauto
      |intros H; repeat (destruct H as [[? ?]|H]; [subst; first [reflexivity|contradiction|discriminate]|]); destruct H]|]);
    split; intros e H; first [discriminate H|injection H as <-; reflexivity].
Qed.
Print Assumptions C60_names.
(** Findings.  A rectangle of width 4 and height 2 reaches 4 to both sides. *)
Theorem C60_rectangle_refuted : exists p b g x, extended b /\ resolved p /\
  centre_given (fst (s_centre p)) (s_ny p) /\ centre_given (snd (s_centre p)) (s_nx p) /\
  gen_rectangle p b = Ok g /\ In x (grid_rows g) /\ p_vals x = [Some 3] /\ s_mult p = [3] /\
  ~ in_rectangle (centre_wanted (fst (s_centre p)) (lat_min b) (lat_max b))
                 (centre_wanted (snd (s_centre p)) (long_min b) (long_max b)) (s_width p) (s_height p) (p_lat x) (p_long x).
Proof.
  exists (sx_shape (None, None) 21), sx_bounds. eexists. exists (mkP (nth 10 (map (fun i => -10 + inject_Z (Z.of_nat i) * (20 / 20)) (seq 0 21)) 0)
    (nth 13 (map (fun i => 20 + inject_Z (Z.of_nat i) * (20 / 20)) (seq 0 21)) 0) None [Some 3]).
  split; [split; vm_compute; discriminate|]. split; [split; cbn; lia|]. split; [split; [cbn; lia|reflexivity]|]. split; [split; [cbn; lia|reflexivity]|].
  split; [reflexivity|]. split; [|split; [reflexivity|split; [reflexivity|]]].
  - apply grid_rows_in. exists 10%nat, 13%nat. vm_compute. repeat split; repeat constructor.
  - vm_compute. intros [[_ H] _]. apply H. reflexivity.
Qed.
Print Assumptions C60_rectangle_refuted.
(** A centre at latitude or longitude 0 is taken for no centre at all. *)
Theorem C60_zero_centre_refuted : exists p b g x, extended b /\ resolved p /\ s_centre p = (Some 5, Some 0) /\
  gen_circle p b = Ok g /\ In x (grid_rows g) /\ in_disc 5 0 (s_radius p) (p_lat x) (p_long x) /\ p_vals x = [Some 0] /\ s_mult p = [3].
Proof.
  exists (sx_shape (Some 5, Some 0) 5), (mkB (-10) 10 (-20) 60 []). eexists. exists (mkP (-10 + 3 * (20 / 4)) (-20 + 1 * (80 / 4)) None [Some 0]).
  split; [split; vm_compute; discriminate|]. split; [split; cbn; lia|]. split; [reflexivity|]. split; [reflexivity|].
  split; [|split; [split; vm_compute; discriminate|split; reflexivity]].
  apply grid_rows_in. exists 3%nat, 1%nat. vm_compute. repeat split; repeat constructor.
Qed.
Print Assumptions C60_zero_centre_refuted.
(** With an even number of points the default centre is not the middle. *)
Theorem C60_even_refuted : exists p b g x y, extended b /\ resolved p /\ s_centre p = (None, None) /\
  gen_circle p b = Ok g /\ In x (grid_rows g) /\ In y (grid_rows g) /\ p_vals x = [Some 3] /\ p_vals y = [Some 0] /\
  p_lat x + p_lat y == lat_min b + lat_max b /\ p_long x + p_long y == long_min b + long_max b.
Proof.
  exists (mkShape 4 4 [3] (None, None) 5 4 2 true (4, 5)), (mkB (-15) 15 15 45 []). eexists.
  exists (mkP (-15 + 2 * (30 / 3)) (15 + 2 * (30 / 3)) None [Some 3]), (mkP (-15 + 1 * (30 / 3)) (15 + 1 * (30 / 3)) None [Some 0]).
  split; [split; vm_compute; discriminate|]. split; [split; cbn; lia|]. split; [reflexivity|]. split; [reflexivity|].
  split; [apply grid_rows_in; exists 2%nat, 2%nat; vm_compute; repeat split; repeat constructor|].
  split; [apply grid_rows_in; exists 1%nat, 1%nat; vm_compute; repeat split; repeat constructor|].
  repeat split; vm_compute; reflexivity.
Qed.
Print Assumptions C60_even_refuted.
(** The multiplier has no effect on a checkerboard. *)
Theorem C60_checkerboard_refuted : exists p b g x, extended b /\ resolved p /\ s_mult p = [3] /\ gen_checkerboard p b = Ok g /\
  In x (grid_rows g) /\ in_stripe (lat_min b) (snd (s_grid p)) 0 (p_lat x) /\ in_stripe (long_min b) (fst (s_grid p)) 1 (p_long x) /\
  p_vals x = [Some 1].
Proof.
  exists (sx_shape (None, None) 4), sx_bounds. eexists. exists (mkP (-10 + 0 * (20 / 4)) (20 + 1 * (20 / 4)) None [Some 1]).
  split; [split; vm_compute; discriminate|]. split; [split; cbn; lia|]. split; [reflexivity|]. split; [reflexivity|].
  split; [apply grid_rows_in; exists 0%nat, 1%nat; vm_compute; repeat split; repeat constructor|].
  repeat split; vm_compute; try reflexivity; discriminate.
Qed.
Print Assumptions C60_checkerboard_refuted.
(** In a region across the antimeridian every inner point lies outside the region. *)
Theorem C60_antimeridian_outside : forall p b g i, resolved p -> long_max b < long_min b -> gen_gradient p b = Ok g ->
  (0 < i)%nat -> (S i < List.length (g_long g))%nat -> ~ long_in b (nth i (g_long g) 0).
Proof.
  intros p b g i _ C G I J. unfold gen_gradient in G.
  destruct (linspace true (lat_min b) (lat_max b) (s_ny p)) as [lat|]; [|discriminate]. cbn [bind] in G.
  destruct (linspace true (long_min b) (long_max b) (s_nx p)) as [long|] eqn:E; [|discriminate]. cbn [bind] in G.
  destruct (linspace true 0 1 _); [|discriminate]. injection G as <-. cbn [g_long] in *.
  eapply crossing_outside; eauto.
Qed.
Print Assumptions C60_antimeridian_outside.
Theorem C60_antimeridian_refuted : exists b g, extended b /\ resolved (sx_shape (None, None) 5) /\ long_max b < long_min b /\ gen_gradient (sx_shape (None, None) 5) b = Ok g /\
  (S 2 < List.length (g_long g))%nat /\ ~ long_in b (nth 2 (g_long g) 0).
Proof.
  exists (mkB (-10) 10 170 (-170) []). eexists. split; [split; vm_compute; discriminate|]. split; [split; cbn; lia|].
  split; [vm_compute; reflexivity|]. split; [reflexivity|]. split; [vm_compute; repeat constructor|].
  vm_compute. intros [[H _]|[_ H]]; apply H; reflexivity.
Qed.
Print Assumptions C60_antimeridian_refuted.
