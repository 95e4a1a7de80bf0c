(** Property theorem C62: the data a source holds after construction.  Statements only. *)
From Verif Require Import Base QLib Geo Graph Cell Loaders Builder Env Spec MeshSpec DataSpec TrimProofs XrProofs Construct ConstructSpec ConstructProofs.
Open Scope Q_scope.

Definition cx_region : boundary := mkB (-60) (-50) (-70) (-50) [].
Definition cx_pt (lat long : Q) : point := mkP lat long None [Some 1].
Definition cx_rows : data := [cx_pt (-65) (-60); cx_pt (-55) (-60); cx_pt (-55) (-40); cx_pt (-45) (-65)].

(** C62, DataFrames.  For a region with an area that does not cross the antimeridian,
    and data at longitudes from -180 to 180, construction succeeds; the points kept
    are exactly those in the region provided the known points reach over it. *)
Theorem C62_rows_partial : forall b d, plain_region b -> longs_in_range all_known d ->
  exists d', construct_df b d = Ok d' /\
    (reaches all_known b d -> selected (belongs b) d d') /\ (~ reaches all_known b d -> d' = d) /\
    (selected (belongs b) d d' <-> reaches all_known b d \/ forall p, In p d -> belongs b p).
Proof.
  intros b d R L. destruct (construct_df_ok b d R L) as (d' & E & H). exists d'. split; [exact E|].
  destruct H as [[H1 H2]|[H1 ->]].
  - repeat split; auto; tauto.
  - split; [tauto|]. split; [auto|]. rewrite selected_all. split; [auto|]. intros [H|H]; [contradiction|exact H].
Qed.
Print Assumptions C62_rows_partial.
(** Datasets with increasing axes. *)
Theorem C62_grid_partial : forall b ds, plain_region b -> ordered ds -> period_given b ds -> longs_in_range some_known (xr_points ds) ->
  exists ds', construct_xr b ds = Ok ds' /\
    (reaches some_known b (xr_points ds) -> selected (belongs b) (xr_points ds) (xr_points ds')) /\
    (~ reaches some_known b (xr_points ds) -> ds' = ds).
Proof.
  intros b ds R O P L. destruct (construct_xr_ok b ds R O P L) as (ds' & E & H). exists ds'. split; [exact E|].
  destruct H as [[H1 H2]|[H1 ->]]; repeat split; auto; tauto.
Qed.
Print Assumptions C62_grid_partial.
(** Cells of the region get the same points from the constructed source as from the
    imported data, whether or not these were trimmed at construction. *)
Theorem C62_cells_rows : forall b c d d', long_min b < long_max b -> construct_df b d = Ok d' -> part_of c b ->
  df_trim c d' = df_trim c d.
Proof. intros b c d d' L E P. eapply construct_df_cells; eauto. Qed.
Print Assumptions C62_cells_rows.
(** Of datasets this holds across the antimeridian as well. *)
Theorem C62_cells_grid : forall b c ds ds', ~ long_min b == long_max b -> ordered ds -> period_given b ds ->
  construct_xr b ds = Ok ds' -> part_of c b -> -180 <= long_min c -> long_max c <= 180 ->
  exists dc dc', xr_trim c ds = Ok dc /\ xr_trim c ds' = Ok dc' /\ xr_points dc' = xr_points dc.
Proof.
  intros b c ds ds' D O P E Pc G1 G2. eapply construct_xr_cells; eauto. destruct (Qlt_le_dec (long_min b) (long_max b)); [auto|right].
  apply Qle_lteq in q as [q|q]; [exact q|]. exfalso. apply D. symmetry. exact q.
Qed.
Print Assumptions C62_cells_grid.

Definition cx_grid : xrds :=
  mkXr [(-65, 0%nat); (-55, 1%nat); (-45, 2%nat)] [(-65, 0%nat); (-55, 1%nat); (-45, 2%nat)] None (fun i j _ => [Some (inject_Z (Z.of_nat (3 * i + j)))]).
Lemma increasing_3 a b c : a <= b -> b <= c -> increasing [(a, 0%nat); (b, 1%nat); (c, 2%nat)].
Proof.
  intros H1 H2 i j x y L X Y. assert (i = 0 \/ i = 1 \/ 2 <= i)%nat as [->|[->|Hi]] by lia; assert (j = 1 \/ j = 2 \/ j = 0 \/ 3 <= j)%nat as [->|[->|[->|Hj]]] by lia; try lia;
    cbn in *; try (destruct j as [|[|[|[|j]]]]; discriminate || lia); try (injection X as <-; injection Y as <-; cbn; lra).
Qed.
Example C62_case : plain_region cx_region /\ longs_in_range all_known cx_rows /\ reaches all_known cx_region cx_rows /\
  construct_df cx_region cx_rows = Ok [cx_pt (-55) (-60)] /\
  ordered cx_grid /\ period_given cx_region cx_grid /\ longs_in_range some_known (xr_points cx_grid) /\ reaches some_known cx_region (xr_points cx_grid) /\
  (exists ds, construct_xr cx_region cx_grid = Ok ds /\ map p_vals (xr_points ds) = [[Some 3]; [Some 4]]) /\
  part_of (mkB (-60) (-50) (-60) (-50) []) cx_region /\
  part_of (mkB (-60) (-50) 175 180 []) (mkB (-60) (-50) 170 (-170) []).
Proof.
  assert (K : forall q, all_known (mkP 0 0 None [Some q])) by (intros q [E|[]]; discriminate).
  split; [unfold plain_region; cbn; repeat split; try lra; left; reflexivity|].
  split; [intros p I _; repeat destruct I as [<-|I]; try (cbn; lra); destruct I|].
  split; [|split; [vm_compute; reflexivity|]].
  { split.
    - exists (-55). split; [|cbn; lra]. exists (cx_pt (-65) (-60)), (cx_pt (-45) (-65)). cbn. repeat split; auto; try lra; intros [E|[]]; discriminate.
    - left. exists (-60). split; [|cbn; lra]. exists (cx_pt (-45) (-65)), (cx_pt (-55) (-40)). cbn. repeat split; auto; try lra; intros [E|[]]; discriminate. }
  split; [split; [apply increasing_3; lra|split; [apply increasing_3; lra|discriminate]]|].
  split; [intros H; contradiction|].
  split; [intros p I _; cbn in I; repeat destruct I as [<-|I]; try (cbn; lra); destruct I|].
  split.
  { split.
    - exists (-55). split; [|cbn; lra]. exists (mkP (-65) (-65) None [Some 0]), (mkP (-45) (-45) None [Some 8]). cbn. repeat split; auto 12; try lra; eexists; left; reflexivity.
    - left. exists (-55). split; [|cbn; lra]. exists (mkP (-65) (-65) None [Some 0]), (mkP (-45) (-45) None [Some 8]). cbn. repeat split; auto 12; try lra; eexists; left; reflexivity. }
  split; [eexists; split; [vm_compute; reflexivity|reflexivity]|].
  unfold part_of. cbn. repeat split; try lra.
Qed.

(** Findings.  Data that lie wholly outside the region are all kept. *)
Theorem C62_outside_refuted : exists b d d' p, plain_region b /\ longs_in_range all_known d /\
  construct_df b d = Ok d' /\ In p d' /\ ~ belongs b p /\ forall q, In q d -> ~ belongs b q.
Proof.
  exists cx_region, [cx_pt 10 10; cx_pt 20 20], [cx_pt 10 10; cx_pt 20 20], (cx_pt 10 10).
  split; [apply C62_case|]. split; [intros p I _; repeat destruct I as [<-|I]; try (cbn; lra); destruct I|].
  split; [vm_compute; reflexivity|]. split; [left; reflexivity|].
  assert (X : forall q, In q [cx_pt 10 10; cx_pt 20 20] -> ~ belongs cx_region q).
  { intros q I [[H1 H2] _]. cbn in *. repeat destruct I as [<-|I]; try (cbn in *; lra); destruct I. }
  split; [apply X; left; reflexivity|exact X].
Qed.
(** Data along one latitude of the region are kept however far they extend. *)
Theorem C62_line_refuted : exists b d d' p q, plain_region b /\ longs_in_range all_known d /\
  construct_df b d = Ok d' /\ In p d' /\ belongs b p /\ In q d' /\ ~ belongs b q.
Proof.
  exists cx_region, [cx_pt (-55) (-60); cx_pt (-55) 20], [cx_pt (-55) (-60); cx_pt (-55) 20], (cx_pt (-55) (-60)), (cx_pt (-55) 20).
  split; [apply C62_case|]. split; [intros p I _; repeat destruct I as [<-|I]; try (cbn; lra); destruct I|].
  split; [vm_compute; reflexivity|]. split; [left; reflexivity|]. split; [split; [cbn; unfold mem; cbn; lra|exact I]|]. split; [right; left; reflexivity|].
  intros [[H1 H2] _]. cbn in *. lra.
Qed.
(** Data at longitudes from 0 to 360 are rejected. *)
Theorem C62_longitudes_refuted : exists b d p, plain_region b /\ In p d /\ belongs b p /\ construct_df b d = Err ValueError.
Proof.
  exists cx_region, [cx_pt (-55) (-60); cx_pt (-50) 300], (cx_pt (-55) (-60)). split; [apply C62_case|]. split; [left; reflexivity|].
  split; [split; [unfold mem; cbn; lra|exact I]|vm_compute; reflexivity].
Qed.
(** A DataFrame constructed for a region across the antimeridian loses the data of
    its cells. *)
Theorem C62_crossing_refuted : exists b c d d' p, long_max b < long_min b /\ part_of c b /\ longs_in_range all_known d /\
  construct_df b d = Ok d' /\ In p d /\ belongs c p /\ belongs_crossing b p /\ d' <> [] /\ forall q, In q d' -> ~ belongs_crossing b q.
Proof.
  exists (mkB (-60) (-50) 170 (-170) []), (mkB (-60) (-50) 175 180 []), [cx_pt (-58) 178; cx_pt (-52) 0], [cx_pt (-52) 0], (cx_pt (-58) 178).
  split; [cbn; lra|]. split; [apply C62_case|]. split; [intros p I _; repeat destruct I as [<-|I]; try (cbn; lra); destruct I|].
  split; [vm_compute; reflexivity|]. split; [left; reflexivity|]. split; [split; [unfold mem; cbn; lra|exact I]|].
  split; [split; [cbn; lra|split; [left; cbn; lra|exact I]]|]. split; [discriminate|].
  intros q [<-|[]] (_ & H & _). cbn in H. destruct H; lra.
Qed.
(** A dataset whose latitudes decrease loses everything. *)
Theorem C62_descending_refuted : exists b ds ds' p, plain_region b /\ longs_in_range some_known (xr_points ds) /\
  construct_xr b ds = Ok ds' /\ In p (xr_points ds) /\ belongs b p /\ xr_points ds' = [].
Proof.
  exists cx_region, (mkXr [(-45, 0%nat); (-55, 1%nat); (-65, 2%nat)] (x_long cx_grid) None (x_val cx_grid)).
  eexists. exists (mkP (-55) (-55) None [Some 4]). split; [apply C62_case|].
  split; [intros p I _; cbn in I; repeat destruct I as [<-|I]; try (cbn; lra); destruct I|].
  split; [vm_compute; reflexivity|]. split; [cbn; auto 12|]. split; [split; [unfold mem; cbn; lra|exact I]|reflexivity].
Qed.
Print Assumptions C62_outside_refuted.
Print Assumptions C62_line_refuted.
Print Assumptions C62_longitudes_refuted.
Print Assumptions C62_crossing_refuted.
Print Assumptions C62_descending_refuted.
