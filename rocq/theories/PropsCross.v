(** Property theorems C47: a regional mesh over a range that crosses the
    antimeridian.  Statements only; every proof is a lemma of another file. *)
From Verif Require Import Base Geo Graph Cell Builder Spec MeshSpec GlobeSpec CrossSpec Cross CrossInv CrossBuild CrossSound.
Open Scope Z_scope.

(** C47.  The initial mesh over a range crossing the antimeridian is right: its
    cells tile the region on the globe and its graph lists exactly the contacts
    on the globe. *)
Theorem C47_initial : forall b cw ch srcs,
  crossing b -> (0 < cw)%Q -> (0 < ch)%Q -> validate_bounds b cw ch = Ok tt ->
  exists m, build_mesh b cw ch srcs = Ok m /\ glob m = false /\
    globe_tiled (region b) m /\ graph_exact touches_mod m /\ ids_are_positions m.
Proof. exact crossing_initial. Qed.
Print Assumptions C47_initial.

(** However often cells are split, the cells tile the region. *)
Theorem C47_tiling : forall b cw ch srcs m0 m,
  crossing b -> (0 < cw)%Q -> (0 < ch)%Q -> build_mesh b cw ch srcs = Ok m0 -> splits m0 m ->
  globe_tiled (region b) m /\ ids_are_positions m.
Proof. exact crossing_tiling. Qed.
Print Assumptions C47_tiling.

(** The graph is exact after splits of cells whose quarters touch the neighbours
    without being moved by 360 degrees. *)
Theorem C47_partial : forall b cw ch srcs m0 m,
  crossing b -> (0 < cw)%Q -> (0 < ch)%Q -> build_mesh b cw ch srcs = Ok m0 ->
  splits_where quarters_touch_plainly m0 m ->
  graph_exact touches_mod m.
Proof. exact crossing_partial. Qed.
Print Assumptions C47_partial.

(** That condition is exact: a split of such a mesh never raises, and it leaves
    the graph right if and only if the condition holds. *)
Theorem C47_exactly : forall b cw ch srcs m0 m i c,
  crossing b -> (0 < cw)%Q -> (0 < ch)%Q -> build_mesh b cw ch srcs = Ok m0 ->
  splits_where quarters_touch_plainly m0 m -> live_cell m i c ->
  exists m', split_and_replace m i = Ok m' /\ (graph_exact touches_mod m' <-> quarters_touch_plainly m c).
Proof. exact crossing_exactly. Qed.
Print Assumptions C47_exactly.

(** It holds for cells that, with their side neighbours, end at or before 180. *)
Theorem C47_west : forall b cw ch srcs m0 m i c,
  crossing b -> (0 < cw)%Q -> (0 < ch)%Q -> build_mesh b cw ch srcs = Ok m0 -> splits m0 m ->
  live_cell m i c -> west_of_antimeridian m c -> quarters_touch_plainly m c.
Proof. exact crossing_west. Qed.
Print Assumptions C47_west.

(** Whichever cells are split, in whichever order: what the graph still lists is
    right and symmetric (contacts are only lost), and no split raises. *)
Theorem C47_sound : forall b cw ch srcs m0 m,
  crossing b -> (0 < cw)%Q -> (0 < ch)%Q -> build_mesh b cw ch srcs = Ok m0 -> splits m0 m ->
  only_contacts touches_mod m /\ forall i c, live_cell m i c -> exists m', split_and_replace m i = Ok m'.
Proof. exact crossing_sound. Qed.
Print Assumptions C47_sound.

Example C47_case : crossing pacific_b /\ validate_bounds pacific_b 10 10 = Ok tt /\
  (exists m, build_mesh pacific_b 10 10 [] = Ok m /\ List.length (cells m) = 4%nat /\
     exists m', split_and_replace m 0 = Ok m' /\ List.length (cells m') = 8%nat) /\
  exists m c, build_mesh pacific_b 10 10 [] = Ok m /\ live_cell m 0 c /\ west_of_antimeridian m c.
Proof. exact pacific_case. Qed.

(** C47 as stated is false: splitting the cell from -170 to -160 makes its
    quarters lose the neighbour from 180 to -170, and that neighbour them. *)
Theorem C47_refuted : exists b cw ch m0 m1,
  crossing b /\ (0 < cw)%Q /\ (0 < ch)%Q /\ build_mesh b cw ch [] = Ok m0 /\ splits m0 m1 /\
  ~ graph_exact touches_mod m1.
Proof. exact pacific_refuted. Qed.
Print Assumptions C47_refuted.
