(** Specification of splits of a loaded mesh around the globe (C27). *)
From Verif Require Import Base Geo Graph Cell Builder Env Spec MeshSpec EnvSpec CrossSpec.
Open Scope Z_scope.

(** A mesh on the cylinder in good order: distinct ids, cells narrower than 180 degrees
    that do not overlap, and a graph listing exactly the contacts modulo 360 degrees. *)
Definition sound_globe (m : emesh) : Prop :=
  NoDup (map e_id (em_cells m)) /\
  (forall c, In c (em_cells m) -> plane_bounds (e_bounds c) /\ (long_max (e_bounds c) - long_min (e_bounds c) < 180)%Q) /\
  cells_apart (em_cells m) /\
  lists_contacts touches_mod (em_cells m) (em_graph m).

(** The quarters of [c] touch its neighbours along the sides without moving either by
    360 degrees. *)
Definition plain_quarters (m : emesh) (c : ecell) : Prop :=
  forall q k c' d d', In c' (em_cells m) -> quarter q (region (e_bounds c)) k -> side d ->
    touches_mod d (region (e_bounds c)) (region (e_bounds c')) -> touches_mod d' k (region (e_bounds c')) ->
    touches d' k (region (e_bounds c')).
(** The cell does not reach the antimeridian. *)
Definition inland (c : ecell) : Prop := (-180 < long_min (e_bounds c) /\ long_max (e_bounds c) < 180)%Q.

(** Splits of cells with [P] in the mesh they are split in. *)
Inductive esplits_where (P : emesh -> ecell -> Prop) : emesh -> emesh -> Prop :=
| ewhere_none m : esplits_where P m m
| ewhere_more m m1 m2 c : esplits_where P m m1 -> In c (em_cells m1) -> P m1 c ->
    esplit_and_replace m1 (KS (e_id c)) = Ok m2 -> esplits_where P m m2.

(** The graph lists every contact that needs no move by 360 degrees. *)
Definition lists_plain (cs : list ecell) (g : graph) : Prop :=
  forall c c' d l, In c cs -> In c' cs -> touches d (region (e_bounds c)) (region (e_bounds c')) ->
    get_neighbours g (KS (e_id c)) (KS (code d)) = Ok l -> In (e_id c') l.
