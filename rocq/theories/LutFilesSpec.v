(** Specification of look-up tables read from files (C73). *)
From Verif Require Import Base Geo Cell Lut LutFiles.
Open Scope Q_scope.

(** What is assumed of the geometry: places (off all edges) are in unions, differences and
    parts as in sets, and geometries with a common place intersect and cover each other. *)
Record lawful (o : planar) (P : Type) (inside : geom o -> P -> Prop) : Prop := {
  law_dec : forall g p, inside g p \/ ~ inside g p;
  law_union : forall l p, inside (p_union o l) p <-> exists g, In g l /\ inside g p;
  law_minus : forall a b p, inside (p_minus o a b) p <-> inside a p /\ ~ inside b p;
  law_kind : forall l, g_kind o (p_minus o (g_shape o (Rect world)) (p_union o l)) <> KOther;
  law_parts : forall g p, g_kind o g = KMulti -> (inside g p <-> exists q, In q (g_parts o g) /\ inside q p);
  law_meet : forall a b p, inside a p -> inside b p -> g_intersects o a b = true;
  law_cover : forall l g b p, In g l -> inside g p -> inside (g_shape o (Rect b)) p -> ~ g_covered o l (g_shape o (Rect b)) == 0 }.

(** The value [v] at a place is one the files give for it; or the files give none, and it
    is [rest]. *)
Definition given_at {G P} (inside : G -> P -> Prop) (rows : list (G * lval)) (p : P) (v : lval) : Prop := exists g, In (g, v) rows /\ inside g p.
Definition value_at {G P} (inside : G -> P -> Prop) (rows : list (G * lval)) (rest : lval) (p : P) (v : lval) : Prop :=
  given_at inside rows p v \/ (v = rest /\ forall w, ~ given_at inside rows p w).
Definition in_world {o : planar} {P} (inside : geom o -> P -> Prop) (b : boundary) : Prop :=
  forall p, inside (g_shape o (Rect b)) p -> inside (g_shape o (Rect world)) p.
