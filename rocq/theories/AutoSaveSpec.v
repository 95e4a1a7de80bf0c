(** Specification of what is kept of the tests' meshes. *)
From Coq Require Import String Ascii.
From Verif Require Import Base Geo Cell Config Compare CompareSpec Automate AutoSave.
Open Scope string_scope.
Open Scope Z_scope.

(** A name before an extension: not only dots. *)
Definition stem (b : string) : Prop := exists l c r, b = l ++ String c r /\ c <> "."%char.

(** What the comparisons (C43) report of an old and a new mesh. *)
Definition reported (o n : mesh_file) : Prop :=
  (exists g, has_cell n g /\ ~ has_cell o g) \/
  (exists g s, s <> "geometry" /\ has_attribute o s /\ has_attribute n s /\ disagree o n g s) \/
  (exists g c1 c2, cell_at o g c1 /\ cell_at n g c2 /\ map fst c1 <> map fst c2) \/
  (exists g c k d1 d2, cell_at n g c /\ sget c "id" = Some (JStr k) /\
     sget (f_graph o) k = Some d1 /\ sget (f_graph n) k = Some d2 /\ ~ same_neighbours d1 d2).

(** A mesh whose cells have ids, as to_json writes them. *)
Definition with_ids (m : mesh_file) : Prop := forall c, In c (f_cells m) -> In "id" (map fst c).

(** What has become of the files b.json and b.svg: kept and copied, or removed. *)
Definition kept (b : string) (tmp out tmp' out' : dir) : Prop :=
  sget tmp' (b ++ ".json") = sget tmp (b ++ ".json") /\ sget out' (b ++ ".json") = sget tmp (b ++ ".json") /\
  sget tmp' (b ++ ".svg") = sget tmp (b ++ ".svg") /\
  sget out' (b ++ ".svg") = match sget tmp (b ++ ".svg") with Some s => Some s | None => sget out (b ++ ".svg") end.
Definition dropped (b : string) (out tmp' out' : dir) : Prop :=
  sget tmp' (b ++ ".json") = None /\ sget tmp' (b ++ ".svg") = None /\
  sget out' (b ++ ".json") = sget out (b ++ ".json") /\ sget out' (b ++ ".svg") = sget out (b ++ ".svg").
