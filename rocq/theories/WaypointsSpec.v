(** Specification of a table of waypoints (C82). *)
From Coq Require Import String.
From Verif Require Import Base Cell Waypoints.
Open Scope string_scope.

Definition required : list string := ["Name"; "Lat"; "Long"; "Source"; "Destination"].

(** ** csv files *)
(** The text a row has under a name of the header. *)
Definition field (c : csv) (row : list string) (n t : string) : Prop :=
  exists i, nth_error (csv_header c) i = Some n /\ nth_error row i = Some t.
Definition table_of (c : csv) : Prop :=
  NoDup (csv_header c) /\ forall row, In row (csv_rows c) -> List.length row = List.length (csv_header c).
Definition marked_row (c : csv) (n : string) : Prop := exists row, In row (csv_rows c) /\ field c row n "X".
(** Every row has a number under [n]; every row has a flag. *)
Definition all_numbers (missing : string -> bool) (number : string -> option wnum) (c : csv) (n : string) : Prop :=
  forall row t, In row (csv_rows c) -> field c row n t -> missing t = false /\ exists x, number t = Some x.
Definition all_flags (missing : string -> bool) (flag : string -> option bool) (c : csv) (n : string) : Prop :=
  forall row t, In row (csv_rows c) -> field c row n t -> missing t = false /\ exists b, flag t = Some b.

(** ** DataFrames *)
(** The values under a name, which may be that of the index. *)
Definition values (f : frame) (n : string) (col : list wval) : Prop :=
  sget (fr_cols f) n = Some col \/ (fr_name f = Some n /\ fr_index f = col).
Definition a_number (missing : string -> bool) (number : string -> option wnum) (v : wval) : Prop :=
  match v with WNum _ | WBool _ => True | WStr s => missing s = false /\ number s <> None | WNaN | WNone => False end.
(** Names that can be brought together: not that of the index among the columns. *)
Definition index_apart (f : frame) : Prop :=
  match fr_name f with
  | Some n => ~ In n (map fst (fr_cols f))
  | None => ~ (In "index" (map fst (fr_cols f)) /\ In "level_0" (map fst (fr_cols f)))
  end.
