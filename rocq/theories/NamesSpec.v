(** Specification of renaming data columns (C63). *)
From Verif Require Import Base PyStr.
Open Scope string_scope.

Definition positional (n : string) : Prop := n = "lat" \/ n = "long" \/ n = "time".
(** [t'] is [t] with its data columns named [l] in order, the values unchanged. *)
Inductive renamed {V} : list string -> list (string * V) -> list (string * V) -> Prop :=
| rn_nil : renamed [] [] []
| rn_keep l n c t t' : positional n -> renamed l t t' -> renamed l ((n, c) :: t) ((n, c) :: t')
| rn_new l n m c t t' : ~ positional n -> renamed l t t' -> renamed (m :: l) ((n, c) :: t) ((m, c) :: t').
(** The data columns of [t] are called [l], in order. *)
Inductive named {V} : list string -> list (string * V) -> Prop :=
| nm_nil : named [] []
| nm_keep l n c t : positional n -> named l t -> named l ((n, c) :: t)
| nm_data l n c t : ~ positional n -> named l t -> named (n :: l) ((n, c) :: t).
(** Names that can be listed with commas in between. *)
Definition no_comma (n : string) : Prop := ~ In ","%char (list_ascii_of_string n).
