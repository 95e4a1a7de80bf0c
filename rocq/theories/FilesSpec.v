(** Specification of the choice of data files by date (C67) and of forecasts (C68). *)
From Verif Require Import Base PyStr DateSpec.
Open Scope string_scope.
Open Scope Z_scope.

(** Calendar order. *)
Definition date_le (a b : Z * Z * Z) : Prop :=
  let '(y, m, d) := a in let '(y', m', d') := b in y < y' \/ (y = y' /\ (m < m' \/ (m = m' /\ d <= d'))).
Definition date_lt (a b : Z * Z * Z) : Prop := date_le a b /\ a <> b.
Definition a_date (d : Z * Z * Z) : Prop := calendar_date d /\ year_ok d.
Definition lacks (c : ascii) (s : string) : Prop := ~ In c (list_ascii_of_string s).

Definition directory (dir : string) : Prop := dir = "" \/ exists d, dir = d ++ "/".
(** A file in some directory whose name is ten characters, a date and three characters. *)
Definition name_era5 (f : string) (date : Z * Z * Z) : Prop := exists dir prefix text suffix,
  f = dir ++ prefix ++ text ++ suffix /\ directory dir /\
  String.length prefix = 10%nat /\ String.length suffix = 3%nat /\ lacks "/" prefix /\ lacks "/" suffix /\ written_as text date.
(** ...-YYYYMMDD-... *)
Definition name_amsr (f : string) (date : Z * Z * Z) : Prop := let '(y, m, d) := date in exists head ys ms ds tail,
  f = head ++ "-" ++ (ys ++ ms ++ ds) ++ "-" ++ tail /\ lacks "-" tail /\ all_digits ys /\ all_digits ms /\ all_digits ds /\
  String.length ys = 4%nat /\ String.length ms = 2%nat /\ String.length ds = 2%nat /\ value ys = y /\ value ms = m /\ value ds = d.
(** A path without another dot before ".date." *)
Definition name_icenet (f : string) (date : Z * Z * Z) : Prop := exists head text tail,
  f = head ++ "." ++ text ++ "." ++ tail /\ lacks "." head /\ written_as text date.

(** A file in directory [dir] named YYYYMMDDHH0000-<n>h-...-..., made at hour [hour] of [date]
    for [n] hours later. *)
Definition name_ecmwf (dir f : string) (date : Z * Z * Z) (hour n : Z) : Prop := let '(y, m, d) := date in exists ys ms ds hs ns unit kind tail,
  f = dir ++ (ys ++ ms ++ ds ++ hs ++ "0000") ++ "-" ++ (ns ++ unit) ++ "-" ++ kind ++ "-" ++ tail /\
  all_digits ys /\ all_digits ms /\ all_digits ds /\ all_digits hs /\ all_digits ns /\ ns <> "" /\
  String.length ys = 4%nat /\ String.length ms = 2%nat /\ String.length ds = 2%nat /\ String.length hs = 2%nat /\ String.length unit = 1%nat /\
  value ys = y /\ value ms = m /\ value ds = d /\ value hs = hour /\ 0 <= hour <= 23 /\ value ns = n /\
  lacks "-" unit /\ lacks "-" kind /\ lacks "-" tail /\ lacks "/" unit /\ lacks "/" kind /\ lacks "/" tail.

(** [l'] are the elements of [l] that satisfy [P], in order. *)
Inductive picked {A} (P : A -> Prop) : list A -> list A -> Prop :=
| pk_nil : picked P [] []
| pk_keep x l l' : P x -> picked P l l' -> picked P (x :: l) (x :: l')
| pk_drop x l l' : ~ P x -> picked P l l' -> picked P (x :: l) l'.
