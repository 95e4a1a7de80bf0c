(** Specification of durations, months and ranges of dates (C65, C66). *)
From Verif Require Import Base Dates DateSpec Times.
Open Scope Z_scope.

(** The time of day of a moment lies within a day, its date is one Python knows. *)
Definition is_moment (t : moment) : Prop := calendar_date (m_date t) /\ year_ok (m_date t) /\ 0 <= m_us t < 86400000000.
Definition midnight (t : moment) : Prop := m_us t = 0.
(** The day number [d] of the given month. *)
Definition day_of_month (year month d : Z) (t : moment) : Prop := m_date t = (year, month, d) /\ midnight t.

(** The days of a printed duration, units that are not printed counting as zero. *)
Definition of_opt {A} (f : A -> Q) (x : option A) : Q := match x with Some a => f a | None => 0%Q end.
Definition in_days (d : duration) : Q :=
  (of_opt inject_Z (du_days d) + of_opt (fun h => h) (du_hours d) / 24 + of_opt inject_Z (du_minutes d) / 1440)%Q.
