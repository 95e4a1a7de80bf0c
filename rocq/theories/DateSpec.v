(** Specification of dates, used by C40: the calendar as "the next day", and how
    a date is written.  Nothing here refers to the model's functions. *)
From Coq Require Import Ascii String.
From Verif Require Import Base.
Open Scope string_scope.
Open Scope Z_scope.

Definition leap_year (y : Z) : Prop := (4 | y) /\ (~ (100 | y) \/ (400 | y)).
(** The number of days of month [m] of year [y]. *)
Inductive month_length (y : Z) : Z -> Z -> Prop :=
| ml_31 m : In m [1; 3; 5; 7; 8; 10; 12] -> month_length y m 31
| ml_30 m : In m [4; 6; 9; 11] -> month_length y m 30
| ml_29 : leap_year y -> month_length y 2 29
| ml_28 : ~ leap_year y -> month_length y 2 28.
Definition calendar_date (d : Z * Z * Z) : Prop :=
  let '(y, m, d) := d in exists l, month_length y m l /\ 1 <= d <= l.
(** The day after. *)
Inductive next_day : Z * Z * Z -> Z * Z * Z -> Prop :=
| nd_day y m d l : month_length y m l -> 1 <= d < l -> next_day (y, m, d) (y, m, d + 1)
| nd_month y m l : month_length y m l -> m < 12 -> next_day (y, m, l) (y, m + 1, 1)
| nd_year y : next_day (y, 12, 31) (y + 1, 1, 1).
(** [b] is [n] days after [a]. *)
Inductive days_after : nat -> Z * Z * Z -> Z * Z * Z -> Prop :=
| da_0 a : days_after 0 a a
| da_S n a b c : next_day a b -> days_after n b c -> days_after (S n) a c.
(** Years Python can represent. *)
Definition year_ok (d : Z * Z * Z) : Prop := 1 <= fst (fst d) <= 9999.

(** ** Text *)
Definition is_digit (c : ascii) : Prop := (48 <= nat_of_ascii c <= 57)%nat.
Definition all_digits (s : string) : Prop := forall c, In c (list_ascii_of_string s) -> is_digit c.
Fixpoint value_from (acc : Z) (s : string) : Z :=
  match s with "" => acc | String c s' => value_from (10 * acc + (Z.of_nat (nat_of_ascii c) - 48)) s' end.
Definition value (s : string) : Z := value_from 0 s.
Definition blanks (s : string) : Prop := forall c, In c (list_ascii_of_string s) -> c = " "%char.

(** A date written year-month-day, the year with four digits, the month and the day
    with one or two. *)
Definition written_as (s : string) (date : Z * Z * Z) : Prop :=
  let '(y, m, d) := date in exists ys ms ds,
    s = ys ++ "-" ++ ms ++ "-" ++ ds /\ all_digits ys /\ all_digits ms /\ all_digits ds /\
    String.length ys = 4%nat /\ (String.length ms = 1 \/ String.length ms = 2)%nat /\
    (String.length ds = 1 \/ String.length ds = 2)%nat /\
    value ys = y /\ value ms = m /\ value ds = d.
(** The same with two digits each: YYYY-MM-DD. *)
Definition iso_text (s : string) (date : Z * Z * Z) : Prop :=
  written_as s date /\ String.length s = 10%nat.
(** As [written_as], with a blank before a day of one digit. *)
Definition written_with_blank (s : string) (date : Z * Z * Z) : Prop :=
  let '(y, m, d) := date in exists ys ms ds,
    s = ys ++ "-" ++ ms ++ "- " ++ ds /\ all_digits ys /\ all_digits ms /\ all_digits ds /\
    String.length ys = 4%nat /\ (String.length ms = 1 \/ String.length ms = 2)%nat /\ String.length ds = 1%nat /\
    value ys = y /\ value ms = m /\ value ds = d.
(** Text of the form TODAY + n or TODAY - n. *)
Definition relative_text (s : string) (sign : ascii) (n : Z) : Prop :=
  exists b0 b1 b2 ds b3, s = b0 ++ "TODAY" ++ b1 ++ String sign "" ++ b2 ++ ds ++ b3 /\
    blanks b0 /\ blanks b1 /\ blanks b2 /\ blanks b3 /\ all_digits ds /\ ds <> "" /\ value ds = n.
