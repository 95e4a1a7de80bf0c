(** Model of utils.py 44-106 [frac_of_month], [str_to_datetime], [date_range],
    [convert_decimal_days].  No proofs here. *)
From Verif Require Import Base PyStr Dates.
Open Scope string_scope.
Open Scope Z_scope.

(** A datetime: the date and the microseconds since midnight. *)
Record moment := mkMoment { m_date : Z * Z * Z; m_us : Z }.
Definition ordinal (d : Z * Z * Z) : Z := let '(y, m, d) := d in ymd2ord y m d.
Definition instant (t : moment) : Z := ordinal (m_date t) * us_per_day + m_us t.
(** [(b - a).days] *)
Definition timedelta_days (b a : moment) : Z := (instant b - instant a) / us_per_day.
(** [a + timedelta(n)]; the results formed here lie between two datetimes, so the year
    can be represented. *)
Definition add_days (a : moment) (n : Z) : moment := mkMoment (ord2ymd (ordinal (m_date a) + n)) (m_us a).

(** [str] of an integer, for a year or a month; five-figure and negative years are
    texts strptime rejects. *)
Definition str_year (y : Z) : option string := if (1 <=? y) && (y <=? 9999) then Some (drop_zeros (four_digits y)) else None.
(** 69-70 *)
Definition str_to_datetime (s : option string) : res moment :=
  match s with
  | Some s => match strptime s with Some d => Ok (mkMoment d 0) | None => Err ValueError end
  | None => Err ValueError
  end.
Definition date_text (y m : Z) (day : string) : option string :=
  match str_year y with Some s => Some (s ++ "-" ++ drop_zeros (two_digits m) ++ "-" ++ day) | None => None end.

(** 44-60; [monthrange] raises IllegalMonthError, a ValueError *)
Definition frac_of_month (year month : Z) (start_date end_date : option moment) : res Q :=
  if negb ((1 <=? month) && (month <=? 12)) then Err ValueError
  else
    let days := days_in_month year month in
    s <- match start_date with Some s => Ok s | None => str_to_datetime (date_text year month "01") end ;;
    e <- match end_date with Some e => Ok e | None => str_to_datetime (date_text year month (two_digits days)) end ;;
    if negb (snd (fst (m_date s)) =? month) then Err AssertionError
    else if negb (snd (fst (m_date e)) =? month) then Err AssertionError
    else Ok (inject_Z (timedelta_days e s + 1) / inject_Z days)%Q.

(** 73-75; [range] of a negative number is empty *)
Definition date_range (start_date end_date : moment) : list moment :=
  map (fun n => add_days start_date (Z.of_nat n)) (seq 0 (Z.to_nat (timedelta_days end_date start_date))).

(** 78-106: the numbers the text is made of.  [np.modf] truncates; [round] is half to
    even. *)
Record duration := mkDur { du_days : option Z; du_hours : option Q; du_minutes : option Z }.
Definition trunc (q : Q) : Z := Z.quot (Qnum q) (Zpos (Qden q)).
Definition convert_decimal_days (decimal_days : Q) (mins : bool) : duration :=
  let days := trunc decimal_days in
  let hours := ((decimal_days - inject_Z days) * 24)%Q in
  if mins then
    let h := trunc hours in
    let minutes := round_half_even ((hours - inject_Z h) * 60)%Q in
    if negb (days =? 0) then mkDur (Some days) (Some (inject_Z h)) (Some minutes)
    else if negb (h =? 0) then mkDur None (Some (inject_Z h)) (Some minutes)
    else mkDur None None (Some minutes)
  else
    let h := (inject_Z (round_half_even (hours * 100)) / 100)%Q in
    if negb (days =? 0) then mkDur (Some days) (Some h) None
    else mkDur None (Some h) None.
