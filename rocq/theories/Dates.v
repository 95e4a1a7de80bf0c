(** Model of dates: boundary.py 104-123, 125-179, 182-202 (times),
    config_validator.py 55-84 and the parts of Python's datetime they use.  No
    proofs here. *)
From Verif Require Import Base PyStr.
Open Scope string_scope.
Open Scope Z_scope.

(** ** Python's proleptic Gregorian calendar (CPython Lib/_pydatetime.py) *)
Definition is_leap (y : Z) : bool := (y mod 4 =? 0) && (negb (y mod 100 =? 0) || (y mod 400 =? 0)).
Definition days_in_month (y m : Z) : Z :=
  if m =? 2 then (if is_leap y then 29 else 28)
  else if (m =? 4) || (m =? 6) || (m =? 9) || (m =? 11) then 30 else 31.
Definition days_before_year (y : Z) : Z :=
  let y := y - 1 in y * 365 + y / 4 - y / 100 + y / 400.
(** [_DAYS_BEFORE_MONTH], for a common year *)
Definition before_month (m : Z) : Z :=
  nth (Z.to_nat m) [0; 0; 31; 59; 90; 120; 151; 181; 212; 243; 273; 304; 334] 0.
Definition days_before_month (y m : Z) : Z :=
  before_month m + (if (2 <? m) && is_leap y then 1 else 0).
Definition ymd2ord (y m d : Z) : Z := days_before_year y + days_before_month y m + d.
(** [_ord2ymd] *)
Definition ord2ymd (n : Z) : Z * Z * Z :=
  let n := n - 1 in
  let n400 := n / 146097 in let n := n mod 146097 in
  let n100 := n / 36524 in let n := n mod 36524 in
  let n4 := n / 1461 in let n := n mod 1461 in
  let n1 := n / 365 in let n := n mod 365 in
  let year := n400 * 400 + 1 + n100 * 100 + n4 * 4 + n1 in
  if (n1 =? 4) || (n100 =? 4) then (year - 1, 12, 31)
  else
    let leapyear := (n1 =? 3) && (negb (n4 =? 24) || (n100 =? 3)) in
    let month := (n + 50) / 32 in
    let preceding := before_month month + (if (2 <? month) && leapyear then 1 else 0) in
    let '(month, preceding) :=
      if n <? preceding then
        (month - 1, preceding - (nth (Z.to_nat (month - 1)) [0; 31; 28; 31; 30; 31; 30; 31; 31; 30; 31; 30; 31] 0
                                 + (if (month - 1 =? 2) && leapyear then 1 else 0)))
      else (month, preceding) in
    (year, month, n - preceding + 1).

(** [datetime.date(y, m, d)] raises ValueError otherwise. *)
Definition real_date (y m d : Z) : bool :=
  (1 <=? y) && (y <=? 9999) && (1 <=? m) && (m <=? 12) && (1 <=? d) && (d <=? days_in_month y m).

(** ** strptime and strftime with "%Y-%m-%d" *)
Definition digits2 (a b : ascii) : option Z :=
  match digit a, digit b with Some x, Some y => Some (10 * x + y) | _, _ => None end.
(** The regular expression of Lib/_strptime.py: four digits for %Y;
    1[0-2]|0[1-9]|[1-9] for %m; 3[0-1]|[1-2]\d|0[1-9]|[1-9]| [1-9] for %d; the whole
    text must be consumed. *)
Definition scan_day (s : string) : option Z :=
  match s with
  | String a "" => match digit a with Some x => if 1 <=? x then Some x else None | None => None end
  | String a (String b "") =>
      if Ascii.eqb a " " then match digit b with Some x => if 1 <=? x then Some x else None | None => None end
      else match digits2 a b with
           | Some x => if (1 <=? x) && (x <=? 31) then Some x else None
           | None => None
           end
  | _ => None
  end.
Definition scan_month (s : string) : option (Z * string) :=
  match s with
  | String a (String b (String c s')) =>
      if Ascii.eqb b "-" then
        match digit a with Some x => if 1 <=? x then Some (x, String c s') else None | None => None end
      else if Ascii.eqb c "-" then
        match digits2 a b with
        | Some x => if (1 <=? x) && (x <=? 12) then Some (x, s') else None
        | None => None
        end
      else None
  | _ => None
  end.
Definition strptime (s : string) : option (Z * Z * Z) :=
  match s with
  | String a (String b (String c (String d (String e s')))) =>
      match digits2 a b, digits2 c d with
      | Some h, Some l =>
          if Ascii.eqb e "-" then
            match scan_month s' with
            | Some (m, s'') =>
                match scan_day s'' with
                | Some day => if real_date (100 * h + l) m day then Some (100 * h + l, m, day) else None
                | None => None
                end
            | None => None
            end
          else None
      | _, _ => None
      end
  | _ => None
  end.

Definition digit_char (z : Z) : ascii := ascii_of_nat (Z.to_nat (48 + z)).
Definition two_digits (z : Z) : string := String (digit_char (z / 10)) (String (digit_char (z mod 10)) "").
Definition four_digits (z : Z) : string := two_digits (z / 100) ++ two_digits (z mod 100).
Fixpoint drop_zeros (s : string) : string :=
  match s with String c s' => if Ascii.eqb c "0" then drop_zeros s' else s | "" => "" end.

Section Time.
  (** Whether the C library pads %Y to four digits (glibc does not; newer Python
      versions do), and the current time in microseconds since the start of
      ordinal day 0. *)
  Context (pad : bool) (now : Z).

  Definition strftime (date : Z * Z * Z) : string :=
    let '(y, m, d) := date in
    (if pad then four_digits y else drop_zeros (four_digits y)) ++ "-" ++ two_digits m ++ "-" ++ two_digits d.

  (** ** float(text) *)
  Inductive fval := FNum (q : Q) | FInf (negative : bool) | FNan.
  (** digitpart of Python's grammar: digits with single underscores between them;
      [acc] is the number read so far, [n] how many digits. *)
  Fixpoint scan_digits (s : string) (acc : Z) (n : Z) : Z * Z * string :=
    match s with
    | String c s' =>
        match digit c with
        | Some x => scan_digits s' (10 * acc + x) (n + 1)
        | None =>
            if Ascii.eqb c "_" && (0 <? n) then
              match s' with
              | String d s'' => match digit d with
                                | Some x => scan_digits s'' (10 * acc + x) (n + 1)
                                | None => (acc, n, s)
                                end
              | "" => (acc, n, s)
              end
            else (acc, n, s)
        end
    | "" => (acc, n, "")
    end.
  Definition scan_sign (s : string) : bool * string :=
    match s with
    | String c s' => if Ascii.eqb c "-" then (true, s') else if Ascii.eqb c "+" then (false, s') else (false, s)
    | "" => (false, "")
    end.
  Definition scale (z e : Z) : Q :=
    if e <? 0 then (inject_Z z / inject_Z (10 ^ (- e)))%Q else inject_Z (z * 10 ^ e).
  Definition scan_number (s : string) : option Q :=
    let '(a, n, s) := scan_digits s 0 0 in
    let '(a, n, k, s) :=
      match s with
      | String c s' => if Ascii.eqb c "." then let '(b, m, r) := scan_digits s' 0 0 in (a * 10 ^ m + b, n + m, m, r)
                       else (a, n, 0, s)
      | "" => (a, n, 0, s)
      end in
    if n =? 0 then None
    else match s with
         | "" => Some (scale a (- k))
         | String c s' =>
             if Ascii.eqb (lower_char c) "e" then
               let '(neg, s') := scan_sign s' in
               let '(e, m, r) := scan_digits s' 0 0 in
               match r with
               | "" => if m =? 0 then None else Some (scale a ((if neg : bool then - e else e) - k))
               | _ => None
               end
             else None
         end.
  (** [float(s)]; [None] is ValueError.  (The value is exact here.) *)
  Definition py_float (s : string) : option fval :=
    let '(neg, s) := scan_sign (strip s) in
    let l := lower s in
    if String.eqb l "inf" || String.eqb l "infinity" then Some (FInf neg)
    else if String.eqb l "nan" then Some FNan
    else match scan_number s with
         | Some q => Some (FNum (if neg then (- q)%Q else q))
         | None => None
         end.

  (** ** timedelta and datetime arithmetic *)
  Definition us_per_day : Z := 86400000000.
  (** round(x), ties to even *)
  Definition round_half_even (x : Q) : Z :=
    let f := Qfloor x in
    let r := (x - inject_Z f)%Q in
    if qltb r (1#2) then f
    else if qltb (1#2) r then f + 1
    else if Z.even f then f else f + 1.
  (** [datetime.today() + timedelta(days=x)], as a date; infinities and results
      outside the years 1 to 9999 raise OverflowError, nan ValueError. *)
  Definition shifted_today (x : fval) : res (Z * Z * Z) :=
    match x with
    | FNan => Err ValueError
    | FInf _ => Err OverflowError
    | FNum q =>
        let us := round_half_even (q * inject_Z us_per_day) in
        if (999999999 <? us / us_per_day) || (us / us_per_day <? -999999999) then Err OverflowError
        else
          let n := (now + us) / us_per_day in
          if (n <? 1) || (3652059 <? n) then Err OverflowError else Ok (ord2ymd n)
    end.
  Definition fneg (x : fval) : fval :=
    match x with FNum q => FNum (- q)%Q | FInf b => FInf (negb b) | FNan => FNan end.

  (** boundary.py 125-179 [parse_datetime].  [today - timedelta(x)] is today plus
      the exactly negated timedelta. *)
  Definition parse_datetime (s : string) : res string :=
    let s := upper s in
    match strptime s with
    | Some date => Ok (strftime date)
    | None =>
        if String.eqb (strip s) "TODAY" then Ok (strftime (ord2ymd (now / us_per_day)))
        else if negb (contains "TODAY" s) then Err ValueError
        else if contains "+" s then
          w <- py_nth (split "+" s) 1 ;;
          match py_float (strip w) with
          | Some x => date <- shifted_today x ;; Ok (strftime date)
          | None => Err ValueError
          end
        else if contains "-" s then
          w <- py_nth (split "-" s) 1 ;;
          match py_float (strip w) with
          | Some x => date <- shifted_today (fneg x) ;; Ok (strftime date)
          | None => Err ValueError
          end
        else Err ValueError
    end.

  (** boundary.py 113-118, 195-202: the time range of a Boundary, as text, from the
      list given to the constructor ([None] and [[]] alike give no time range). *)
  Definition time_texts (l : list string) : res (list string) :=
    match l with
    | [] => Ok []
    | _ =>
        a <- py_nth l 0 ;; a <- parse_datetime a ;;
        b <- py_nth l 1 ;; b <- parse_datetime b ;;
        match l with
        | [_; _] =>
            match strptime a, strptime b with
            | Some (y, m, d), Some (y', m', d') =>
                if ymd2ord y' m' d' <? ymd2ord y m d then Err ValueError else Ok [a; b]
            | _, _ => Err ValueError
            end
        | _ => Err ValueError
        end
    end.
End Time.

(** ** config_validator.py 55-84 [assert_valid_time] *)
(** [datetime.date.fromisoformat(s)] succeeds: exactly YYYY-MM-DD (the only format
    before Python 3.11). *)
Definition fromisoformat (s : string) : bool :=
  match s with
  | String y1 (String y2 (String y3 (String y4 (String h1 (String m1 (String m2 (String h2 (String d1 (String d2 ""))))))))) =>
      Ascii.eqb h1 "-" && Ascii.eqb h2 "-" &&
      match digits2 y1 y2, digits2 y3 y4, digits2 m1 m2, digits2 d1 d2 with
      | Some h, Some l, Some m, Some d => real_date (100 * h + l) m d
      | _, _, _, _ => false
      end
  | _ => false
  end.
(** [re.match(r'TODAY[+,-]\d+', s)]: a prefix of s matches. *)
Definition match_relative (s : string) : bool :=
  match strip_prefix "TODAY" s with
  | Some (String c (String d _)) =>
      (Ascii.eqb c "+" || Ascii.eqb c "," || Ascii.eqb c "-") &&
      match digit d with Some _ => true | None => false end
  | _ => false
  end.
Definition assert_valid_time (s : string) : bool :=
  match_relative (drop_char " " s) || String.eqb s "TODAY" || fromisoformat s.
