(** Datetimes as integers and the Gregorian calendar.

    A naive [datetime.datetime] is modelled by the integer number of
    microseconds since 0001-01-01T00:00:00 (its year range 1..9999 and the
    resulting OverflowError are not modelled; time zones are not modelled).
    The calendar functions are those of CPython's Lib/datetime.py
    (_is_leap, _days_before_year, _days_in_month, _days_before_month,
    _ymd2ord, _ord2ymd), which rocketry calls through datetime attributes. *)
From Verif Require Import Model.Base.
Open Scope Z_scope.

(** rocketry/pybox/time/convert.py:336-338 to_microseconds, integer arguments *)
Definition us_millisecond : Z := 1000.
Definition us_second : Z := 1000000.
Definition us_minute : Z := 60000000.
Definition us_hour : Z := 3600000000.
Definition us_day : Z := 86400000000.
Definition to_microseconds (day hour minute second millisecond microsecond : Z) : Z :=
  microsecond + millisecond * us_millisecond + second * us_second + minute * us_minute
  + hour * us_hour + day * us_day.

Definition is_leap (y : Z) : bool :=
  (y mod 4 =? 0) && (negb (y mod 100 =? 0) || (y mod 400 =? 0)).

Definition days_before_year (year : Z) : Z :=
  let y := year - 1 in y * 365 + y / 4 - y / 100 + y / 400.

(** _DAYS_IN_MONTH; months outside 1..12 do not occur *)
Definition days_in_month_common (m : Z) : Z :=
  match m with
  | 1 => 31 | 2 => 28 | 3 => 31 | 4 => 30 | 5 => 31 | 6 => 30
  | 7 => 31 | 8 => 31 | 9 => 30 | 10 => 31 | 11 => 30 | 12 => 31
  | _ => 0
  end.
Definition days_in_month (y m : Z) : Z :=
  if (m =? 2) && is_leap y then 29 else days_in_month_common m.

(** _DAYS_BEFORE_MONTH *)
Definition days_before_month_common (m : Z) : Z :=
  match m with
  | 1 => 0 | 2 => 31 | 3 => 59 | 4 => 90 | 5 => 120 | 6 => 151
  | 7 => 181 | 8 => 212 | 9 => 243 | 10 => 273 | 11 => 304 | 12 => 334
  | _ => 0
  end.
Definition days_before_month (y m : Z) : Z :=
  days_before_month_common m + (if (2 <? m) && is_leap y then 1 else 0).

Definition ymd2ord (y m d : Z) : Z :=
  days_before_year y + days_before_month y m + d.

Definition ord2ymd (n0 : Z) : Z * Z * Z :=
  let n := n0 - 1 in
  let n400 := n / 146097 in let n := n mod 146097 in
  let year := n400 * 400 + 1 in
  let n100 := n / 36524 in let n := n mod 36524 in
  let n4 := n / 1461 in let n := n mod 1461 in
  let n1 := n / 365 in let n := n mod 365 in
  let year := year + n100 * 100 + n4 * 4 + n1 in
  if (n1 =? 4) || (n100 =? 4) then (year - 1, 12, 31)
  else
    let leapyear := (n1 =? 3) && (negb (n4 =? 24) || (n100 =? 3)) in
    let month := (n + 50) / 32 in
    let preceding := days_before_month_common month + (if (2 <? month) && leapyear then 1 else 0) in
    if n <? preceding then
      let month := month - 1 in
      let preceding := preceding - (days_in_month_common month + (if (month =? 2) && leapyear then 1 else 0)) in
      (year, month, n - preceding + 1)
    else (year, month, n - preceding + 1).

(** Attributes of a datetime. *)
Definition dt_ordinal (t : Z) : Z := t / us_day + 1.
Definition dt_ymd (t : Z) : Z * Z * Z := ord2ymd (dt_ordinal t).
Definition dt_year (t : Z) : Z := fst (fst (dt_ymd t)).
Definition dt_month (t : Z) : Z := snd (fst (dt_ymd t)).
Definition dt_day (t : Z) : Z := snd (dt_ymd t).
Definition dt_hour (t : Z) : Z := (t mod us_day) / us_hour.
Definition dt_minute (t : Z) : Z := (t mod us_hour) / us_minute.
Definition dt_second (t : Z) : Z := (t mod us_minute) / us_second.
Definition dt_microsecond (t : Z) : Z := t mod us_second.
(** datetime.weekday(): (toordinal() + 6) % 7, Monday is 0 *)
Definition dt_weekday (t : Z) : Z := (dt_ordinal t + 6) mod 7.

(** calendar.monthrange(year, month)[1] *)
Definition monthrange_days (y m : Z) : Z := days_in_month y m.

(** datetime.datetime(y, m, d, hh, mm, ss, us) *)
Definition mk_datetime (y m d hh mm ss us : Z) : Z :=
  (ymd2ord y m d - 1) * us_day + to_microseconds 0 hh mm ss 0 us.
