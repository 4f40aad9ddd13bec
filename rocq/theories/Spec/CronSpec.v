(** What a crontab line means (crontab(5)): minute, hour, day of month, month,
    day of week; lists, ranges and steps of the numbers each field shows. *)
From Coq Require Import ZArith List.
From Verif Require Import Model.Base Model.Calendar Model.Anchored Model.Cron Spec.PeriodSpec.
Import ListNotations.
Open Scope Z_scope.

(** The numbers crontab writes in a field: 0-59, 0-23, 1-31, 1-12, and 0-7 for
    the day of week, where both 0 and 7 are Sunday (day 7 of [unit_number]). *)
Definition first_number (c : acls) : Z := match c with TMonth | TYear => 1 | _ => 0 end.
Definition last_number (c : acls) : Z :=
  match c with
  | TSecond => 999 | TMinute | THour => 59 | TDay => 23 | TWeek => 7 | TMonth => 31 | TYear => 12
  end.
Definition shows (c : acls) (x n : Z) : Prop := x = n \/ (c = TWeek /\ x = 0 /\ n = 7).

(** A value as a number: names count from Monday, January. *)
Definition number (v : cval) : Z := match v with CNum n => n | CName k => k + 1 end.

(** An item selects a number of the field: by itself, in a range (going round
    when it ends before it starts), every [step]-th from the start of the range. *)
Definition selects (c : acls) (it : citem) (x : Z) : Prop :=
  match it with
  | CStar => True
  | CStarStep step => (x - first_number c) mod step = 0
  | CAt v None => x = number v
  | CAt v (Some step) => number v <= x /\ (x - number v) mod step = 0
  | CRange a b None => cyc_between (number a) (number b) x
  | CRange a b (Some step) => number a <= x <= number b /\ (x - number a) mod step = 0
  end.

(** The field matches what the clock or calendar shows at [t]. *)
Definition field_match (c : acls) (items : list citem) (t : Z) : Prop :=
  exists it x, In it items /\ first_number c <= x <= last_number c /\ selects c it x /\ shows c x (unit_number c t).

Definition restricted (items : list citem) : Prop := exists it, In it items /\ it <> CStar.

(** The whole line: the days match either way when both day fields are restricted. *)
Definition cron_match (e : cron) (t : Z) : Prop :=
  field_match THour (c_minute e) t /\ field_match TDay (c_hour e) t /\ field_match TYear (c_month e) t /\
  ((restricted (c_dom e) /\ restricted (c_dow e) /\ (field_match TMonth (c_dom e) t \/ field_match TWeek (c_dow e) t)) \/
   (~ (restricted (c_dom e) /\ restricted (c_dow e)) /\ field_match TMonth (c_dom e) t /\ field_match TWeek (c_dow e) t)).

(** Well-formed values of a field; names only for days of the week and months. *)
Definition value_ok (c : acls) (v : cval) : Prop :=
  first_number c <= number v <= last_number c /\
  (match v with CName _ => (c = TWeek \/ c = TYear) /\ 1 <= number v | CNum _ => True end).

(** The items the theorems cover.  Left out, and refuted below: a step after a
    single value ("5/15"), a step over all days of the week ("*/2", which
    crontab counts from Sunday), a numeric range with a step outside the
    minute and hour fields, and the range "0-7" of days of the week. *)
Definition item_ok (c : acls) (it : citem) : Prop :=
  match it with
  | CStar => True
  | CStarStep step => 0 < step /\ (c <> TWeek \/ step = 1)
  | CAt v None => value_ok c v
  | CAt v (Some _) => False
  | CRange a b None => value_ok c a /\ value_ok c b /\ ~ (c = TWeek /\ a = CNum 0 /\ number b = 7)
  | CRange a b (Some step) =>
      value_ok c a /\ value_ok c b /\ number a <= number b /\ 0 < step /\
      match a, b with
      | CNum _, CNum _ => c = THour \/ c = TDay
      | CName _, CName _ => True
      | _, _ => False
      end
  end.

(** A field: either only stars or no star (see the refutation for "*,5"). *)
Definition field_ok (c : acls) (items : list citem) : Prop :=
  items <> [] /\ (forall it, In it items -> item_ok c it) /\
  ((forall it, In it items -> it = CStar) \/ (forall it, In it items -> it <> CStar)).

Definition cron_ok (e : cron) : Prop :=
  field_ok THour (c_minute e) /\ field_ok TDay (c_hour e) /\ field_ok TMonth (c_dom e) /\
  field_ok TYear (c_month e) /\ field_ok TWeek (c_dow e).

(** The moments at which months are told apart correctly (C08): all but the
    last microsecond of each month, when the month field is restricted. *)
Definition month_settled (e : cron) (t : Z) : Prop :=
  restricted (c_month e) -> ~ last_microsecond_of_month (dt_month t) t.

(** Lines without month field whose days of month occur in every month. *)
Definition every_month (e : cron) : Prop :=
  ~ restricted (c_month e) /\
  forall it x, In it (c_dom e) -> it <> CStar -> selects TMonth it x -> 1 <= x <= 31 -> x <= 28.

(** Asked in a month of 31 days, or of a line that does not name the 31st. *)
Definition no_31_missing (e : cron) (t : Z) : Prop :=
  forall it, In it (c_dom e) -> it <> CStar -> selects TMonth it 31 -> monthrange_days (dt_year t) (dt_month t) = 31.

(** Concrete lines. *)
Definition star : list citem := [CStar].
(** "*/15 8-17 1,15 * Mon-Fri" *)
Definition ex_line : cron :=
  Cron [CStarStep 15] [CRange (CNum 8) (CNum 17) None] [CAt (CNum 1) None; CAt (CNum 15) None] star
       [CRange (CName 0) (CName 4) None].
(** 3 June 2024 is a Monday *)
Definition monday : Z := mk_datetime 2024 6 3 12 0 0 0.
(** "1-5/2" in the day of week field selects Monday, Wednesday, Friday *)
Definition step_range : cron := Cron star star star star [CRange (CNum 1) (CNum 5) (Some 2)].
(** "5/15" in the minute field *)
Definition value_step : cron := Cron [CAt (CNum 5) (Some 15)] star star star star.
(** "*,5" in the minute field *)
Definition star_in_list : cron := Cron [CStar; CAt (CNum 5) None] star star star star.
(** "*/2" in the day of week field: Sunday (0), Tuesday (2), ... *)
Definition dow_step : cron := Cron star star star star [CStarStep 2].
(** "0-7" in the day of week field: all days *)
Definition dow_0_7 : cron := Cron star star star star [CRange (CNum 0) (CNum 7) None].
(** the last microsecond of May for month 5 *)
Definition may : cron := Cron star star star [CAt (CNum 5) None] star.
(** day 31 asked in February *)
Definition day31 : cron := Cron star star [CAt (CNum 31) None] star star.
(** "0 0 1 6 *" rolled forward from 15 January 2023 *)
Definition june_first : cron := Cron [CAt (CNum 0) None] [CAt (CNum 0) None] [CAt (CNum 1) None] [CAt (CNum 6) None] star.
