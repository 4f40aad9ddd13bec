(** Model of rocketry/core/time/anchor.py (AnchoredInterval), the seven
    subclasses of rocketry/time/interval.py and the roll methods of
    rocketry/core/time/base.py:72-176 (TimeInterval). *)
From Verif Require Import Model.Base Model.Interval Model.Calendar.
Open Scope Z_scope.

(** The subclasses of AnchoredInterval: rocketry/time/interval.py:15 TimeOfSecond,
    :43 TimeOfMinute, :75 TimeOfHour, :112 TimeOfDay, :150 TimeOfWeek, :220
    TimeOfMonth, :300 TimeOfYear. *)
Inductive acls : Type := TSecond | TMinute | THour | TDay | TWeek | TMonth | TYear.

(** _scope_max: interval.py:25, 52, 86, 123, 161, 235, 315 *)
Definition scope_max (c : acls) : Z :=
  match c with
  | TSecond => us_second
  | TMinute => us_minute
  | THour => us_hour
  | TDay => us_day
  | TWeek => 7 * us_day
  | TMonth => 31 * us_day
  | TYear => 366 * us_day
  end.

(** _unit_resolution: interval.py:26, 53, 87, 124, 162, 236.  TimeOfYear has
    none (None) and overrides every use of it; 0 is never read. *)
Definition unit_resolution (c : acls) : Z :=
  match c with
  | TSecond => us_millisecond
  | TMinute => us_second
  | THour => us_minute
  | TDay => us_hour
  | TWeek => us_day
  | TMonth => us_day
  | TYear => 0
  end.

(** TimeOfYear._month_start_mapping: interval.py:326-341; a missing key is KeyError *)
Definition month_start_mapping (k : Z) : result Z :=
  match k with
  | 0 => Ok 0
  | 1 => Ok (31 * us_day)
  | 2 => Ok (60 * us_day)
  | 3 => Ok (91 * us_day)
  | 4 => Ok (121 * us_day)
  | 5 => Ok (152 * us_day)
  | 6 => Ok (182 * us_day)
  | 7 => Ok (213 * us_day)
  | 8 => Ok (244 * us_day)
  | 9 => Ok (274 * us_day)
  | 10 => Ok (305 * us_day)
  | 11 => Ok (335 * us_day)
  | 12 => Ok (366 * us_day)
  | _ => Err KeyError
  end.

(** TimeOfYear._year_start_mapping: interval.py:343 (the reversed mapping) *)
Definition year_start_mapping (ms : Z) : result Z :=
  match find (fun k => match month_start_mapping k with Ok v => v =? ms | Err _ => false end)
             [0; 1; 2; 3; 4; 5; 6; 7; 8; 9; 10; 11; 12] with
  | Some k => Ok k
  | None => Err KeyError
  end.

(** Values accepted as [start]/[end].  Strings are represented by what the
    regular expressions / dateutil extract from them:
    - [VClock us]: a clock string, e.g. "10:30" for TimeOfDay, "15:00" for
      TimeOfHour, "30.5" for TimeOfMinute, as microseconds
      (interval.py:37-40, 64-71, 95-102, 132-137);
    - [VUnit n time]: a unit name with an optional time of day in microseconds:
      "Mon 10:00" with n = 0..6 (interval.py:187-205), "5th 10:00" with n the
      day number (interval.py:248-273), month name with n = 0..11 (interval.py:347-370);
    - [VMonthDay n day time]: "Jan 5th 10:00" (interval.py:365-370).
    Not represented: the "n quarter" strings of TimeOfHour (floats), dicts,
    floats, and strings the regular expressions reject. *)
Inductive aval : Type :=
| VInt (i : Z)
| VClock (us : Z)
| VUnit (n : Z) (time : option Z)
| VMonthDay (n day : Z) (time : option Z).

Inductive side : Type := SStart | SEnd.
Definition is_end (s : side) : bool := match s with SEnd => true | SStart => false end.

(** anchor.py:87-90, AnchoredInterval.anchor_int *)
Definition anchor_int_base (c : acls) (i : Z) (s : side) : Z :=
  if is_end s then (i + 1) * unit_resolution c else i * unit_resolution c.

(** anchor_int of each class: interval.py:32-35, 59-62, 90-93, 127-130, 179-185, 241-246, 380-388 *)
Definition anchor_int (c : acls) (i : Z) (s : side) : result Z :=
  match c with
  | TSecond => if (0 <=? i) && (i <=? 1000) then Ok (anchor_int_base c i s) else Err ValueError
  | TMinute => if (0 <=? i) && (i <=? 59) then Ok (anchor_int_base c i s) else Err ValueError
  | THour => if (0 <=? i) && (i <=? 59) then Ok (anchor_int_base c i s) else Err ValueError
  | TDay => if (0 <=? i) && (i <=? 23) then Ok (anchor_int_base c i s) else Err ValueError
  | TWeek => if (1 <=? i) && (i <=? 7) then Ok (anchor_int_base c (i - 1) s) else Err ValueError
  | TMonth => if (1 <=? i) && (i <=? 31) then Ok (anchor_int_base c (i - 1) s) else Err ValueError
  | TYear =>
      if (1 <=? i) && (i <=? 12) then
        let i := i - 1 in
        if is_end s then let* v := month_start_mapping (i + 1) in Ok (v - 1)
        else month_start_mapping i
      else Err ValueError
  end.

(** TimeOfMonth.anchor_str: interval.py:248-273 *)
Definition month_anchor_str (nth_day : Z) (time : option Z) (s : side) : Z :=
  let microseconds :=
    match time with
    | None => if is_end s then us_day else 0
    | Some us => us
    end in
  us_day * (nth_day - 1) + microseconds.

(** anchor_str of each class on the extracted pieces. *)
Definition anchor_str (c : acls) (v : aval) (s : side) : result Z :=
  match c, v with
  | (TSecond | TMinute | THour | TDay), VClock us => Ok us
  | TWeek, VUnit nth_day time =>                                (* interval.py:187-205 *)
      if (0 <=? nth_day) && (nth_day <=? 6) then
        let microseconds :=
          match time with
          | None => if is_end s then us_day else 0
          | Some us => us
          end in
        Ok (us_day * nth_day + microseconds)
      else Err ValueError
  | TMonth, VUnit nth_day time => Ok (month_anchor_str nth_day time s)
  | TYear, VUnit nth_month _ =>                                 (* interval.py:356-364, 370 *)
      if is_end s then let* v := month_start_mapping (nth_month + 1) in Ok (v - 1)
      else month_start_mapping nth_month
  | TYear, VMonthDay nth_month day time =>                      (* interval.py:365-370 *)
      let* v := month_start_mapping nth_month in
      Ok (v + month_anchor_str day time SStart)
  | _, _ => Err ValueError
  end.

(** anchor.py:66-82, anchor *)
Definition anchor (c : acls) (v : aval) (s : side) : result Z :=
  match v with
  | VInt i => anchor_int c i s
  | _ => anchor_str c v s
  end.

(** anchor.py:152-161 to_timepoint; interval.py:372-378 for TimeOfYear *)
Definition to_timepoint (c : acls) (ms : Z) : result Z :=
  match c with
  | TYear =>
      let* month_num := year_start_mapping ms in
      let* v := month_start_mapping (month_num + 1) in
      Ok (v - 1)
  | _ =>
      let end_ms := ms + unit_resolution c in
      Ok (if scope_max c <=? end_ms then end_ms - scope_max c else end_ms)
  end.

(** anchor.py:163-165 _validate *)
Definition validate (c : acls) (n : Z) : result Z :=
  if (n <? 0) || (scope_max c <? n) then Err ValueError else Ok n.

(** An instance: class and the attributes _start, _end (anchor.py:40-41). *)
Record anchored : Type := Anchored { a_cls : acls; a_start : Z; a_end : Z }.

(** anchor.py:123-130 set_start *)
Definition set_start (c : acls) (v : option aval) : result Z :=
  let* ms := match v with None => Ok 0 | Some v => anchor c v SStart end in
  validate c ms.

(** anchor.py:132-150 set_end *)
Definition set_end (c : acls) (start : Z) (v : option aval) (right_closed time_point starting : bool) : result Z :=
  let* ms :=
    match v with
    | None => if time_point then to_timepoint c start
              else if starting then Ok start
              else Ok (scope_max c)
    | Some v => anchor c v SEnd
    end in
  let ms := if right_closed then ms + 1 else ms in
  validate c ms.

(** anchor.py:55-64 __init__ *)
Definition mk_anchored (c : acls) (start end_ : option aval) (time_point starting right_closed : bool)
  : result anchored :=
  match start, end_ with
  | None, None =>
      if time_point then Err ValueError
      else Ok (Anchored c 0 (scope_max c))
  | _, _ =>
      let* s := set_start c start in
      let* e := set_end c s end_ right_closed time_point starting in
      Ok (Anchored c s e)
  end.

(** cls(start, end), cls.at(value) (anchor.py:425-427), cls.starting(value) (anchor.py:429-431) *)
Definition period (c : acls) (start end_ : option aval) := mk_anchored c start end_ false false false.
Definition period_at (c : acls) (v : aval) := mk_anchored c (Some v) None true false false.
Definition period_starting (c : acls) (v : aval) := mk_anchored c (Some v) None false true false.

(** anchor_dt: anchor.py:97-108 (second, minute, hour), interval.py:139-147 (day),
    :207-216 (week), :275-287 (month), :390-402 (year; the month is 1..12 so the
    lookup does not fail, the default is never used). *)
Definition anchor_dt (c : acls) (t : Z) : Z :=
  match c with
  | TSecond => to_microseconds 0 0 0 0 0 (dt_microsecond t)
  | TMinute => to_microseconds 0 0 0 (dt_second t) 0 (dt_microsecond t)
  | THour => to_microseconds 0 0 (dt_minute t) (dt_second t) 0 (dt_microsecond t)
  | TDay => to_microseconds 0 (dt_hour t) (dt_minute t) (dt_second t) 0 (dt_microsecond t)
  | TWeek => to_microseconds 0 (dt_hour t) (dt_minute t) (dt_second t) 0 (dt_microsecond t)
             + dt_weekday t * us_day
  | TMonth => to_microseconds (dt_day t - 1) (dt_hour t) (dt_minute t) (dt_second t) 0 (dt_microsecond t)
  | TYear =>
      match month_start_mapping (dt_month t - 1) with
      | Ok v => v
      | Err _ => 0
      end + to_microseconds (dt_day t - 1) (dt_hour t) (dt_minute t) (dt_second t) 0 (dt_microsecond t)
  end.

(** anchor.py:220-222; interval.py:289-291 *)
Definition get_scope_forward (c : acls) (t : Z) : Z :=
  match c with
  | TMonth => us_day * monthrange_days (dt_year t) (dt_month t)
  | _ => scope_max c
  end.

(** anchor.py:216-218; interval.py:293-297 *)
Definition get_scope_back (c : acls) (t : Z) : Z :=
  match c with
  | TMonth =>
      let month := if dt_month t =? 1 then 12 else dt_month t - 1 in
      let year := if dt_month t =? 1 then dt_year t - 1 else dt_year t in
      us_day * monthrange_days year month
  | _ => scope_max c
  end.

(** anchor.py:212-214 is_full *)
Definition is_full (p : anchored) : bool :=
  (a_start p =? a_end p) || ((a_start p =? 0) && (a_end p =? scope_max (a_cls p))).

(** anchor.py:191-210 __contains__ *)
Definition acontains (p : anchored) (t : Z) : bool :=
  if is_full p then true
  else
    let ms := anchor_dt (a_cls p) t in
    if negb (a_end p <? a_start p) then (a_start p <=? ms) && (ms <? a_end p)
    else (a_start p <=? ms) || (ms <? a_end p).

(** anchor.py:236-275 next_start *)
Definition next_start (p : anchored) (t : Z) : Z :=
  let ms := anchor_dt (a_cls p) t in
  if ms <? a_start p then t + (a_start p - ms)
  else t + (a_start p - ms + get_scope_forward (a_cls p) t).

(** anchor.py:277-316 next_end *)
Definition next_end (p : anchored) (t : Z) : Z :=
  let ms := anchor_dt (a_cls p) t in
  if ms <? a_end p then t + (a_end p - ms)
  else t + (a_end p - ms + get_scope_forward (a_cls p) t).

(** anchor.py:318-356 prev_start *)
Definition prev_start (p : anchored) (t : Z) : Z :=
  let ms := anchor_dt (a_cls p) t in
  if ms <? a_start p then t + (a_start p - ms - get_scope_back (a_cls p) t)
  else t + (a_start p - ms).

(** anchor.py:358-397 prev_end *)
Definition prev_end (p : anchored) (t : Z) : Z :=
  let ms := anchor_dt (a_cls p) t in
  if ms <? a_end p then t + (a_end p - ms - get_scope_back (a_cls p) t)
  else t + (a_end p - ms).

(** anchor.py:224-234 rollstart, rollend *)
Definition rollstart (p : anchored) (t : Z) : Z := if acontains p t then t else next_start p t.
Definition rollend (p : anchored) (t : Z) : Z := if acontains p t then t else prev_end p t.

Definition resolution : Z := 1.   (* base.py:24, timedelta.resolution: one microsecond *)

Definition of_result {A} (r : result A) : outcome A :=
  match r with Ok a => Returns a | Err e => Raises e end.

(** base.py:128-151 TimeInterval.rollforward; it may recurse, hence the fuel *)
Fixpoint arollforward (fuel : nat) (p : anchored) (t : Z) : outcome (interval Z) :=
  match fuel with
  | O => OutOfFuel
  | S fuel =>
      if is_full p then
        let start := t in
        let end_ := next_end p t in
        let end_ := if end_ =? start then next_end p (t + resolution) else end_ in
        of_result (mk_interval Z_ops start end_ CLeft)
      else
        let start := rollstart p t in
        let end_ := next_end p t in
        if start =? end_ then arollforward fuel p (end_ + resolution)
        else of_result (mk_interval Z_ops start end_ CLeft)
  end.

(** base.py:153-176 TimeInterval.rollback *)
Definition arollback (p : anchored) (t : Z) : result (interval Z) :=
  if is_full p then
    let end_ := t in
    let start := prev_start p t in
    let start := if end_ =? start then prev_start p (t - resolution) else start in
    mk_interval Z_ops start end_ CLeft
  else
    let end_ := rollend p t in
    let start := prev_start p t in
    mk_interval Z_ops start end_ (if start =? end_ then CBoth else CLeft).
