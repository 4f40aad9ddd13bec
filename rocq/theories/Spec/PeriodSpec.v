(** What a recurring period is, independent of the model: time is cut into
    cycles by boundaries [B k]; the period recurs once per cycle, from offset
    [s] of the cycle to offset [e] of the same cycle ([s < e]) or of the next
    one ([s >= e], overnight / over the weekend / a full cycle). *)
From Coq Require Import ZArith.
From Verif Require Import Model.Interval.
Open Scope Z_scope.

Definition occ_start (B : Z -> Z) (s : Z) (k : Z) : Z := B k + s.
Definition occ_end (B : Z -> Z) (s e : Z) (k : Z) : Z :=
  if Z_lt_dec s e then B k + e else B (k + 1) + e.

(** A moment is in the period iff it is in some (half-open) occurrence. *)
Definition in_period (B : Z -> Z) (s e : Z) (t : Z) : Prop :=
  exists k, occ_start B s k <= t < occ_end B s e k.

(** [i] is what is left of the current occurrence, or else the next occurrence. *)
Definition rollforward_spec (B : Z -> Z) (s e : Z) (t : Z) (i : interval Z) : Prop :=
  closed i = CLeft /\
  t <= left i < right i /\
  (forall u, t <= u < left i -> ~ in_period B s e u) /\
  (forall u, left i <= u < right i -> in_period B s e u) /\
  exists k, occ_start B s k <= left i /\ right i = occ_end B s e k /\
            (left i = t \/ left i = occ_start B s k).

(** [i] is the elapsed part of the occurrence going on at [t], or else the
    latest past occurrence.  An occurrence starting exactly at [t] is the
    single moment [t] (both sides closed). *)
Definition rollback_spec (B : Z -> Z) (s e : Z) (t : Z) (i : interval Z) : Prop :=
  closed i = (if Z.eq_dec (left i) (right i) then CBoth else CLeft) /\
  left i <= right i <= t /\
  (forall u, right i <= u < t -> ~ in_period B s e u) /\
  (in_period B s e t -> right i = t) /\
  (forall u, left i <= u < right i -> in_period B s e u) /\
  exists k, left i = occ_start B s k /\ right i = Z.min t (occ_end B s e k) /\
            t < occ_start B s (k + 1).

(** For a period that covers whole cycles: the elapsed part of the occurrence
    going on just before [t]. *)
Definition rollback_full_spec (B : Z -> Z) (s e : Z) (t : Z) (i : interval Z) : Prop :=
  closed i = CLeft /\
  right i = t /\
  exists k, left i = occ_start B s k /\ occ_start B s k < t <= occ_end B s e k.

(** Earliest/latest among a family of moments. *)
Definition first_after (moments : Z -> Z) (t r : Z) : Prop :=
  (exists k, r = moments k) /\ t < r /\ forall k, t < moments k -> r <= moments k.
Definition last_until (moments : Z -> Z) (t r : Z) : Prop :=
  (exists k, r = moments k) /\ r <= t /\ forall k, moments k <= t -> moments k <= r.

(** Cycles of fixed length start at multiples of the length, counted from
    0001-01-01T00:00, a Monday. *)
Definition every_L (L : Z) (k : Z) : Z := k * L.

(** The fixed-length cycles of the clock and the week, in microseconds. *)
From Verif Require Import Model.Anchored.
Inductive fixed_cycle : acls -> Z -> Prop :=
| fc_second : fixed_cycle TSecond (10 ^ 6)
| fc_minute : fixed_cycle TMinute (60 * 10 ^ 6)
| fc_hour : fixed_cycle THour (60 * 60 * 10 ^ 6)
| fc_day : fixed_cycle TDay (24 * 60 * 60 * 10 ^ 6)
| fc_week : fixed_cycle TWeek (7 * 24 * 60 * 60 * 10 ^ 6).

(** The number a clock or calendar shows for the class's unit at a moment. *)
From Verif Require Import Model.Calendar.
Definition unit_number (c : acls) (t : Z) : Z :=
  match c with
  | TSecond => dt_microsecond t / 1000     (* millisecond 0..999 *)
  | TMinute => dt_second t
  | THour => dt_minute t
  | TDay => dt_hour t
  | TWeek => dt_weekday t + 1              (* Monday is 1 *)
  | TMonth => dt_day t
  | TYear => dt_month t
  end.

(** The numbers a unit takes. *)
Definition unit_range (c : acls) (n : Z) : Prop :=
  match c with
  | TSecond => 0 <= n <= 999
  | TMinute | THour => 0 <= n <= 59
  | TDay => 0 <= n <= 23
  | TWeek => 1 <= n <= 7
  | TMonth => 1 <= n <= 31
  | TYear => 1 <= n <= 12
  end.

(** [n] is between [i] and [j], both included, going round when [j < i]. *)
Definition cyc_between (i j n : Z) : Prop :=
  (i <= j /\ i <= n <= j) \/ (j < i /\ (i <= n \/ n <= j)).

(** Offset [x] in a cycle is in the half-open clock range [s, e), going round
    when [e < s]; equal ends mean the whole cycle. *)
Definition clock_range (s e x : Z) : Prop :=
  s = e \/ (s < e /\ s <= x < e) \/ (e < s /\ (s <= x \/ x < e)).

(** The same with both ends included *)
Definition closed_clock_range (s e x : Z) : Prop :=
  (s <= e /\ s <= x <= e) \/ (e < s /\ (s <= x \/ x <= e)).

(** Calendar cycles: the first moment of the [k mod 12 + 1]-th month of year
    [k / 12], and of year [k]. *)
Definition month_begin (k : Z) : Z := mk_datetime (k / 12) (k mod 12 + 1) 1 0 0 0 0.
Definition year_begin (y : Z) : Z := mk_datetime y 1 1 0 0 0 0.

(** First moment of month [i] of year [y]. *)
Definition month_of_year_begin (i y : Z) : Z := mk_datetime y i 1 0 0 0 0.

(** Last microsecond of a month *)
Definition last_microsecond_of_month (j t : Z) : Prop := dt_month t = j /\ dt_month (t + 1) <> j.

(** The last microsecond of month [j] (of 29 February for February). *)
Definition left_out (j t : Z) : Prop :=
  last_microsecond_of_month j t /\ ~ (dt_month t = 2 /\ dt_day t = 28 /\ is_leap (dt_year t) = false).

(** Days by which next_start / prev_start miss the first of month [i]. *)
Definition common (y : Z) : bool := negb (is_leap y).
Definition b2z (b : bool) : Z := if b then 1 else 0.
Definition forward_drift (i t : Z) : Z :=
  if dt_month t <? i then b2z (common (dt_year t) && (dt_month t <? 3) && (3 <=? i))
  else b2z (common (dt_year t) && (dt_month t <? 3)) + b2z (common (dt_year t + 1) && (3 <=? i)).
Definition backward_drift (i t : Z) : Z :=
  if dt_month t <? i
  then b2z (common (dt_year t) && (3 <=? dt_month t)) + b2z (common (dt_year t - 1) && (i <? 3))
  else b2z (common (dt_year t) && (3 <=? dt_month t) && (i <? 3)).

