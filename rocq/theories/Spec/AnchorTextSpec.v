(** Which stretch of a minute, an hour, a day, a week, a month or a year a text spells. *)
From Coq Require Import List Bool Ascii String ZArith.
From Verif Require Import Model.Base Model.Calendar Model.Anchored Model.Statement Spec.StatementSpec Spec.PeriodSpec.
Import ListNotations.
Local Open Scope Z_scope.
Local Open Scope list_scope.

(** The same letter, in upper or lower case *)
Definition same_letter (a b : ascii) : Prop :=
  a = b \/ exists i, (i < 26)%nat /\
    (a = ascii_of_nat (65 + i) /\ b = ascii_of_nat (97 + i) \/ b = ascii_of_nat (65 + i) /\ a = ascii_of_nat (97 + i)).
Definition same_word (s : list ascii) (w : string) : Prop := Forall2 same_letter s (txt w).

(** Names: the word or its first three letters *)
Definition names (s : list ascii) (w : string) : Prop := same_word s w \/ same_word s (substring 0 3 w).
Definition days : list (string * Z) :=
  [("monday", 0); ("tuesday", 1); ("wednesday", 2); ("thursday", 3); ("friday", 4); ("saturday", 5);
   ("sunday", 6)]%string.
(** Months with their days in a leap year: the first one, counted from 0, and the one after the last *)
Definition months : list (string * (Z * Z)) :=
  [("january", (0, 31)); ("february", (31, 60)); ("march", (60, 91)); ("april", (91, 121)); ("may", (121, 152));
   ("june", (152, 182)); ("july", (182, 213)); ("august", (213, 244)); ("september", (244, 274));
   ("october", (274, 305)); ("november", (305, 335)); ("december", (335, 366))]%string.

(** Two digits *)
Definition two (s : list ascii) (n : Z) : Prop := number s n /\ List.length s = 2%nat.
Definition colon : list ascii := [":"%char].
Definition blank : list ascii := [" "%char].

(** A fraction of a second: a point and up to six digits *)
Inductive fraction : list ascii -> Z -> Prop :=
| fraction_none : fraction [] 0
| fraction_some : forall s n, number s n -> (List.length s <= 6)%nat ->
    fraction ("."%char :: s) (n * 10 ^ (6 - Z.of_nat (List.length s))).

(** Times of the day: 10:30, 9:30, 10:30:15 *)
Inductive clock_text : list ascii -> Z -> Prop :=
| clock_hm : forall h m hour minute, number h hour -> (List.length h <= 2)%nat -> hour < 24 ->
    two m minute -> minute < 60 -> clock_text (h ++ colon ++ m) (hour * us_hour + minute * us_minute)
| clock_hms : forall h m s hour minute second, number h hour -> (List.length h <= 2)%nat -> hour < 24 ->
    two m minute -> minute < 60 -> two s second -> second < 60 ->
    clock_text (h ++ colon ++ m ++ colon ++ s) (hour * us_hour + minute * us_minute + second * us_second).

(** Days of the month: 5, 5th, 5. *)
Definition suffix (s : list ascii) : Prop :=
  s = [] \/ s = ["."%char] \/ exists w, In w ["st"; "nd"; "rd"; "th"]%string /\ same_word s w.
Inductive day_text : list ascii -> Z -> Prop :=
| day_number : forall n x day, number n day -> 1 <= day <= 31 -> suffix x -> day_text (n ++ x) day.

(** [spelled c s f u]: in the cycle [c] the text [s] stands for the time from [f] until [u] (a day,
    a month), or the moment [f] = [u]. *)
Inductive spelled : acls -> list ascii -> Z -> Z -> Prop :=
| spelled_minute : forall s x second us, two s second -> second < 60 -> fraction x us ->
    spelled TMinute (s ++ x) (second * us_second + us) (second * us_second + us)
| spelled_hour : forall m s x minute second us, two m minute -> minute < 60 -> two s second -> second < 60 ->
    fraction x us ->
    spelled THour (m ++ colon ++ s ++ x) (minute * us_minute + second * us_second + us)
      (minute * us_minute + second * us_second + us)
| spelled_day : forall s us, clock_text s us -> spelled TDay s us us
| spelled_weekday : forall s w n, In (w, n) days -> names s w ->
    spelled TWeek s (n * us_day) ((n + 1) * us_day)
| spelled_week_time : forall s w n x us, In (w, n) days -> names s w -> clock_text x us ->
    spelled TWeek (s ++ blank ++ x) (n * us_day + us) (n * us_day + us)
| spelled_month_day : forall s day, day_text s day ->
    spelled TMonth s ((day - 1) * us_day) (day * us_day)
| spelled_month_time : forall s day x us, day_text s day -> clock_text x us ->
    spelled TMonth (s ++ blank ++ x) ((day - 1) * us_day + us) ((day - 1) * us_day + us)
| spelled_month : forall s w first next, In (w, (first, next)) months -> names s w ->
    spelled TYear s (first * us_day) (next * us_day)
| spelled_year_day : forall s w first next d day, In (w, (first, next)) months -> names s w ->
    day_text d day -> day <= next - first ->
    spelled TYear (s ++ blank ++ d) ((first + day - 1) * us_day) ((first + day) * us_day)
| spelled_year_time : forall s w first next d day x us, In (w, (first, next)) months -> names s w ->
    day_text d day -> day <= next - first -> clock_text x us ->
    spelled TYear (s ++ blank ++ d ++ blank ++ x) ((first + day - 1) * us_day + us) ((first + day - 1) * us_day + us).

(** How long the cycle has been going on at a moment; years are counted as leap years *)
Definition leap_days_before (t : Z) : Z :=
  match nth_error months (Z.to_nat (dt_month t - 1)) with Some (_, (first, _)) => first | None => 0 end.
Definition since_start (c : acls) (t : Z) : Z :=
  match c with
  | TSecond => t mod us_second
  | TMinute => t mod us_minute
  | THour => t mod us_hour
  | TDay => t mod us_day
  | TWeek => t mod (7 * us_day)
  | TMonth => (dt_day t - 1) * us_day + t mod us_day
  | TYear => (leap_days_before t + dt_day t - 1) * us_day + t mod us_day
  end.

(** dateutil reads times of the day. *)
Definition reads_clock (clock : list ascii -> result Z) : Prop :=
  forall s us, clock_text s us -> clock s = Ok us.

(** The length of the unit that a moment in the cycle stands for when something is to happen at it:
    an hour of the day, a minute of the hour *)
Definition unit_length (c : acls) : Z :=
  match c with
  | TSecond => 1000
  | TMinute => us_second
  | THour => us_minute
  | TDay => us_hour
  | TWeek | TMonth | TYear => us_day
  end.
Definition cycle_length (c : acls) : Z :=
  match c with
  | TSecond => us_second
  | TMinute => us_minute
  | THour => us_hour
  | TDay => us_day
  | TWeek => 7 * us_day
  | TMonth => 31 * us_day
  | TYear => 366 * us_day
  end.

Definition letter (c : ascii) : Prop :=
  exists i, (i < 26)%nat /\ (c = ascii_of_nat (65 + i) \/ c = ascii_of_nat (97 + i)).
Definition decimal (c : ascii) : Prop := exists n, digit_of c n.
(** The first word in a text *)
Definition first_word (s w : list ascii) : Prop :=
  exists before after, s = before ++ w ++ after /\ (forall c, In c before -> ~ letter c) /\ w <> [] /\
    (forall c, In c w -> letter c) /\ (forall c r, after = c :: r -> ~ letter c).
