(** The calendar the period theorems rest on: day numbers and calendar dates
    correspond exactly, by the rule "the day after". *)
From Verif Require Import Model.Base Model.Calendar Spec.CalendarSpec Proofs.CalendarProofs.
Open Scope Z_scope.

Theorem c07_calendar_first_day : ord2ymd 1 = (1, 1, 1).
Proof. exact ord2ymd_first. Qed.
Print Assumptions c07_calendar_first_day.

Theorem c07_calendar_next_day : forall n, next_day (ord2ymd n) (ord2ymd (n + 1)).
Proof. exact ord2ymd_next. Qed.
Print Assumptions c07_calendar_next_day.

Theorem c07_calendar_roundtrip : forall y m d,
  valid_ymd y m d -> ord2ymd (ymd2ord y m d) = (y, m, d).
Proof. exact ord2ymd_ymd2ord. Qed.
Print Assumptions c07_calendar_roundtrip.

Example c07_calendar_nonvacuous :
  valid_ymd 2024 2 29 /\ ymd2ord 2024 2 29 = 738945 /\
  ord2ymd 738945 = (2024, 2, 29) /\ ord2ymd 738946 = (2024, 3, 1).
Proof. repeat split; discriminate. Qed.
