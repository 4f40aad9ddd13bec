(** The Gregorian calendar by counting days, independent of the closed-form
    arithmetic of the model. *)
From Coq Require Import ZArith.
Open Scope Z_scope.

Definition leap_year (y : Z) : Prop :=
  (4 | y) /\ (~ (100 | y) \/ (400 | y)).

(** [month_length y m n]: month [m] of year [y] has [n] days. *)
Inductive month_length (y : Z) : Z -> Z -> Prop :=
| ml_31 : forall m, m = 1 \/ m = 3 \/ m = 5 \/ m = 7 \/ m = 8 \/ m = 10 \/ m = 12 -> month_length y m 31
| ml_30 : forall m, m = 4 \/ m = 6 \/ m = 9 \/ m = 11 -> month_length y m 30
| ml_feb_leap : leap_year y -> month_length y 2 29
| ml_feb : ~ leap_year y -> month_length y 2 28.

(** The day after a (year, month, day). *)
Inductive next_day : Z * Z * Z -> Z * Z * Z -> Prop :=
| nd_in_month : forall y m d n, month_length y m n -> 1 <= d -> d < n -> next_day (y, m, d) (y, m, d + 1)
| nd_month_end : forall y m d, month_length y m d -> m < 12 -> next_day (y, m, d) (y, m + 1, 1)
| nd_year_end : forall y, next_day (y, 12, 31) (y + 1, 1, 1).
