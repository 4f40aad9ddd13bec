(** What an interval means: a set of moments.  Independent of the model's
    [contains]/[overlaps]. *)
From Verif Require Import Model.Base Model.Interval.
From Coq Require Import QArith.
Open Scope Q_scope.

(** Which sides belong to the interval. *)
Definition left_included (c : closedness) : Prop := c = CLeft \/ c = CBoth.
Definition right_included (c : closedness) : Prop := c = CRight \/ c = CBoth.

(** A moment [t] lies in the interval. *)
Definition qmem (t : Q) (i : interval Q) : Prop :=
  (left i < t \/ (left i == t /\ left_included (closed i))) /\
  (t < right i \/ (t == right i /\ right_included (closed i))).

(** The interval could be constructed: its bounds are in order. *)
Definition qvalid (i : interval Q) : Prop := left i <= right i.

Definition qnonempty (i : interval Q) : Prop := exists t, qmem t i.

Close Scope Q_scope.
Open Scope Z_scope.

(** The same for integer moments (datetimes at microsecond resolution). *)
Definition zmem (t : Z) (i : interval Z) : Prop :=
  (left i < t \/ (left i = t /\ left_included (closed i))) /\
  (t < right i \/ (t = right i /\ right_included (closed i))).

Definition zvalid (i : interval Z) : Prop := left i <= right i.
