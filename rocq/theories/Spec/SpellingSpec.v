(** Specification of durations written as text. *)
From Verif Require Import Model.Base Model.Spelling.
Local Open Scope Z_scope.

(** What a unit lasts, in microseconds, a year being 365 days and a month 30 *)
Definition lasts (u : tunit) : Z :=
  match u with
  | Microseconds => 1
  | Milliseconds => 1000
  | Seconds => 1000000
  | Minutes => 60000000
  | Hours => 3600000000
  | Days => 86400000000
  | Weeks => 604800000000
  | Months => 2592000000000
  | Years => 31536000000000
  end.
(** What the parts of a duration are together *)
Definition together (parts : list (tunit * Z)) : Z := fold_right (fun p n => snd p * lasts (fst p) + n) 0 parts.

(** Durations made of the units the reader knows in each format: whole seconds
    when the units are written in full, else whole milliseconds *)
Definition in_known_units (f : tformat) (us : Z) : Prop :=
  match f with Full => us mod 1000000 = 0 | Semishort | Short => us mod 1000 = 0 end.
