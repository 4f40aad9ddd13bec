(** Model of rocketry/pybox/time/interval.py (class Interval), generic in the
    ordered type of the bounds as the Python dataclass is. *)
From Verif Require Import Model.Base.
From Coq Require Import QArith.

(** The comparison operators Python uses on bounds.  Python evaluates
    [<], [<=], [==] through the bounds' own methods; [a > b] is written
    [op_lt b a] and [a >= b] is [op_le b a]. *)
Record ops (T : Type) : Type := {
  op_lt : T -> T -> bool;
  op_le : T -> T -> bool;
  op_eq : T -> T -> bool
}.
Arguments op_lt {T} _ _ _.
Arguments op_le {T} _ _ _.
Arguments op_eq {T} _ _ _.

(** interval.py:15 *)
Inductive closedness : Type := CLeft | CRight | CBoth | CNeither.

(** interval.py:9-15 *)
Record interval (T : Type) : Type := Interval { left : T; right : T; closed : closedness }.
Arguments Interval {T} _ _ _.
Arguments left {T} _.
Arguments right {T} _.
Arguments closed {T} _.

Definition in_left_both (c : closedness) : bool :=   (* closed in ('left', 'both') *)
  match c with CLeft | CBoth => true | _ => false end.
Definition in_right_both (c : closedness) : bool :=  (* closed in ('right', 'both') *)
  match c with CRight | CBoth => true | _ => false end.
Definition in_left_neither (c : closedness) : bool :=
  match c with CLeft | CNeither => true | _ => false end.
Definition in_right_neither (c : closedness) : bool :=
  match c with CRight | CNeither => true | _ => false end.

Section Generic.
  Context {T : Type} (o : ops T).

  (** interval.py:17-22, __post_init__ (an invalid [closed] cannot be written here). *)
  Definition mk_interval (l r : T) (c : closedness) : result (interval T) :=
    if op_lt o r l then Err ValueError else Ok (Interval l r c).

  (** interval.py:25-32, __contains__ *)
  Definition contains (i : interval T) (dt : T) : bool :=
    match closed i with
    | CRight => op_lt o (left i) dt && op_le o dt (right i)
    | CLeft => op_le o (left i) dt && op_lt o dt (right i)
    | CBoth => op_le o (left i) dt && op_le o dt (right i)
    | CNeither => op_lt o (left i) dt && op_lt o dt (right i)
    end.

  (** interval.py:34-72, overlaps *)
  Definition overlaps (self other : interval T) : bool :=
    let is_self_on_far_left := op_lt o (right self) (left other) in
    let is_self_on_far_right := op_lt o (right other) (left self) in
    if is_self_on_far_left || is_self_on_far_right then false
    else if op_eq o (right self) (left other)
            && (in_left_neither (closed self) || in_right_neither (closed other)) then false
    else if op_eq o (left self) (right other)
            && (in_right_neither (closed self) || in_left_neither (closed other)) then false
    else true.

  (** interval.py:74-106, __and__ *)
  Definition inter (self other : interval T) : result (interval T) :=
    let '(l, left_closed) :=
      if op_lt o (left other) (left self) then (left self, in_left_both (closed self))
      else if op_lt o (left self) (left other) then (left other, in_left_both (closed other))
      else (left self, in_left_both (closed self) && in_left_both (closed other)) in
    let '(r, right_closed) :=
      if op_lt o (right self) (right other) then (right self, in_right_both (closed self))
      else if op_lt o (right other) (right self) then (right other, in_right_both (closed other))
      else (right self, in_right_both (closed self) && in_right_both (closed other)) in
    let c := if left_closed && right_closed then CBoth
             else if left_closed then CLeft
             else if right_closed then CRight
             else CNeither in
    mk_interval l r c.

  (** interval.py:108-116, is_empty *)
  Definition is_empty (i : interval T) : bool :=
    let has_points :=
      match closed i with
      | CBoth => op_le o (left i) (right i)
      | _ => op_lt o (left i) (right i)
      end in
    negb has_points.
End Generic.

(** Bounds on a dense time line (Python floats/fractions of seconds, idealised). *)
Definition Qlt_bool (a b : Q) : bool := negb (Qle_bool b a).
Definition Q_ops : ops Q := {| op_lt := Qlt_bool; op_le := Qle_bool; op_eq := Qeq_bool |}.

(** Bounds as datetimes: integer microseconds (datetime comparisons). *)
Definition Z_ops : ops Z := {| op_lt := Z.ltb; op_le := Z.leb; op_eq := Z.eqb |}.
