(** When two conditions are the same condition to a user: they answer the same
    whatever happens. *)
From Verif Require Import Model.Base Model.Condition Model.Equality Spec.ConditionSpec.
Open Scope Z_scope.

(** What attributes and bounds must be like for comparisons to mean anything:
    equal attribute values make conditions of a class answer alike; integers
    are equal iff they are the same number; measuring does not depend on the
    order the bounds were given in. *)
Definition same_bounds (c d : comps) : Prop := forall op, comps_get c op = comps_get d op.
Definition attributes_tell (py : python) : Prop :=
  (forall x y k, py_attrs py x y = true -> py_holds py k x = py_holds py k y) /\
  (forall x y k c, py_attrs py x y = true -> py_measure py k x c = py_measure py k y c).
Definition integers_tell (py : python) : Prop := forall m n, py_bounds py (BInt m) (BInt n) = true -> m = n.
Definition order_free (py : python) : Prop := forall k x c d, same_bounds c d -> py_measure py k x c = py_measure py k x d.

(** All the bounds in a condition are integers, one for each operator. *)
Definition integers (c : comps) : Prop := forall op v, In (op, v) c -> exists n, v = BInt n.
Inductive counted : cnd -> Prop :=
| cd_true : counted KTrue
| cd_false : counted KFalse
| cd_plain : forall k x, counted (KPlain k x)
| cd_comp : forall k x c, keys_ok c -> integers c -> counted (KComp k x c)
| cd_any : forall l, (forall a, In a l -> counted a) -> counted (KAny l)
| cd_all : forall l, (forall a, In a l -> counted a) -> counted (KAll l)
| cd_not : forall a, counted a -> counted (KNot a).

(** No part of the condition is the negation of a constant. *)
Inductive no_negated_constant : cnd -> Prop :=
| nn_true : no_negated_constant KTrue
| nn_false : no_negated_constant KFalse
| nn_plain : forall k x, no_negated_constant (KPlain k x)
| nn_comp : forall k x c, no_negated_constant (KComp k x c)
| nn_any : forall l, (forall a, In a l -> no_negated_constant a) -> no_negated_constant (KAny l)
| nn_all : forall l, (forall a, In a l -> no_negated_constant a) -> no_negated_constant (KAll l)
| nn_not : forall a, a <> KTrue -> a <> KFalse -> no_negated_constant a -> no_negated_constant (KNot a).

(** Attribute values and bounds equal themselves; equality goes both ways. *)
Definition reflexive (py : python) : Prop :=
  (forall x, py_attrs py x x = true) /\ (forall v, py_bounds py v v = true).
Definition symmetric (py : python) : Prop :=
  (forall x y, py_attrs py x y = py_attrs py y x) /\ (forall v w, py_bounds py v w = py_bounds py w v).

(** The condition is one that counts (started, finished, running, cycles...). *)
Definition counts (a : cnd) : Prop := match a with KComp _ _ _ => True | _ => False end.
