(** Specifications for dependency listings. *)
From Coq Require Import String.
From Verif Require Import Model.Base Model.Condition Model.World Model.Registry Model.Depend.
From Verif Require Import Spec.ConditionSpec Spec.RegistrySpec.

(** [a] is the condition [c] or one of those it combines, not deeper. *)
Inductive part_of : cond -> nat -> option combination -> Prop :=
| part_self a : part_of (CAtom a) a None
| part_any cs a : In (CAtom a) cs -> part_of (CAny cs) a (Some InAny)
| part_all cs a : In (CAtom a) cs -> part_of (CAll cs) a (Some InAll).

(** A link: the start condition of [child] has a part that depends on [parent]. *)
Definition depends (dep : nat -> option (relation * string)) (st : store) (s : nat) (l : link) : Prop :=
  task_of st s (l_child l) /\
  exists a n, part_of (o_start (st_obj st (l_child l))) a (l_type l) /\
    dep a = Some (l_relation l, n) /\ lookup st s n = Ok (l_parent l).

(** The dependencies of tasks name tasks of the session. *)
Definition known (dep : nat -> option (relation * string)) (st : store) (s : nat) : Prop :=
  forall i a k r n, task_of st s i -> part_of (o_start (st_obj st i)) a k -> dep a = Some (r, n) -> used st s n.

(** Atoms joined by & only, or by | only, however nested *)
Inductive joined_by_and : cexpr -> nat -> Prop :=
| and_atom a : joined_by_and (XAtom a) a
| and_left e f a : joined_by_and e a -> joined_by_and (XAnd e f) a
| and_right e f a : joined_by_and f a -> joined_by_and (XAnd e f) a.
Inductive joined_by_or : cexpr -> nat -> Prop :=
| or_atom a : joined_by_or (XAtom a) a
| or_left e f a : joined_by_or e a -> joined_by_or (XOr e f) a
| or_right e f a : joined_by_or f a -> joined_by_or (XOr e f) a.
(** The atoms of a condition at any depth *)
Fixpoint mentions (c : cond) (a : nat) : Prop :=
  match c with
  | CTrue | CFalse => False
  | CAtom b => b = a
  | CAny cs | CAll cs => fold_right (fun c P => mentions c a \/ P) False cs
  | CNot c => mentions c a
  end.
