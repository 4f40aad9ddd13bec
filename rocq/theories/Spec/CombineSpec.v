(** What it means that periods put together are a set. *)
From Coq Require Import ZArith List Bool Permutation String.
From Verif Require Import Model.Base Model.Interval Model.Calendar Model.Anchored Model.Period Model.Combine.
Import ListNotations.
Open Scope Z_scope.

(** Two periods give the same windows, forward and back, from every moment *)
Definition alike (cron_sub : list string -> tperiod) (p q : cperiod) : Prop := forall fuel dt i,
  (c_rollback cron_sub fuel p dt = Returns i <-> c_rollback cron_sub fuel q dt = Returns i) /\
  (c_rollforward cron_sub fuel p dt = Returns i <-> c_rollforward cron_sub fuel q dt = Returns i).

(** The same periods are given, in whatever order and however often each *)
Definition same_args (a b : list cperiod) : Prop := forall p, In p a <-> In p b.

(** An order to go through a set: every member once *)
Definition an_order (order : list cperiod -> list cperiod) : Prop := forall l, Permutation (order l) l.

(** The members of a set differ, and so inside them *)
Fixpoint made (hash : list field -> Z) (p : cperiod) : Prop :=
  match p with
  | CAll ps | CAny ps => ForallOrdPairs (fun p q => same hash p q = false) ps /\ fold_right (fun q P => made hash q /\ P) True ps
  | CLeaf (PAll _) | CLeaf (PAny _) => False
  | _ => True
  end.
(** No RelativeDay and no union in it *)
Fixpoint plain (p : cperiod) : Prop :=
  match p with
  | CRel _ _ _ | CAny _ => False
  | CAll ps => fold_right (fun q P => plain q /\ P) True ps
  | _ => True
  end.
(** The periods an intersection is made of: the ones given, and those of
    intersections given *)
Inductive part (args : list cperiod) : cperiod -> Prop :=
| part_given p : In p args -> (forall ps, p <> CAll ps) -> part args p
| part_of ps p : In (CAll ps) args -> In p ps -> part args p.
(** The same for a union *)
Inductive union_part (args : list cperiod) : cperiod -> Prop :=
| upart_given p : In p args -> (forall ps, p <> CAny ps) -> union_part args p
| upart_of ps p : In (CAny ps) args -> In p ps -> union_part args p.
(** Periods that are the same one or compare equal *)
Definition counts_as (hash : list field -> Z) (a b : cperiod) : Prop := a = b \/ p_eqb hash a b = true.

(** For the counterexamples *)
Definition hour (h : Z) : Z := h * us_hour.
(** TimeOfDay("a:00", "b:00") *)
Definition daily_at (a b : Z) : cperiod := CLeaf (PAnch (Anchored TDay (hour a) (hour b))).
Definition noon : Z := mk_datetime 2022 5 15 12 0 0 0.
(** no crontab lines occur *)
Definition no_cron (_ : list string) : tperiod := PAlways.
