(** Model of how periods are compared and put together as sets:
    rocketry/core/time/base.py:178-183, 239-244, 272-400, 481-486, the
    comparisons and hashes dataclass makes for core/time/anchor.py:9-41,
    time/interval.py (each class), time/cron.py:8-22 and base.py:495-500,
    time/delta.py:49-54, and time/interval.py:405-440 RelativeDay.

    The periods of Period are the leaves here.  A frozenset is the list of its
    members in the order they are gone through, which depends on their hashes
    (those of strings differ from one run of Python to the next) and on the
    order they were put in: it is an oracle. *)
From Coq Require Import ZArith List Bool String.
From Verif Require Import Model.Base Model.Interval Model.Calendar Model.Anchored Model.Period.
Import ListNotations.
Open Scope Z_scope.

Inductive cperiod : Type :=
| CLeaf (p : tperiod)            (* a period of Period other than All and Any *)
| CCron (line : list string)     (* time/cron.py:17-22, the five strings *)
| CRel (back start end_ : Z)     (* RelativeDay: days back, start_time and end_time as time since midnight *)
| CAll (ps : list cperiod)
| CAny (ps : list cperiod).

(** time/interval.py:416-429 RelativeDay.__init__: "today" is 0 days back,
    "yesterday" 1, "the_day_before" 2; without times, time.min and time.max *)
Definition relative_day (back : Z) : cperiod := CRel back 0 (us_day - 1).

Section Combine.
(** hash of a tuple of fields; time/cron.py:37-133 get_subperiod (CronText and
    Cron have it), a function of the strings; the order a set is gone through *)
Inductive field : Type := FZ (z : Z) | FOpt (z : option Z) | FText (s : string) | FSet (hashes : list Z).
Context (hash : list field -> Z) (cron_sub : list string -> tperiod).

(** The fields dataclass takes: anchor.py:40-41 (_start, _end), base.py:499-500,
    base.py:197 (of TimeDelta only [reference]: past and future are not
    annotated), delta.py:12-14, cron.py:11-15; none for RelativeDay, whose
    annotations are ClassVars *)
Definition leaf_fields (p : tperiod) : list field :=
  match p with
  | PAnch a => [FZ (a_start a); FZ (a_end a)]
  | PStatic s e => [FZ s; FZ e]
  | PAlways => [FZ p_min; FZ p_max]
  | PDelta _ _ ref => [FOpt ref]
  | PSpan near far ref => [FOpt ref; FZ near; FOpt far]
  | PAll _ | PAny _ => []          (* not leaves *)
  end.
Fixpoint phash (p : cperiod) : Z :=
  hash (match p with
        | CLeaf p => leaf_fields p
        | CCron line => map FText line
        | CRel _ _ _ => []
        | CAll ps | CAny ps => [FSet (map phash ps)]
        end).

Definition oeqb (a b : option Z) : bool :=
  match a, b with Some x, Some y => x =? y | None, None => true | _, _ => false end.
Definition acls_eqb (a b : acls) : bool :=
  match a, b with
  | TSecond, TSecond | TMinute, TMinute | THour, THour | TDay, TDay | TWeek, TWeek | TMonth, TMonth | TYear, TYear => true
  | _, _ => false
  end.
Fixpoint texts_eqb (a b : list string) : bool :=
  match a, b with
  | [], [] => true
  | x :: a, y :: b => String.eqb x y && texts_eqb a b
  | _, _ => false
  end.
(** Python's == of two leaves.  dataclass compares the fields of two objects of
    the same class; TimeDelta and TimeSpanDelta have their own (base.py:239-244,
    delta.py:49-54), which leave the reference out.  Comparing a TimeDelta with
    a TimeSpanDelta is an AttributeError; a set does so only if their hashes are
    the same, which is left out (they are not equal here). *)
Definition leaf_eqb (p q : tperiod) : bool :=
  match p, q with
  | PAnch a, PAnch b => acls_eqb (a_cls a) (a_cls b) && (a_start a =? a_start b) && (a_end a =? a_end b)
  | PStatic s e, PStatic s' e' => (s =? s') && (e =? e')
  | PStatic s e, PAlways | PAlways, PStatic s e => (s =? p_min) && (e =? p_max)
  | PAlways, PAlways => true
  | PDelta a b _, PDelta a' b' _ => (a =? a') && (b =? b')
  | PSpan n f _, PSpan n' f' _ => (n =? n') && oeqb f f'
  | _, _ => false
  end.
(** base.py:362-367, 481-486: frozensets are equal if they have the same members
    (CPython compares the sizes and looks up each member of one in the other;
    members of a set being different, that is the same). *)
Fixpoint p_eqb (p q : cperiod) {struct p} : bool :=
  match p, q with
  | CLeaf p, CLeaf q => leaf_eqb p q
  | CCron a, CCron b => texts_eqb a b
  | CRel _ _ _, CRel _ _ _ => true        (* the comparison of no fields *)
  | CAll ps, CAll qs | CAny ps, CAny qs =>
      forallb (fun x => existsb (fun y => (phash x =? phash y) && p_eqb x y) qs) ps &&
      forallb (fun y => existsb (fun x => (phash x =? phash y) && p_eqb x y) ps) qs
  | _, _ => false
  end.
(** What a set takes for the same member *)
Definition same (p q : cperiod) : bool := (phash p =? phash q) && p_eqb p q.
(** frozenset(list): of members that are the same the first stays *)
Fixpoint add_all (set l : list cperiod) : list cperiod :=
  match l with
  | [] => set
  | p :: l => add_all (if existsb (fun q => same q p) set then set else set ++ [p]) l
  end.
Definition frozen (l : list cperiod) : list cperiod := add_all [] l.

(** base.py:283-293, 387-398 *)
Fixpoint call_members (args : list cperiod) : list cperiod :=
  match args with
  | [] => []
  | CAll ps :: args => ps ++ call_members args
  | CLeaf PAlways :: args => call_members args
  | p :: args => p :: call_members args
  end.
Fixpoint cany_members (acc args : list cperiod) : list cperiod :=
  match args with
  | [] => acc
  | CAny ps :: args => cany_members (acc ++ ps) args
  | CLeaf PAlways :: _ => [CLeaf PAlways]
  | p :: args => cany_members (acc ++ [p]) args
  end.
(** base.py:277-295, 381-400; [order] is the order the set will be gone through *)
Definition new_all (order : list cperiod -> list cperiod) (args : list cperiod) : result cperiod :=
  match args with [] => Err ValueError | _ => Ok (CAll (order (frozen (call_members args)))) end.
Definition new_any (order : list cperiod -> list cperiod) (args : list cperiod) : result cperiod :=
  match args with [] => Err ValueError | _ => Ok (CAny (order (frozen (cany_members [] args)))) end.

(** time/interval.py:431-440 RelativeDay.rollback, rollforward *)
Definition midnight (t : Z) : Z := t / us_day * us_day.
Definition rel_rollback (back start end_ dt : Z) : outcome (interval Z) :=
  ivl (midnight (dt - back * us_day) + start) (midnight (dt - back * us_day) + end_).

Fixpoint c_rollback (fuel : nat) (p : cperiod) (dt : Z) {struct p} : outcome (interval Z) :=
  match p with
  | CLeaf p => rollback fuel p dt
  | CCron line => rollback fuel (cron_sub line) dt
  | CRel b s e => rel_rollback b s e dt
  | CAll ps => all_rollback (fun t => traverse (fun q => c_rollback fuel q t) ps) fuel dt
  | CAny ps => obind (traverse (fun q => c_rollback fuel q dt) ps) any_back
  end.
Fixpoint c_rollforward (fuel : nat) (p : cperiod) (dt : Z) {struct p} : outcome (interval Z) :=
  match p with
  | CLeaf p => rollforward fuel p dt
  | CCron line => rollforward fuel (cron_sub line) dt
  | CRel _ _ _ => Raises AttributeError
  | CAll ps => all_rollforward (fun t => traverse (fun q => c_rollforward fuel q t) ps) fuel dt
  | CAny ps => obind (traverse (fun q => c_rollforward fuel q dt) ps) any_forward
  end.
(** dt in period; base.py:28-32.  (Of a RelativeDay: NotImplementedError,
    base.py:85-88, which is not told apart from other errors here.) *)
Definition c_contains (fuel : nat) (p : cperiod) (dt : Z) : outcome bool :=
  match p with
  | CLeaf p => pcontains fuel p dt
  | _ => obind (c_rollforward fuel p dt) (fun i => Returns (contains Z_ops i dt))
  end.
End Combine.
