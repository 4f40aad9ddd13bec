(** Model of rocketry/core/time/base.py: TimePeriod, TimeDelta, All, Any,
    StaticInterval; rocketry/time/delta.py: TimeSpanDelta; and
    rocketry/core/time/utils.py: get_period_span. *)
From Verif Require Import Model.Base Model.Interval Model.Calendar Model.Anchored.
Open Scope Z_scope.

(** base.py:25-26 TimePeriod.min, TimePeriod.max *)
Definition p_min : Z := mk_datetime 1970 1 3 2 0 0 0.
Definition p_max : Z := mk_datetime 2260 1 1 0 0 0 0.

(** Interval(l, r): closed defaults to "left" (pybox/time/interval.py:14) *)
Definition ivl (l r : Z) : outcome (interval Z) := of_result (mk_interval Z_ops l r CLeft).

(** Period objects.  [PAlways] is the object [always] (base.py:544), which the
    code recognises by identity; [PStatic] is any other StaticInterval.  The
    frozensets of All and Any are lists: the order is the set's iteration order,
    and removal of equal members is not modelled (theorems hold for every list). *)
Inductive tperiod : Type :=
| PAnch (p : anchored)
| PStatic (start end_ : Z)
| PAlways
| PDelta (past future : Z) (reference : option Z)
| PSpan (near : Z) (far : option Z) (reference : option Z)
| PAll (ps : list tperiod)
| PAny (ps : list tperiod).

(** base.py:495-504 StaticInterval.__init__ *)
Definition mk_static (start end_ : option Z) : tperiod :=
  PStatic (match start with Some s => s | None => p_min end)
          (match end_ with Some e => e | None => p_max end).
(** base.py:545 *)
Definition never : tperiod := PStatic p_max p_max.

(** base.py:506-515 StaticInterval.rollback *)
Definition static_rollback (start end_ dt : Z) : outcome (interval Z) :=
  if dt <? start then ivl p_min p_min
  else ivl start (Z.min end_ dt).

(** base.py:517-524 StaticInterval.rollforward *)
Definition static_rollforward (start end_ dt : Z) : outcome (interval Z) :=
  if end_ <? dt then ivl p_max p_max
  else ivl (Z.max start dt) end_.

(** base.py:199-209 TimeDelta.__init__ *)
Definition mk_delta (past future : option Z) (reference : option Z) : tperiod :=
  PDelta (Z.abs (match past with Some x => x | None => 0 end))
         (Z.abs (match future with Some x => x | None => 0 end)) reference.

(** delta.py:16-21 TimeSpanDelta.__init__ *)
Definition mk_span (near far : option Z) (reference : option Z) : tperiod :=
  PSpan (Z.abs (match near with Some x => x | None => 0 end)) (option_map Z.abs far) reference.

(** base.py:225-230, 232-237 *)
Definition delta_rollback (past dt : Z) : outcome (interval Z) := ivl (dt - Z.abs past) dt.
Definition delta_rollforward (future dt : Z) : outcome (interval Z) := ivl dt (dt + Z.abs future).

(** base.py:214-220 TimeDelta.__contains__; None - timedelta is a TypeError *)
Definition delta_contains (past future : Z) (reference : option Z) (dt : Z) : outcome bool :=
  match reference with
  | None => Raises TypeError
  | Some r => Returns ((r - Z.abs past <=? dt) && (dt <=? r + Z.abs future))
  end.

(** delta.py:37-47 TimeSpanDelta.rollback, rollforward *)
Definition span_rollback (near : Z) (far : option Z) (dt : Z) : outcome (interval Z) :=
  ivl (match far with Some f => dt - f | None => p_min end) (dt - near).
Definition span_rollforward (near : Z) (far : option Z) (dt : Z) : outcome (interval Z) :=
  ivl (dt + near) (match far with Some f => dt + f | None => p_max end).

(** delta.py:26-35 TimeSpanDelta.__contains__ *)
Definition span_contains (near : Z) (far : option Z) (reference : option Z) (dt : Z) : outcome bool :=
  match reference with
  | None => Raises TypeError
  | Some r =>
      if dt <=? r then
        let start := match far with Some f => r - f | None => p_min end in
        let end_ := r - near in
        Returns ((start <=? dt) && (dt <=? end_))
      else
        let start := r + near in
        let end_ := match far with Some f => r + f | None => p_max end in
        Returns ((start <=? dt) && (dt <=? end_))
  end.

(** [f(period) for period in self.periods] *)
Section Traverse.
  Context {A B : Type} (f : A -> outcome B).
  Fixpoint traverse (l : list A) : outcome (list B) :=
    match l with
    | [] => Returns []
    | a :: l =>
        match f a with
        | Returns b => match traverse l with
                       | Returns bs => Returns (b :: bs)
                       | Raises e => Raises e
                       | OutOfFuel => OutOfFuel
                       end
        | Raises e => Raises e
        | OutOfFuel => OutOfFuel
        end
    end.
End Traverse.

(** all(a.overlaps(b) for a, b in itertools.combinations(intervals, 2)) *)
Fixpoint all_overlap (l : list (interval Z)) : bool :=
  match l with
  | [] => true
  | a :: l => forallb (overlaps Z_ops a) l && all_overlap l
  end.

(** reduce(lambda a, b: a & b, intervals); empty: TypeError *)
Fixpoint reduce_from (a : interval Z) (l : list (interval Z)) : result (interval Z) :=
  match l with
  | [] => Ok a
  | b :: l => let* c := inter Z_ops a b in reduce_from c l
  end.
Definition reduce_inter (l : list (interval Z)) : outcome (interval Z) :=
  match l with
  | [] => Raises TypeError
  | a :: l => of_result (reduce_from a l)
  end.

(** max(intervals, key=left).left and min(intervals, key=right).right, non-empty lists *)
Fixpoint max_left (l : list (interval Z)) : Z :=
  match l with
  | [] => 0
  | [i] => left i
  | i :: l => Z.max (left i) (max_left l)
  end.
Fixpoint min_right (l : list (interval Z)) : Z :=
  match l with
  | [] => 0
  | [i] => right i
  | i :: l => Z.min (right i) (min_right l)
  end.

(** base.py:331-360 All.rollforward; [subs dt] is the list of sub-intervals *)
Fixpoint all_rollforward (subs : Z -> outcome (list (interval Z))) (fuel : nat) (dt : Z) : outcome (interval Z) :=
  match fuel with
  | O => OutOfFuel
  | S fuel =>
      match subs dt with
      | Returns intervals =>
          if all_overlap intervals then reduce_inter intervals
          else
            let next_dt := max_left intervals in
            let opened := existsb (fun i => (left i =? next_dt) && negb (in_left_both (closed i))) intervals in
            let next_dt := if opened then next_dt - resolution else next_dt in
            all_rollforward subs fuel next_dt
      | Raises e => Raises e
      | OutOfFuel => OutOfFuel
      end
  end.

(** base.py:297-329 All.rollback (the variable [opened] is not used there) *)
Fixpoint all_rollback (subs : Z -> outcome (list (interval Z))) (fuel : nat) (dt : Z) : outcome (interval Z) :=
  match fuel with
  | O => OutOfFuel
  | S fuel =>
      match subs dt with
      | Returns intervals =>
          if all_overlap intervals then reduce_inter intervals
          else
            let next_dt := min_right intervals in
            let next_dt := if dt =? next_dt then next_dt - resolution else next_dt in
            all_rollback subs fuel next_dt
      | Raises e => Raises e
      | OutOfFuel => OutOfFuel
      end
  end.

(** sorted(intervals, key=left): stable insertion sort *)
Fixpoint insert_by_left (i : interval Z) (l : list (interval Z)) : list (interval Z) :=
  match l with
  | [] => [i]
  | j :: l' => if left j <? left i then j :: insert_by_left i l' else i :: l
  end.
Definition sort_by_left (l : list (interval Z)) : list (interval Z) := fold_right insert_by_left [] l.

(** sorted(intervals, key=right, reverse=True): descending, stable *)
Fixpoint insert_by_right_desc (i : interval Z) (l : list (interval Z)) : list (interval Z) :=
  match l with
  | [] => [i]
  | j :: l' => if right i <? right j then j :: insert_by_right_desc i l' else i :: l
  end.
Definition sort_by_right_desc (l : list (interval Z)) : list (interval Z) := fold_right insert_by_right_desc [] l.

(** base.py:468-474, the loop of Any.rollforward *)
Fixpoint extend_right (curr : interval Z) (l : list (interval Z)) : interval Z :=
  match l with
  | [] => curr
  | i :: l => if (right curr <? right i) && overlaps Z_ops i curr then extend_right i l else curr
  end.
(** base.py:438-444, the loop of Any.rollback *)
Fixpoint extend_left (curr : interval Z) (l : list (interval Z)) : interval Z :=
  match l with
  | [] => curr
  | i :: l => if (left i <? left curr) && overlaps Z_ops i curr then extend_left i l else curr
  end.

(** base.py:452-479 Any.rollforward after the sub-intervals are known; pop from an empty list: IndexError *)
Definition any_forward (intervals : list (interval Z)) : outcome (interval Z) :=
  match sort_by_left intervals with
  | [] => Raises IndexError
  | start_interval :: rest => ivl (left start_interval) (right (extend_right start_interval rest))
  end.
(** base.py:402-450 Any.rollback after the sub-intervals are known *)
Definition any_back (intervals : list (interval Z)) : outcome (interval Z) :=
  match sort_by_right_desc intervals with
  | [] => Raises IndexError
  | end_interval :: rest => ivl (left (extend_left end_interval rest)) (right end_interval)
  end.

Definition obind {A B} (o : outcome A) (k : A -> outcome B) : outcome B :=
  match o with Returns a => k a | Raises e => Raises e | OutOfFuel => OutOfFuel end.

(** period.rollforward(dt), dynamic dispatch *)
Fixpoint rollforward (fuel : nat) (p : tperiod) (dt : Z) {struct p} : outcome (interval Z) :=
  match p with
  | PAnch a => arollforward fuel a dt
  | PStatic s e => static_rollforward s e dt
  | PAlways => static_rollforward p_min p_max dt
  | PDelta _ future _ => delta_rollforward future dt
  | PSpan near far _ => span_rollforward near far dt
  | PAll ps => all_rollforward (fun t => traverse (fun q => rollforward fuel q t) ps) fuel dt
  | PAny ps => obind (traverse (fun q => rollforward fuel q dt) ps) any_forward
  end.

(** period.rollback(dt) *)
Fixpoint rollback (fuel : nat) (p : tperiod) (dt : Z) {struct p} : outcome (interval Z) :=
  match p with
  | PAnch a => of_result (arollback a dt)
  | PStatic s e => static_rollback s e dt
  | PAlways => static_rollback p_min p_max dt
  | PDelta past _ _ => delta_rollback past dt
  | PSpan near far _ => span_rollback near far dt
  | PAll ps => all_rollback (fun t => traverse (fun q => rollback fuel q t) ps) fuel dt
  | PAny ps => obind (traverse (fun q => rollback fuel q dt) ps) any_back
  end.

(** dt in period: anchor.py:191-210, base.py:28-32, 214-220, delta.py:26-34 *)
Definition pcontains (fuel : nat) (p : tperiod) (dt : Z) : outcome bool :=
  match p with
  | PAnch a => Returns (acontains a dt)
  | PDelta past future r => delta_contains past future r dt
  | PSpan near far r => span_contains near far r dt
  | _ => obind (rollforward fuel p dt) (fun i => Returns (contains Z_ops i dt))
  end.

(** base.py:211-212, delta.py:23-24 use_reference; other classes have no such attribute *)
Definition use_reference (p : tperiod) (ref : Z) : tperiod :=
  match p with
  | PDelta past future _ => mk_delta (Some past) (Some future) (Some ref)
  | PSpan near far _ => mk_span (Some near) far (Some ref)
  | _ => p
  end.

(** core/time/utils.py:8-32 get_period_span (a string period is parsed first; not here) *)
Definition get_period_span (fuel : nat) (p : option tperiod) (now : Z) : outcome (Z * Z) :=
  match p with
  | None => Returns (p_min, p_max)
  | Some p => obind (rollback fuel (use_reference p now) now) (fun i => Returns (left i, right i))
  end.

(** * Construction *)

Definition is_always (p : tperiod) : bool := match p with PAlways => true | _ => false end.

(** base.py:277-295 All.__init__ (arguments are periods) *)
Fixpoint all_members (args : list tperiod) : list tperiod :=
  match args with
  | [] => []
  | PAll ps :: args => ps ++ all_members args
  | PAlways :: args => all_members args
  | p :: args => p :: all_members args
  end.
Definition mk_all (args : list tperiod) : result tperiod :=
  match args with [] => Err ValueError | _ => Ok (PAll (all_members args)) end.

(** base.py:381-400 Any.__init__ *)
Fixpoint any_members (acc args : list tperiod) : list tperiod :=
  match args with
  | [] => acc
  | PAny ps :: args => any_members (acc ++ ps) args
  | PAlways :: _ => [PAlways]
  | p :: args => any_members (acc ++ [p]) args
  end.
Definition mk_any (args : list tperiod) : result tperiod :=
  match args with [] => Err ValueError | _ => Ok (PAny (any_members [] args)) end.

(** base.py:34-48 TimePeriod.__and__, 50-60 TimePeriod.__or__ *)
Definition p_and (self other : tperiod) : tperiod :=
  if is_always self then other
  else if is_always other then self
  else PAll (all_members [self; other]).
Definition p_or (self other : tperiod) : tperiod :=
  if is_always self || is_always other then PAlways
  else PAny (any_members [] [self; other]).
