(** Periods as sets of moments, and what rolling means for such a set. *)
From Coq Require Import ZArith List.
From Verif Require Import Model.Base Model.Interval Model.Calendar Model.Anchored Model.Period Spec.IntervalSpec Spec.PeriodSpec.
Import ListNotations.
Open Scope Z_scope.

(** The moments of a period.  Cyclic periods: their membership, characterised
    by C03, C07, C08.  [&] is intersection, [|] is union.  (Windows relative
    to a reference have no moments of their own.) *)
Fixpoint moments (p : tperiod) (t : Z) : Prop :=
  match p with
  | PAnch a => acontains a t = true
  | PStatic s e => s <= t < e
  | PAlways => p_min <= t < p_max
  | PDelta _ _ _ | PSpan _ _ _ => False
  | PAll ps => fold_right (fun q acc => moments q t /\ acc) True ps
  | PAny ps => fold_right (fun q acc => moments q t \/ acc) False ps
  end.

(** [i] starts at the earliest moment of [M] at or after [dt] and lies in [M]. *)
Definition forward_at (M : Z -> Prop) (dt : Z) (i : interval Z) : Prop :=
  closed i = CLeft /\ dt <= left i < right i /\
  (forall u, dt <= u < left i -> ~ M u) /\
  (forall u, left i <= u < right i -> M u).

(** [i] ends at or before [t] with nothing of [M] between its end and [t] and
    lies in [M]; it is the single moment [t] only if [M] begins there. *)
Definition back_at (M : Z -> Prop) (t : Z) (i : interval Z) : Prop :=
  right i <= t /\
  (forall u, right i <= u < t -> ~ M u) /\
  (forall u, left i <= u < right i -> M u) /\
  ((closed i = CLeft /\ left i < right i) \/
   (closed i = CBoth /\ left i = right i /\ right i = t /\ M t /\ ~ M (t - 1))).

(** The call returns [i] with any large enough fuel. *)
Definition eventually {A} (f : nat -> outcome A) (a : A) : Prop :=
  exists n, forall fuel, (n <= fuel)%nat -> f fuel = Returns a.

Definition recurrent (p : tperiod) : Prop := forall dt, exists u, dt <= u /\ moments p u.

(** The rolling contracts a period may obey. *)
Definition forward_ok (p : tperiod) : Prop := forall dt, (exists u, dt <= u /\ moments p u) ->
  exists i, eventually (fun fuel => rollforward fuel p dt) i /\ forward_at (moments p) dt i.
Definition back_ok (p : tperiod) : Prop := forall t, (exists u, u < t /\ moments p u) ->
  exists i, eventually (fun fuel => rollback fuel p t) i /\ back_at (moments p) t i.

(** What it returns consists of moments of the period. *)
Definition forward_sound (p : tperiod) : Prop := forall fuel dt i, rollforward fuel p dt = Returns i ->
  closed i = CLeft /\ left i <= right i /\ forall u, left i <= u < right i -> moments p u.
Definition back_sound (p : tperiod) : Prop := forall fuel t i, rollback fuel p t = Returns i ->
  forall u, zmem u i -> moments p u.

(** Period expressions the forward theorems are about. *)
Inductive fwd_tree : tperiod -> Prop :=
| ft_fixed c L st en tp sg rc p u :
    fixed_cycle c L -> mk_anchored c st en tp sg rc = Ok p -> acontains p u = true -> fwd_tree (PAnch p)
| ft_month s e :
    0 <= s <= 28 * us_day -> 0 <= e <= 28 * us_day -> ~ (s = 28 * us_day /\ e = 0) ->
    fwd_tree (PAnch (Anchored TMonth s e))
| ft_static s e : s <= e -> fwd_tree (PStatic s e)
| ft_always : fwd_tree PAlways
| ft_all ps : ps <> [] -> (forall q, In q ps -> fwd_tree q) -> fwd_tree (PAll ps)
| ft_any ps : ps <> [] -> (forall q, In q ps -> fwd_tree q) ->
    (forall q, In q ps -> recurrent q) -> fwd_tree (PAny ps).

(** Period expressions the backward theorem is about: intersections.  (A month
    period of 28 days from the first of the month is left out: in February of
    a common year its occurrence touches the next one.) *)
Inductive back_tree : tperiod -> Prop :=
| bt_fixed c L st en tp sg rc p u :
    fixed_cycle c L -> mk_anchored c st en tp sg rc = Ok p -> acontains p u = true -> back_tree (PAnch p)
| bt_month s e :
    0 <= s <= 28 * us_day -> 0 <= e <= 28 * us_day -> ~ (s = 28 * us_day /\ e = 0) ->
    e - s < 28 * us_day -> back_tree (PAnch (Anchored TMonth s e))
| bt_static s e : s <= e -> back_tree (PStatic s e)
| bt_always : back_tree PAlways
| bt_all ps : ps <> [] -> (forall q, In q ps -> back_tree q) -> back_tree (PAll ps).

(** Expressions over [&] and [|]; what they mean and how the code builds them. *)
Inductive pexpr : Type :=
| EAtom (p : tperiod)
| EAnd (a b : pexpr)
| EOr (a b : pexpr).

Fixpoint denote (e : pexpr) (t : Z) : Prop :=
  match e with
  | EAtom p => moments p t
  | EAnd a b => denote a t /\ denote b t
  | EOr a b => denote a t \/ denote b t
  end.

Fixpoint build (e : pexpr) : tperiod :=
  match e with
  | EAtom p => p
  | EAnd a b => p_and (build a) (build b)
  | EOr a b => p_or (build a) (build b)
  end.

(** Expressions over recurring periods and [always]. *)
Inductive recurring_expr : pexpr -> Prop :=
| re_always : recurring_expr (EAtom PAlways)
| re_atom p : fwd_tree p -> recurrent p -> recurring_expr (EAtom p)
| re_and a b : recurring_expr a -> recurring_expr b -> recurring_expr (EAnd a b)
| re_or a b : recurring_expr a -> recurring_expr b ->
    (is_always (build a) = true \/ recurrent (build a)) ->
    (is_always (build b) = true \/ recurrent (build b)) -> recurring_expr (EOr a b).
