(** Model of the comparison of conditions with each other, == and !=:
    rocketry/core/condition/base.py:98-114, 131-136, 220-229, 309-321. *)
From Coq Require Import Bool.
From Verif Require Import Model.Base Model.Condition.
Open Scope Z_scope.

(** A condition as the comparison sees it: the constants, a condition of some
    class with its attributes, one that counts (BaseComparable) with its
    bounds as well, and the containers.  Classes and sets of attribute values
    are numbers; none of the condition classes of the library is a subclass of
    another.  The wrappers of conditions/api.py, which stand for a condition
    still to be finished, are not among them. *)
Inductive cnd : Type :=
| KTrue
| KFalse
| KPlain (cls attrs : Z)
| KComp (cls attrs : Z) (c : comps)
| KAny (l : list cnd)
| KAll (l : list cnd)
| KNot (c : cnd).

(** What == says of attribute values and of bounds, and what the conditions
    answer: a condition of a class is true, false or raises, one that counts
    measures something (conditions/task/utils.py:61-113: it may use its bounds
    to answer sooner). *)
Record python : Type := Python {
  py_attrs : Z -> Z -> bool;
  py_bounds : bound -> bound -> bool;
  py_holds : Z -> Z -> result bool;
  py_measure : Z -> Z -> comps -> result measurement }.

(** Observing: base.py:153-157, 178-182, 198-199 and 265-276 *)
Fixpoint kobserve (py : python) (a : cnd) : result bool :=
  match a with
  | KTrue => Ok true
  | KFalse => Ok false
  | KPlain k x => py_holds py k x
  | KComp k x c => let* m := py_measure py k x c in Ok (comparable_observe c m)
  | KAny l =>
      (fix any (l : list cnd) : result bool :=
         match l with
         | [] => Ok false
         | a :: l => let* b := kobserve py a in if b then Ok true else any l
         end) l
  | KAll l =>
      (fix all (l : list cnd) : result bool :=
         match l with
         | [] => Ok true
         | a :: l => let* b := kobserve py a in if b then all l else Ok false
         end) l
  | KNot a => let* b := kobserve py a in Ok (negb b)
  end.

(** dict == dict on the bounds: as many, and each is there *)
Definition comps_equal (py : python) (c d : comps) : bool :=
  Nat.eqb (length c) (length d) &&
  forallb (fun ov => match comps_get d (fst ov) with Some v => py_bounds py (snd ov) v | None => false end) c.

(** a == b.  base.py:98-114 BaseCondition: the class of [a] and all attributes
    but those for display; 309-316 BaseComparable: the same with a condition;
    131-136 Any and All: the lists of conditions, in order (Python takes an
    object as equal to itself without asking; so does this as long as attribute
    values and bounds equal themselves); 220-229 Not. *)
Fixpoint keq (py : python) (a b : cnd) {struct a} : bool :=
  let lists := (fix lists (l r : list cnd) : bool :=
    match l, r with
    | [], [] => true
    | x :: l, y :: r => keq py x y && lists l r
    | _, _ => false
    end) in
  match a, b with
  | KTrue, KTrue => true
  | KFalse, KFalse => true
  | KPlain k x, KPlain j y => (k =? j) && py_attrs py x y
  | KComp k x c, KComp j y d => (k =? j) && py_attrs py x y && comps_equal py c d
  | KAny l, KAny r => lists l r
  | KAll l, KAll r => lists l r
  | KNot a, KTrue => match a with KFalse => true | _ => false end
  | KNot a, KFalse => match a with KTrue => true | _ => false end
  | KNot a, KNot b => keq py a b
  | _, _ => false
  end.

(** a != b: its truth value, and what [a] is afterwards.  Conditions that
    count take it for a bound (base.py:318-320, 338-341): the outcome is a
    condition, a shallow copy of [a] that shares its bounds with [a], and the
    truth value of a condition is what it observes (base.py:68-70; here as with
    the session and task the scheduler gives it).  The others have the negation
    of ==. *)
Definition kne (py : python) (a b : cnd) : result bool * cnd :=
  match a with
  | KComp k x c => let a := KComp k x (comps_set c OpNe BOther) in (kobserve py a, a)
  | _ => (Ok (negb (keq py a b)), a)
  end.
