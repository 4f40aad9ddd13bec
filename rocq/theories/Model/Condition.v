(** Model of rocketry/core/condition/base.py. *)
From Verif Require Import Model.Base.
Open Scope Z_scope.

(** * Boolean combinations *)

(** Condition objects.  [CAtom n] is any condition that is not a combination;
    its observation is given by the environment of the moment. *)
Inductive cond : Type :=
| CTrue
| CFalse
| CAtom (n : nat)
| CAny (cs : list cond)
| CAll (cs : list cond)
| CNot (c : cond).

(** Any.__init__ (base.py:144-151) and All.__init__ (base.py:169-176): members of
    the same class are spliced in. *)
Definition any_subs (args : list cond) : list cond :=
  flat_map (fun c => match c with CAny cs => cs | _ => [c] end) args.
Definition all_subs (args : list cond) : list cond :=
  flat_map (fun c => match c with CAll cs => cs | _ => [c] end) args.
Definition mk_any (args : list cond) : cond := CAny (any_subs args).
Definition mk_all (args : list cond) : cond := CAll (all_subs args).

(** base.py:80-85 __and__, 87-91 __or__, 93-96 and 216-218 __invert__ *)
Definition c_and (self other : cond) : cond := mk_all [self; other].
Definition c_or (self other : cond) : cond := mk_any [self; other].
Definition c_not (self : cond) : cond := match self with CNot c => c | _ => CNot self end.

(** An observation: the outcome and, in order, the atoms that were observed. *)
Definition observation : Type := (result bool * list nat)%type.

(** base.py:153-157 Any.observe, 178-182 All.observe, 198-199 Not.observe,
    236-238 AlwaysTrue, 247-249 AlwaysFalse.  What an atom's observe returns is
    used only for its truth value. *)
Section Loops.
  Variable obs : cond -> observation.
  Fixpoint any_loop (cs : list cond) : observation :=
    match cs with
    | [] => (Ok false, [])
    | c :: cs => match obs c with
                 | (Ok true, tr) => (Ok true, tr)
                 | (Ok false, tr) => let (r, tr') := any_loop cs in (r, tr ++ tr')
                 | (Err e, tr) => (Err e, tr)
                 end
    end.
  Fixpoint all_loop (cs : list cond) : observation :=
    match cs with
    | [] => (Ok true, [])
    | c :: cs => match obs c with
                 | (Ok false, tr) => (Ok false, tr)
                 | (Ok true, tr) => let (r, tr') := all_loop cs in (r, tr ++ tr')
                 | (Err e, tr) => (Err e, tr)
                 end
    end.
End Loops.

Fixpoint observe (env : nat -> result bool) (c : cond) : observation :=
  match c with
  | CTrue => (Ok true, [])
  | CFalse => (Ok false, [])
  | CAtom n => (env n, [n])
  | CAny cs => any_loop (observe env) cs
  | CAll cs => all_loop (observe env) cs
  | CNot c => match observe env c with
              | (Ok b, tr) => (Ok (negb b), tr)
              | (Err e, tr) => (Err e, tr)
              end
  end.

(** * Comparisons *)

Inductive cmp_op : Type := OpEq | OpNe | OpLt | OpGt | OpLe | OpGe.
Definition op_eqb (a b : cmp_op) : bool :=
  match a, b with
  | OpEq, OpEq | OpNe, OpNe | OpLt, OpLt | OpGt, OpGt | OpLe, OpLe | OpGe, OpGe => true
  | _, _ => false
  end.

(** A bound: an int, or an object an int does not know how to compare with
    (a float, a string). *)
Inductive bound : Type := BInt (n : Z) | BOther.

(** getattr(res, comp)(val) for an int [res]; int.__eq__(1.5) etc. return
    NotImplemented, which [all] takes as true. *)
Definition int_compare (op : cmp_op) (res : Z) (val : bound) : bool :=
  match val with
  | BOther => true
  | BInt n => match op with
              | OpEq => res =? n
              | OpNe => negb (res =? n)
              | OpLt => res <? n
              | OpGt => n <? res
              | OpLe => res <=? n
              | OpGe => n <=? res
              end
  end.

(** The dictionary [_comps]: at most one bound per operator. *)
Definition comps : Type := list (cmp_op * bound).
Fixpoint comps_get (c : comps) (op : cmp_op) : option bound :=
  match c with
  | [] => None
  | (o, v) :: c => if op_eqb o op then Some v else comps_get c op
  end.
Fixpoint comps_set (c : comps) (op : cmp_op) (v : bound) : comps :=
  match c with
  | [] => [(op, v)]
  | (o, w) :: c => if op_eqb o op then (o, v) :: c else (o, w) :: comps_set c op v
  end.

(** base.py:278-288 get_state; the measurement is a number or the length of a list *)
Definition comp_state (c : comps) (res : Z) : bool :=
  match c with
  | [] => 0 <? res
  | _ => forallb (fun ov => int_compare (fst ov) res (snd ov)) c
  end.

(** base.py:265-272 observe: a measurement that is already a bool is the answer *)
Inductive measurement : Type := MBool (b : bool) | MNum (n : Z) | MList (l : list Z).
Definition comparable_observe (c : comps) (m : measurement) : bool :=
  match m with
  | MBool b => b
  | MNum n => comp_state c n
  | MList l => comp_state c (Z.of_nat (length l))
  end.

(** base.py:290-299 _is_any_over_zero, 301-307 _is_equal_zero.  Dictionaries are
    compared as sets of pairs. *)
Definition bound_is (b : option bound) (n : Z) : bool :=
  match b with Some (BInt m) => m =? n | _ => false end.
Definition absent (b : option bound) : bool := match b with None => true | _ => false end.
Definition only (c : comps) (ops : list cmp_op) : bool :=
  forallb (fun op => absent (comps_get c op) || existsb (op_eqb op) ops)
    [OpEq; OpNe; OpLt; OpGt; OpLe; OpGe].
Definition is_any_over_zero (c : comps) : bool :=
  only c [] ||
  (only c [OpGt] && bound_is (comps_get c OpGt) 0) ||
  (only c [OpGe] && bound_is (comps_get c OpGe) 1) ||
  (only c [OpGt; OpGe] && bound_is (comps_get c OpGt) 0 && bound_is (comps_get c OpGe) 1).
Definition is_equal_zero (c : comps) : bool :=
  only c [OpEq] && bound_is (comps_get c OpEq) 0.

(** Objects and the dictionaries they refer to. [objs] gives the dictionary of
    each condition object, in order of creation. *)
Record cstate : Type := CState { dicts : list comps; objs : list nat }.

Fixpoint list_update {A} (l : list A) (n : nat) (f : A -> A) : list A :=
  match l, n with
  | [], _ => []
  | a :: l, O => f a :: l
  | a :: l, S n => a :: list_update l n f
  end.

Inductive cevent : Type :=
| EvNew                                        (* base.py:261-263 __init__: a new dictionary *)
| EvMagic (c : comps)                          (* base.py:343-350 from_magic: a new dictionary with bounds *)
| EvCompare (o : nat) (op : cmp_op) (v : bound). (* base.py:309-341: the comparison operators *)

(** base.py:338-341 _set_comparison: copy(self) is shallow, so the new object
    refers to the same dictionary, which is then changed. *)
Definition cstep (st : cstate) (ev : cevent) : cstate :=
  match ev with
  | EvNew => CState (dicts st ++ [[]]) (objs st ++ [length (dicts st)])
  | EvMagic c => CState (dicts st ++ [c]) (objs st ++ [length (dicts st)])
  | EvCompare o op v =>
      match nth_error (objs st) o with
      | None => st
      | Some l => CState (list_update (dicts st) l (fun c => comps_set c op v)) (objs st ++ [l])
      end
  end.
Definition crun (evs : list cevent) : cstate := fold_left cstep evs (CState [] []).

(** What object [o] answers for measurement [m] in a state. *)
Definition cobserve (st : cstate) (o : nat) (m : measurement) : option bool :=
  match nth_error (objs st) o with
  | None => None
  | Some l => match nth_error (dicts st) l with
              | None => None
              | Some c => Some (comparable_observe c m)
              end
  end.
