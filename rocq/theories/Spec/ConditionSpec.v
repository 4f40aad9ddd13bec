(** What combined conditions and comparisons mean. *)
From Coq Require Import ZArith List.
From Verif Require Import Model.Base Model.Condition.
Import ListNotations.
Open Scope Z_scope.

(** Expressions as the user writes them. *)
Inductive cexpr : Type :=
| XTrue
| XFalse
| XAtom (n : nat)
| XAnd (a b : cexpr)
| XOr (a b : cexpr)
| XNot (a : cexpr).

(** The condition object Python builds from the expression. *)
Fixpoint cbuild (e : cexpr) : cond :=
  match e with
  | XTrue => CTrue
  | XFalse => CFalse
  | XAtom n => CAtom n
  | XAnd a b => c_and (cbuild a) (cbuild b)
  | XOr a b => c_or (cbuild a) (cbuild b)
  | XNot a => c_not (cbuild a)
  end.

(** Its Boolean value. *)
Fixpoint truth (env : nat -> bool) (e : cexpr) : bool :=
  match e with
  | XTrue => true
  | XFalse => false
  | XAtom n => env n
  | XAnd a b => andb (truth env a) (truth env b)
  | XOr a b => orb (truth env a) (truth env b)
  | XNot a => negb (truth env a)
  end.

(** Short-circuiting evaluation, left to right, with failing parts: outcome
    and the parts that were looked at. *)
Fixpoint shortcut (env : nat -> result bool) (e : cexpr) : result bool * list nat :=
  match e with
  | XTrue => (Ok true, [])
  | XFalse => (Ok false, [])
  | XAtom n => (env n, [n])
  | XAnd a b =>
      match shortcut env a with
      | (Ok true, tr) => (fst (shortcut env b), tr ++ snd (shortcut env b))
      | r => r
      end
  | XOr a b =>
      match shortcut env a with
      | (Ok false, tr) => (fst (shortcut env b), tr ++ snd (shortcut env b))
      | r => r
      end
  | XNot a =>
      match shortcut env a with
      | (Ok v, tr) => (Ok (negb v), tr)
      | r => r
      end
  end.

(** What a comparison with an integer says. *)
Definition says (op : cmp_op) (m n : Z) : Prop :=
  match op with
  | OpEq => m = n
  | OpNe => m <> n
  | OpLt => m < n
  | OpGt => m > n
  | OpLe => m <= n
  | OpGe => m >= n
  end.

(** Which objects are comparisons of the same original: the original's number. *)
Fixpoint roots (evs : list cevent) (acc : list nat) : list nat :=
  match evs with
  | [] => acc
  | (EvNew | EvMagic _) :: evs => roots evs (acc ++ [length acc])
  | EvCompare o _ _ :: evs =>
      roots evs (acc ++ match nth_error acc o with Some r => [r] | None => [] end)
  end.

(** The bounds put on comparisons of the original [r], oldest first. *)
Fixpoint family_bounds (evs : list cevent) (acc : list nat) (r : nat) : list (cmp_op * bound) :=
  match evs with
  | [] => []
  | EvNew :: evs => family_bounds evs (acc ++ [length acc]) r
  | EvMagic c :: evs =>
      (if Nat.eqb (length acc) r then c else []) ++ family_bounds evs (acc ++ [length acc]) r
  | EvCompare o op v :: evs =>
      match nth_error acc o with
      | Some r' => (if Nat.eqb r' r then [(op, v)] else []) ++ family_bounds evs (acc ++ [r']) r
      | None => family_bounds evs acc r
      end
  end.

(** The latest bound for an operator. *)
Definition latest (bs : list (cmp_op * bound)) (op : cmp_op) : option bound :=
  fold_left (fun acc ov => if op_eqb (fst ov) op then Some (snd ov) else acc) bs None.

(** The count the condition looks at. *)
Definition count_of (m : measurement) : option Z :=
  match m with MBool _ => None | MNum n => Some n | MList l => Some (Z.of_nat (length l)) end.

(** A chain of comparisons on a condition just created:
    (((c op1 n1) op2 n2) ...); the result is the last object. *)
Fixpoint chain_from (k : nat) (bs : list (cmp_op * Z)) : list cevent :=
  match bs with
  | [] => []
  | (op, n) :: bs => EvCompare k op (BInt n) :: chain_from (S k) bs
  end.
Definition chain (bs : list (cmp_op * Z)) : list cevent := EvNew :: chain_from 0 bs.

(** At most one entry per operator. *)
Definition keys_ok (c : comps) : Prop := NoDup (map fst c).

(** The bounds are all met. *)
Definition obeys (get : cmp_op -> option bound) (n : Z) : Prop :=
  forall op v, get op = Some v -> int_compare op n v = true.

(** Keyword arguments have distinct names. *)
Definition magic_ok (evs : list cevent) : Prop := forall c, In (EvMagic c) evs -> keys_ok c.
