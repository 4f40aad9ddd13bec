(** Specifications for queries, in terms of what is written and what an item
    (a dictionary with distinct keys) has. *)
From Coq Require Import Ascii String.
From Verif Require Import Model.Base Model.Query.
Open Scope Z_scope.

Definition keys_distinct {A} (d : list (string * A)) : Prop := NoDup (map fst d).

(** * Values *)

(** Dictionary order of strings *)
Inductive str_before : string -> string -> Prop :=
| before_end : forall c s, str_before EmptyString (String c s)
| before_here : forall c c' s s', (N_of_ascii c < N_of_ascii c')%N -> str_before (String c s) (String c' s')
| before_later : forall c s s', str_before s s' -> str_before (String c s) (String c s').

Definition before (l r : value) : Prop :=
  match l, r with
  | VInt a, VInt b => a < b
  | VStr a, VStr b => str_before a b
  | VDate a, VDate b => a < b
  | _, _ => False
  end.
Definition same_kind (l r : value) : Prop :=
  match l, r with
  | VInt _, VInt _ | VStr _, VStr _ | VDate _, VDate _ => True
  | _, _ => False
  end.
Definition relation (c : cmp) (l r : value) : Prop :=
  match c with
  | CEq => l = r
  | CNe => l <> r
  | CGt => before r l
  | CGe => before r l \/ l = r
  | CLt => before l r
  | CLe => before l r \/ l = r
  end.
(** Values of different kinds differ but have no order. *)
Definition ordered (c : cmp) (l r : value) : Prop := c = CEq \/ c = CNe \/ same_kind l r.

Section QuerySpec.
Context (parse_date : string -> result Z) (from_timestamp : Z -> result Z) (re_match : string -> string -> result bool).

(** A value that is compared with a moment is taken for a moment. *)
Definition moment (v : value) (us : Z) : Prop :=
  match v with
  | VDate t => t = us
  | VStr s => parse_date s = Ok us
  | VInt i => from_timestamp i = Ok us
  | VNone => False
  end.
Definition taken (l r l' r' : value) : Prop :=
  ((forall t, l <> VDate t) /\ (forall t, r <> VDate t) /\ l' = l /\ r' = r) \/
  (((exists t, l = VDate t) \/ (exists t, r = VDate t)) /\
   exists a b, moment l a /\ moment r b /\ l' = VDate a /\ r' = VDate b).

(** * Expressions *)
Inductive expr : Type :=
| Is (c : cmp) (l r : operand)
| Matches (key : string) (pattern : value)
| Both (a b : expr)
| Either (a b : expr)
| Neither (a : expr).

(** What Python builds when the expression is written with Key(...), comparison
    operators, Regex, &, | and ~. *)
Fixpoint written (e : expr) : query :=
  match e with
  | Is c l r => compare_with c l r
  | Matches k p => QRegex k p
  | Both a b => and_ (written a) (written b)
  | Either a b => or_ (written a) (written b)
  | Neither a => invert (written a)
  end.

Definition has (d : item) (o : operand) (v : value) : Prop :=
  match o with OKey k => In (k, v) d | OLit v' => v' = v end.

(** What the expression says of an item *)
Fixpoint says (d : item) (e : expr) : Prop :=
  match e with
  | Is c l r => exists a b a' b', has d l a /\ has d r b /\ taken a b a' b' /\ relation c a' b'
  | Matches k p => exists t s, p = VStr t /\ has d (OKey k) (VStr s) /\ re_match t s = Ok true
  | Both a b => says d a /\ says d b
  | Either a b => says d a \/ says d b
  | Neither a => ~ says d a
  end.
(** Every comparison of the expression can be made. *)
Fixpoint decided (d : item) (e : expr) : Prop :=
  match e with
  | Is c l r => exists a b a' b', has d l a /\ has d r b /\ taken a b a' b' /\ ordered c a' b'
  | Matches k p => exists t s b, p = VStr t /\ has d (OKey k) (VStr s) /\ re_match t s = Ok b
  | Both a b => decided d a /\ decided d b
  | Either a b => decided d a /\ decided d b
  | Neither a => decided d a
  end.
(** The query answers the question [claim] about the item. *)
Definition answers (q : query) (d : item) (claim : Prop) : Prop :=
  exists b, match_ parse_date from_timestamp re_match d q = Ok b /\ (b = true <-> claim).

(** * Queries from dictionaries *)
Inductive sort : Type := Equals | AtLeast | AtMost | Differs | Fits.
Record criterion : Type := Criterion { cr_key : string; cr_sort : sort; cr_value : value }.
(** As written: the key alone, or with the name of the sort after a dollar *)
Definition suffix (s : sort) : string :=
  match s with Equals => "" | AtLeast => "$min" | AtMost => "$max" | Differs => "$not" | Fits => "$regex" end.
Definition entry (c : criterion) : string * value := (append (cr_key c) (suffix (cr_sort c)), cr_value c).
Definition required (c : criterion) : expr :=
  let key := OKey (cr_key c) in
  let v := OLit (cr_value c) in
  match cr_sort c with
  | Equals => Is CEq key v
  | AtLeast => Is CGe key v
  | AtMost => Is CLe key v
  | Differs => Is CNe key v
  | Fits => Matches (cr_key c) (cr_value c)
  end.
Definition plain (k : string) : Prop := ~ In "$"%char (list_ascii_of_string k).

(** * Queries from keyword arguments *)
(** A pair is a range, open where it has None; a list has alternatives. *)
Definition bounds (k : string) (min max : value) : list expr :=
  (match min with VNone => [] | _ => [Is CGe (OKey k) (OLit min)] end) ++
  (match max with VNone => [] | _ => [Is CLe (OKey k) (OLit max)] end).
Definition kw_says (d : item) (a : string * kwarg) : Prop :=
  match snd a with
  | KOne v => says d (Is CEq (OKey (fst a)) (OLit v))
  | KList vs => Exists (fun v => says d (Is CEq (OKey (fst a)) (OLit v))) vs
  | KTuple [min; max] => Forall (says d) (bounds (fst a) min max)
  | KTuple _ => False
  end.
Definition kw_decided (d : item) (a : string * kwarg) : Prop :=
  match snd a with
  | KOne v => decided d (Is CEq (OKey (fst a)) (OLit v))
  | KList vs => Forall (fun v => decided d (Is CEq (OKey (fst a)) (OLit v))) vs
  | KTuple [min; max] => Forall (decided d) (bounds (fst a) min max)
  | KTuple _ => False
  end.
Definition pair_or_other (v : kwarg) : Prop := match v with KTuple vs => length vs = 2%nat | _ => True end.
End QuerySpec.

(** * Queries from pairs *)
(** The key text occurs more than once. *)
Definition repeated (k : string) (l : list (string * value)) : Prop :=
  exists a b c v v', l = a ++ (k, v) :: b ++ (k, v') :: c.

(** * Keyword form *)
(** A value or a range that is not wholly open *)
Definition one_criterion (v : kwarg) : Prop :=
  match v with KOne _ => True | KTuple [min; max] => min <> VNone \/ max <> VNone | _ => False end.
(** An equality or a bound, with the key on the left *)
Record simple : Type := Simple { si_key : string; si_cmp : cmp; si_value : value }.
Definition simple_expr (s : simple) : expr := Is (si_cmp s) (OKey (si_key s)) (OLit (si_value s)).
Definition simple_ok (s : simple) : Prop :=
  si_cmp s = CEq \/ ((si_cmp s = CGe \/ si_cmp s = CLe) /\ si_value s <> VNone).
(** Together they can be a keyword argument: two bounds of different sorts *)
Definition compatible (a b : simple) : Prop :=
  si_key a = si_key b -> si_cmp a <> CEq /\ si_cmp b <> CEq /\ si_cmp a <> si_cmp b.
(** e & e1 & e2 & ... *)
Definition conjunction (e : expr) (es : list expr) : expr := fold_left Both es e.
