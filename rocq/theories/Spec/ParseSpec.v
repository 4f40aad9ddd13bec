(** The language of condition strings and of time strings, and what its sentences mean. *)
From Coq Require Import List Ascii ZArith.
From Verif Require Import Model.Base.
From Verif Require Model.Condition Model.Period.
From Verif Require Spec.AlgebraSpec.
Import ListNotations.
Local Open Scope char_scope.

(** White space among the ASCII characters: tab, line feed, vertical tab, form feed, carriage
    return, the four separators and the blank. *)
Definition white (c : ascii) : Prop :=
  In (nat_of_ascii c) [9; 10; 11; 12; 13; 28; 29; 30; 31; 32]%nat.
Definition blanks (s : list ascii) : Prop := forall c, In c s -> white c.

(** The characters an item cannot have. *)
Definition reserved (c : ascii) : Prop := In c ["("; ")"; "&"; "|"; "~"].

(** The text of a single condition or period: something without reserved characters, which does
    not begin or end with white space. *)
Definition item_text (t : list ascii) : Prop :=
  t <> [] /\ (forall c, In c t -> ~ reserved c) /\
  (forall c rest, t = c :: rest -> ~ white c) /\ (forall c rest, t = rest ++ [c] -> ~ white c).

(** Expressions over items. *)
Inductive bexp : Type :=
| BItem (t : list ascii)
| BNot (e : bexp)
| BAnd (a b : bexp)
| BOr (a b : bexp).

(** The items of an expression, from the left. *)
Fixpoint items (e : bexp) : list (list ascii) :=
  match e with
  | BItem t => [t]
  | BNot e => items e
  | BAnd a b | BOr a b => items a ++ items b
  end.

(** The grammar:

      any   ::=  all  |  any BAR all
      all   ::=  unit |  all AMPERSAND unit
      unit  ::=  item |  TILDE unit  |  PARENTHESIS any PARENTHESIS

    with white space allowed around operators and items (but not around a parenthesised part
    that has no operator on that side).  [neg] tells whether there is a tilde. *)
Inductive level : Type := LAny | LAll | LUnit.
Inductive reads (neg : bool) : level -> list ascii -> bexp -> Prop :=
| rd_item : forall before t after, blanks before -> blanks after -> item_text t ->
    reads neg LUnit (before ++ t ++ after) (BItem t)
| rd_not : forall before after s e, neg = true -> blanks before -> blanks after ->
    reads neg LUnit s e -> reads neg LUnit (before ++ "~" :: after ++ s) (BNot e)
| rd_group : forall s e, reads neg LAny s e -> reads neg LUnit ("(" :: s ++ [")"]) e
| rd_unit : forall s e, reads neg LUnit s e -> reads neg LAll s e
| rd_and : forall s e before after s' e', blanks before -> blanks after ->
    reads neg LAll s e -> reads neg LUnit s' e' ->
    reads neg LAll (s ++ before ++ "&" :: after ++ s') (BAnd e e')
| rd_all : forall s e, reads neg LAll s e -> reads neg LAny s e
| rd_or : forall s e before after s' e', blanks before -> blanks after ->
    reads neg LAny s e -> reads neg LAll s' e' ->
    reads neg LAny (s ++ before ++ "|" :: after ++ s') (BOr e e').

(** An expression written with every combination in parentheses. *)
Fixpoint printed (e : bexp) : list ascii :=
  match e with
  | BItem t => t
  | BNot e => "(" :: "~" :: printed e ++ [")"]
  | BAnd a b => "(" :: printed a ++ " " :: "&" :: " " :: printed b ++ [")"]
  | BOr a b => "(" :: printed a ++ " " :: "|" :: " " :: printed b ++ [")"]
  end.

(** * Conditions *)

(** What an expression answers and which atoms it looks at, when the items are the given
    conditions: the operands from the left, only as far as needed. *)
Fixpoint answer (env : nat -> result bool) (known : list ascii -> Condition.cond) (e : bexp)
    : result bool * list nat :=
  match e with
  | BItem t => Condition.observe env (known t)
  | BNot e =>
      match answer env known e with
      | (Ok b, seen) => (Ok (negb b), seen)
      | (Err x, seen) => (Err x, seen)
      end
  | BAnd a b =>
      match answer env known a with
      | (Ok true, seen) => let '(r, seen') := answer env known b in (r, seen ++ seen')
      | (r, seen) => (r, seen)
      end
  | BOr a b =>
      match answer env known a with
      | (Ok false, seen) => let '(r, seen') := answer env known b in (r, seen ++ seen')
      | (r, seen) => (r, seen)
      end
  end.

(** The first item that is not known, and its error. *)
Definition first_unknown {A} (item : list ascii -> result A) (ts : list (list ascii)) (x : exn) : Prop :=
  exists pre t post, ts = pre ++ t :: post /\ (forall u, In u pre -> exists v, item u = Ok v) /\
    item t = Err x.

(** How often a character occurs. *)
Fixpoint occurrences (c : ascii) (s : list ascii) : nat :=
  match s with
  | [] => 0
  | d :: s => (if Ascii.eqb d c then 1 else 0) + occurrences c s
  end.

(** * Periods *)

(** The moments an expression stands for, when the items are the given periods. *)
Fixpoint spans (known : list ascii -> Period.tperiod) (e : bexp) (t : Z) : Prop :=
  match e with
  | BItem u => AlgebraSpec.moments (known u) t
  | BNot e => ~ spans known e t
  | BAnd a b => spans known a t /\ spans known b t
  | BOr a b => spans known a t \/ spans known b t
  end.

(** A period as All and Any build them from periods other than [always]: it is not [always]
    itself, and when it combines others there is at least one, none of the same kind. *)
Definition solid (p : Period.tperiod) : Prop :=
  match p with
  | Period.PAlways => False
  | Period.PAll ps => ps <> [] /\
      forall q, In q ps -> q <> Period.PAlways /\ forall qs, q <> Period.PAll qs
  | Period.PAny ps => ps <> [] /\ forall q qs, In q ps -> q <> Period.PAny qs
  | _ => True
  end.
