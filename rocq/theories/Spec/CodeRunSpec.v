(** What the code of a code task means: a script in which the parameters are
    variables from the start. *)
From Coq Require Import Bool.
From Verif Require Import Model.Base Model.CodeRun.
Local Open Scope Z_scope.

(** The variables of a script *)
Definition vars : Type := Z -> option object.
Definition set_to (s : vars) (x : Z) (o : object) (s' : vars) : Prop :=
  s' x = Some o /\ forall y, y <> x -> s' y = s y.

(** What an expression means, in a function called with the argument, if any *)
Inductive means (s : vars) : option object -> expr -> object -> Prop :=
| m_const : forall arg z, means s arg (Const z) (Int z)
| m_name : forall arg x o, s x = Some o -> means s arg (Name x) o
| m_arg : forall o, means s (Some o) Arg o
| m_add : forall arg a b y z, means s arg a (Int y) -> means s arg b (Int z) -> means s arg (Add a b) (Int (y + z))
| m_call : forall arg f a body v o, s f = Some (Fun body) -> means s arg a v -> means s (Some v) body o ->
    means s arg (Call f a) o.

Inductive script : vars -> list stmt -> vars -> Prop :=
| s_done : forall s, script s [] s
| s_assign : forall s x e o s1 code s2, means s None e o -> set_to s x o s1 -> script s1 code s2 ->
    script s (Assign x e :: code) s2
| s_define : forall s f body s1 code s2, set_to s f (Fun body) s1 -> script s1 code s2 ->
    script s (Define f body :: code) s2.

(** The variables are the parameters *)
Definition start_with (params : names) (s : vars) : Prop := forall x, s x = lookup params x.
(** Parameters are values, not functions of the code *)
Definition plain (params : names) : Prop := forall x o, In (x, o) params -> exists z, o = Int z.

(** Functions that use no names but that of their argument: no parameters, variables
    or other functions *)
Fixpoint nameless (e : expr) : Prop :=
  match e with
  | Const _ | Arg => True
  | Name _ | Call _ _ => False
  | Add a b => nameless a /\ nameless b
  end.
Definition nameless_functions (code : list stmt) : Prop := forall f body, In (Define f body) code -> nameless body.

(** The code sets x *)
Definition sets (code : list stmt) (x : Z) : Prop :=
  (exists e, In (Assign x e) code) \/ exists body, In (Define x body) code.
