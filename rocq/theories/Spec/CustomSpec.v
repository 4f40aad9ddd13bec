(** Conditions users make: their syntaxes, the values their functions are called with, checks
    that are made by tasks, and the parameters of the session. *)
From Coq Require Import List Ascii String ZArith.
From Verif Require Import Model.Base Model.Statement Model.Custom Spec.StatementSpec.
From Verif Require Model.Params.
Import ListNotations.
Local Open Scope list_scope.

(** * Syntaxes *)

(** A text read with a pattern, giving each of its groups a part of the text *)
Inductive read_as : pattern -> list ascii -> groups -> Prop :=
| read_end : read_as [] [] []
| read_char : forall c p s gs, read_as p s gs -> read_as (PChar c :: p) (c :: s) gs
| read_any : forall g p x s gs, some_text x -> read_as p s gs -> read_as (PAny g :: p) (x ++ s) ((g, x) :: gs)
| read_digits : forall g p x s gs, digits_only x -> read_as p s gs ->
    read_as (PDigits g :: p) (x ++ s) ((g, x) :: gs)
| read_alt : forall g ss p x s gs, In x ss -> read_as p s gs -> read_as (PAlt g ss :: p) (x ++ s) ((g, x) :: gs)
| read_with : forall t p s gs, read_as p s gs -> read_as (POpt t :: p) (t ++ s) gs
| read_without : forall t p s gs, read_as p s gs -> read_as (POpt t :: p) s gs.

(** A syntax is a text or a pattern. *)
Inductive fits : statement -> list ascii -> groups -> Prop :=
| fits_text : forall t, fits (SText t) t []
| fits_pattern : forall p s gs, read_as p s gs -> fits (SPat p) s gs.
Definition only_as (st : statement) (s : list ascii) (gs : groups) : Prop :=
  fits st s gs /\ forall gs', fits st s gs' -> gs' = gs.

Section Sessions.
  Context {P V A : Type}.

  (** A session in which syntaxes have been registered, one after the other *)
  Fixpoint with_syntaxes (regs : list (statement * entry V A)) (s : csession P V A) : csession P V A :=
    match regs with
    | [] => s
    | (st, e) :: regs => with_syntaxes regs (register st e s)
    end.

  (** What a syntax was registered with last *)
  Definition registered (regs : list (statement * entry V A)) (st : statement) (e : entry V A) : Prop :=
    exists before after, regs = before ++ (st, e) :: after /\ ~ In st (map fst after).

  (** No other syntax fits the text. *)
  Definition no_other (regs : list (statement * entry V A)) (st : statement) (s : list ascii) : Prop :=
    forall st' gs, In st' (map fst regs) -> st' <> st -> ~ fits st' s gs.
End Sessions.

(** * Functions *)

Section Functions.
  Context {V A : Type}.

  (** The value of an argument in the signature *)
  Variable resolve : A -> result V.

  (** The value a parameter is to have: what was given for it, or else its default. *)
  Definition meant_value (given : list (string * V)) (p : string * pdefault V A) (v : V) : Prop :=
    In (fst p, v) given \/
    ~ In (fst p) (map fst given) /\
    (snd p = Plain v \/ exists a, snd p = FromArg a /\ resolve a = Ok v).

  (** All parameters with their values, in the order of the signature *)
  Definition called_with (sig : signature V A) (given : list (string * V)) (bound : list (string * V)) : Prop :=
    Forall2 (fun p kv => fst kv = fst p /\ meant_value given p (snd kv)) sig bound.

  (** A function with parameters that have different names *)
  Definition function_signature (sig : signature V A) : Prop := NoDup (map fst sig).
  (** What is given to the parameters: by position and by name *)
  Definition given_to (sig : signature V A) (args : list V) (kwargs : list (string * V)) : list (string * V) :=
    combine (map fst sig) args ++ kwargs.
  (** Each value is given to one parameter, one that has no argument for default. *)
  Definition proper_values (sig : signature V A) (given : list (string * V)) : Prop :=
    NoDup (map fst given) /\
    forall k, In k (map fst given) -> exists d, In (k, d) sig /\ (forall a, d <> FromArg a).
End Functions.

(** * Checks made by a task *)

(** The latest check that succeeded, if any: when and with what value *)
Inductive latest : list check -> option (Z * bool) -> Prop :=
| latest_none : (forall cs, (forall c, In c cs -> c = NotChecked) -> latest cs None)
| latest_some : forall before t v after, (forall c, In c after -> c = NotChecked) ->
    latest (before ++ Checked t v :: after) (Some (t, v)).

Definition unchecked : check_state := CheckState None None.
Definition after_checks (cs : list check) : check_state := fold_left check_step cs unchecked.

(** * Parameters of the session *)

(** A parameter of the session has a value. *)
Definition has_param (n : nat) (s : Params.sess) (k : Z) (v : Params.value) : Prop :=
  exists p, Params.dget k (Params.ss_params s) = Some p /\
    match p with
    | Params.PVal w => w = v
    | Params.PArg a => Params.get_value n s (Params.Ctx None Params.SMissing None) a = Ok v
    end.

(** Texts parsed one after the other *)
Section Texts.
  Context {P V A : Type}.
  Variable make : pcall -> result P.
  Variable of_text : list ascii -> V.
  Fixpoint after_texts (texts : list (list ascii)) (s : csession P V A) : csession P V A :=
    match texts with
    | [] => s
    | t :: texts => after_texts texts (fst (parse_item make of_text t s))
    end.
End Texts.
