(** Model of rocketry/tasks/code.py:51-55 (CodeTask.execute), with what Python's exec
    does with two different namespaces.

    The code is of a small language: whole numbers, sums, variables, functions
    of one argument and calls of them.  Names are numbers; builtins are left out.
    exec runs the statements of the code with their names in the locals (loc, the
    parameters) and then in the globals (glob, empty); what they assign and define
    goes to the locals.  The body of a function looks for names in the globals only,
    as there is no function around it. *)
From Coq Require Import Bool.
From Verif Require Import Model.Base.
Local Open Scope Z_scope.

(** [Arg] is the argument of the function it is in *)
Inductive expr : Type := Const (z : Z) | Name (x : Z) | Arg | Add (a b : expr) | Call (f : Z) (a : expr).
Inductive stmt : Type := Assign (x : Z) (e : expr) | Define (f : Z) (body : expr).
(** What a name stands for: a value or a function *)
Inductive object : Type := Int (z : Z) | Fun (body : expr).

Definition names : Type := list (Z * object).
Fixpoint lookup (n : names) (x : Z) : option object :=
  match n with
  | [] => None
  | (y, o) :: n => if y =? x then Some o else lookup n x
  end.
Fixpoint put (n : names) (x : Z) (o : object) : names :=
  match n with
  | [] => [(x, o)]
  | (y, o') :: n => if y =? x then (y, o) :: n else (y, o') :: put n x o
  end.

(** The value of an expression whose names are in [here]; those of the bodies of
    functions are in [inside].  [arg] is the argument, if it is in a function, and
    [fuel] is how deep calls may go. *)
Fixpoint eval (fuel : nat) : names -> names -> option object -> expr -> outcome object :=
  fix ev (here inside : names) (arg : option object) (e : expr) : outcome object :=
    match e with
    | Const z => Returns (Int z)
    | Name x => match lookup here x with Some o => Returns o | None => Raises NameError end
    | Arg => match arg with Some o => Returns o | None => Raises NameError end
    | Add a b =>
        match ev here inside arg a with
        | Returns u => match ev here inside arg b with
                       | Returns v => match u, v with Int y, Int z => Returns (Int (y + z)) | _, _ => Raises TypeError end
                       | Raises e => Raises e
                       | OutOfFuel => OutOfFuel
                       end
        | Raises e => Raises e
        | OutOfFuel => OutOfFuel
        end
    | Call f a =>
        match lookup here f with
        | None => Raises NameError
        | Some o =>
            match ev here inside arg a with
            | Returns v => match o with
                           | Int _ => Raises TypeError
                           | Fun body => match fuel with O => OutOfFuel | S n => eval n inside inside (Some v) body end
                           end
            | Raises e => Raises e
            | OutOfFuel => OutOfFuel
            end
        end
    end.

(** exec(code, glob, loc): what loc is afterwards *)
Fixpoint exec (fuel : nat) (code : list stmt) (glob loc : names) : outcome names :=
  match code with
  | [] => Returns loc
  | Assign x e :: code =>
      match eval fuel (loc ++ glob) glob None e with
      | Returns o => exec fuel code glob (put loc x o)
      | Raises e => Raises e
      | OutOfFuel => OutOfFuel
      end
  | Define f body :: code => exec fuel code glob (put loc f (Fun body))
  end.

(** code.py:51-55; [None] is None *)
Definition execute_code (fuel : nat) (code : list stmt) (output_variable : Z) (params : names) : outcome (option object) :=
  match exec fuel code [] params with
  | Returns loc => Returns (lookup loc output_variable)
  | Raises e => Raises e
  | OutOfFuel => OutOfFuel
  end.
