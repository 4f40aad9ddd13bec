(** Model of the comparison of arguments and of parameter sets:
    rocketry/core/parameters/arguments.py:81-84, rocketry/args/builtin.py:67-70,
    rocketry/args/secret.py:22-25, rocketry/core/parameters/parameters.py:162-172. *)
From Coq Require Import Bool.
From Verif Require Import Model.Base Model.World Model.Params.
Local Open Scope Z_scope.

(** == of values: data are numbers here, tasks are compared by name *)
Definition value_eqb (v w : value) : bool :=
  match v, w with
  | VData n, VData m => n =? m
  | VTask n, VTask m => n =? m
  | VEvent n, VEvent m => n =? m
  | VHidden, VHidden | VSession, VSession | VNone, VNone => true
  | _, _ => false
  end.

(** isinstance(other, type(self)): no class of arguments is made from another *)
Definition same_class (a b : arg) : bool :=
  match a, b with
  | SimpleArg _, SimpleArg _ | ArgKey _ _, ArgKey _ _ | SessionArg _, SessionArg _
  | TaskArg _ _, TaskArg _ _ | ReturnArg _ _, ReturnArg _ _ | FuncArg _ _ _, FuncArg _ _ _
  | FlagArg, FlagArg | EnvArg _ _, EnvArg _ _ | CliArg _ _, CliArg _ _
  | PrivateArg _, PrivateArg _ | PipeArg _, PipeArg _ => true
  | _, _ => false
  end.

(** a == b: builtin.py:67-70 for Arg, secret.py:22-25 for Private, arguments.py:81-84
    for the others, where get_value is called without arguments.  A Private
    compared with another argument compares its value with it, which is False. *)
Definition arg_eq (n : nat) (s : sess) (a b : arg) : result bool :=
  match a, b with
  | ArgKey k _, ArgKey k' _ => Ok (k =? k')
  | PrivateArg v, PrivateArg w => Ok (value_eqb v w)
  | _, _ =>
      if same_class a b
      then let* v := get_value n s no_kwargs a in
           let* w := get_value n s no_kwargs b in
           Ok (value_eqb v w)
      else Ok false
  end.
(** == of entries of parameter sets; a value compared with an argument is left to
    the argument *)
Definition param_eq (n : nat) (s : sess) (p q : param) : result bool :=
  match p, q with
  | PVal v, PVal w => Ok (value_eqb v w)
  | PArg a, PArg b => arg_eq n s a b
  | PVal v, PArg (PrivateArg w) => Ok (value_eqb v w)
  | PArg (PrivateArg v), PVal w => Ok (value_eqb v w)
  | _, _ => Ok false
  end.

(** Parameter sets whose entries are objects: an identity and what is there.  The
    comparison of dictionaries asks for the same length, and for each key of the
    first whether the other has it with the same object or one that is ==. *)
Definition objects : Type := dict (Z * param).
Fixpoint entries_eq (n : nat) (s : sess) (a b : objects) : result bool :=
  match a with
  | [] => Ok true
  | (k, (i, p)) :: a =>
      match dget k b with
      | None => Ok false
      | Some (j, q) =>
          if i =? j then entries_eq n s a b
          else let* e := param_eq n s p q in
               if e then entries_eq n s a b else Ok false
      end
  end.
(** parameters.py:162-166 and 168-172, for two Parameters *)
Definition sets_eq (n : nat) (s : sess) (a b : objects) : result bool :=
  if Nat.eqb (length a) (length b) then entries_eq n s a b else Ok false.
Definition sets_ne (n : nat) (s : sess) (a b : objects) : result bool :=
  let* e := sets_eq n s a b in Ok (negb e).
