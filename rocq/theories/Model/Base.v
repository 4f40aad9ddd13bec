(** Common vocabulary of the model: Python exceptions as values. *)
From Coq Require Export List ZArith Bool.
Export ListNotations.

(** Exception classes that the modelled code raises or distinguishes.
    rocketry/exc.py:1-20 gives the rocketry ones; all of those are plain
    subclasses of Exception.  [UserExc n] stands for any other Exception
    raised by user code. *)
Inductive exn : Type :=
| ValueError
| TypeError
| KeyError
| AttributeError
| IndexError
| NameError
| OverflowError
| RecursionError
| ParserError
| SchedulerRestart
| SchedulerExit
| TaskInaction
| TaskTermination
| TaskSetupError
| TaskLoggingError
| CancelledError
| UserExc (n : Z).

(** Outcome of a Python call: normal return or exception. *)
Inductive result (A : Type) : Type :=
| Ok (a : A)
| Err (e : exn).
Arguments Ok {A} a.
Arguments Err {A} e.

Definition bind {A B} (r : result A) (f : A -> result B) : result B :=
  match r with Ok a => f a | Err e => Err e end.

Notation "'let*' x := r 'in' k" := (bind r (fun x => k))
  (at level 200, x pattern, r at level 100, k at level 200, right associativity).

(** Outcome of a possibly non-terminating Python call run with fuel:
    [OutOfFuel] means the call has not finished within the fuel. *)
Inductive outcome (A : Type) : Type :=
| Returns (a : A)
| Raises (e : exn)
| OutOfFuel.
Arguments Returns {A} a.
Arguments Raises {A} e.
Arguments OutOfFuel {A}.
