(** What the run of a command task is to come to. *)
From Coq Require Import Bool String.
From Verif Require Import Model.Base Model.CommandRun.
Local Open Scope Z_scope.
Local Open Scope string_scope.

(** The last value given for an option counts. *)
Inductive given : options -> string -> pvalue -> Prop :=
| given_last : forall o k v, given (o ++ [(k, v)])%list k v
| given_before : forall o k v k' v', k' <> k -> given o k v -> given (o ++ [(k', v')])%list k v.
Definition not_given (o : options) (k : string) : Prop := forall v, ~ In (k, v) o.

(** What is passed when the user gives nothing *)
Inductive by_default (cwd : option string) (shell : bool) : string -> pvalue -> Prop :=
| default_cwd : forall d, cwd = Some d -> by_default cwd shell "cwd" (VStr d)
| default_no_cwd : cwd = None -> by_default cwd shell "cwd" VNone
| default_shell : by_default cwd shell "shell" (VBool shell)
| default_stdin : by_default cwd shell "stdin" VPipe
| default_stdout : by_default cwd shell "stdout" VPipe
| default_stderr : by_default cwd shell "stderr" VPipe.

(** The command can be started and ends, in time if there is a limit *)
Definition starts (p : program) : Prop := p_start p = None.
Definition ends_within (p : program) (timeout : option Z) : Prop :=
  exists e, p_ends p = Some e /\ forall us, timeout = Some us -> e <= us.
(** The command is over when the run is: it ended, was killed, or never began. *)
Definition not_left (f : fate) : Prop := f <> LeftRunning.
