(** Model of the run of a command: rocketry/tasks/command.py:50-59 (get_kwargs_popen)
    and 84-99 (execute from Popen on), with what subprocess does there.

    Outputs are lists of bytes.  What a command does when it is left alone is given
    by a [program]: whether it can be started, when it ends, with which code and
    what it has printed by then.  The decoding of the error output for the message
    of the exception is left out, and so are commands that outlive the process
    Popen started. *)
From Coq Require Import Bool String.
From Verif Require Import Model.Base.
Local Open Scope Z_scope.
Local Open Scope string_scope.

(** Values of the options of Popen; [VOther] is any other object *)
Inductive pvalue : Type := VNone | VBool (b : bool) | VStr (s : string) | VPipe | VOther (n : Z).
Definition options : Type := list (string * pvalue).
Fixpoint option_of (o : options) (k : string) : option pvalue :=
  match o with
  | [] => None
  | (k', v) :: o => if String.eqb k' k then Some v else option_of o k
  end.
(** dict[k] = v: in place, or at the end *)
Fixpoint set_option (o : options) (k : string) (v : pvalue) : options :=
  match o with
  | [] => [(k, v)]
  | (k', v') :: o => if String.eqb k' k then (k', v) :: o else (k', v') :: set_option o k v
  end.
(** dict.update *)
Definition update (o given : options) : options :=
  fold_left (fun o kv => set_option o (fst kv) (snd kv)) given o.

(** command.py:50-59 *)
Definition kwargs_popen (cwd : option string) (shell : bool) (kwds_popen : options) : options :=
  update [("cwd", match cwd with Some d => VStr d | None => VNone end);
          ("shell", VBool shell);
          ("stdin", VPipe); ("stdout", VPipe); ("stderr", VPipe)] kwds_popen.

(** What the command does: [p_start] is the error that keeps it from being
    started, [p_ends] the microseconds until it ends ([None]: never) *)
Record program : Type := Program {
  p_start : option Z;
  p_ends : option Z;
  p_code : Z;
  p_out : list Z;
  p_err : list Z }.

(** The argument timeout of communicate: None, a number (in microseconds here), or
    a timedelta *)
Inductive limit : Type := NoLimit | Number (us : Z) | Delta (us : Z).

(** communicate: [Blocks] is that it does not return.  With a timeout it begins by
    adding it to a float, which a timedelta cannot be. *)
Inductive communicated : Type := Ended | Expired | Mistyped | Blocks.
Definition communicate (p : program) (t : limit) : communicated :=
  match t with
  | NoLimit => match p_ends p with Some _ => Ended | None => Blocks end
  | Number us => match p_ends p with
                 | Some e => if (e <=? us)%Z then Ended else Expired
                 | None => Expired
                 end
  | Delta _ => Mistyped
  end.
(** What is read of an output: only what goes to a pipe *)
Definition captured (o : options) (k : string) (b : list Z) : option (list Z) :=
  match option_of o k with Some VPipe => Some b | _ => None end.

(** What comes of execute, and of the command *)
Inductive failure : Type :=
| StartError (n : Z)
| TimeoutExpired
| BadTimeout
| ExitError (code : Z) (errs : option (list Z)).
Inductive ran : Type := Succeeded (outs : option (list Z)) | Failed (e : failure) | Hangs.
Inductive fate : Type := NotStarted | Over | Killed | LeftRunning.

(** command.py:84-99, for the options of Popen and the timeout passed on *)
Definition run_command (o : options) (t : limit) (p : program) : ran * fate :=
  match p_start p with
  | Some n => (Failed (StartError n), NotStarted)
  | None =>
      match communicate p t with
      | Blocks => (Hangs, LeftRunning)
      | Mistyped => (Failed BadTimeout, LeftRunning)
      | Expired => (Failed TimeoutExpired, Killed)
      | Ended =>
          if negb (p_code p =? 0)%Z then (Failed (ExitError (p_code p) (captured o "stderr" (p_err p))), Over)
          else (Succeeded (captured o "stdout" (p_out p)), Over)
      end
  end.

(** command.py:87: the timeout passed on is the task's own, which is None or a
    timedelta (core/task.py:230, 290-298); the session's is not looked at *)
Definition passed (timeout : option Z) : limit :=
  match timeout with None => NoLimit | Some us => Delta us end.
Definition execute_command (cwd : option string) (shell : bool) (kwds_popen : options) (timeout : option Z) (p : program) : ran * fate :=
  run_command (kwargs_popen cwd shell kwds_popen) (passed timeout) p.
