(** Model of what becomes of a task's log record, in the process that makes it
    and on the way from there: rocketry/log/handlers.py (QueueHandler.prepare),
    rocketry/core/schedule.py:255-287 (handle_logs), rocketry/core/task.py:1104-1128
    (log_record up to the handlers) and what Python's logging does to a record
    when a handler formats it (Formatter.format with the default format).

    Texts are lists of character codes.  What msg % args makes and how an
    exception is shown are parameters.  stack_info is left out (the task logger
    never asks for it), and so are handlers with formatters of their own. *)
From Coq Require Import Bool.
From Verif Require Import Model.Base.
Open Scope Z_scope.

Definition txt : Type := list Z.
Definition newline : Z := 10.

(** record.exc_info: None, an exception (or the triple of None that
    logger.exception puts there without one), or the text handle_logs puts there *)
Inductive einfo : Type := NoInfo | Exception (e : Z) | InfoText (t : txt).

(** The attributes of a record that logging or rocketry changes; [r_rest] is all
    the others (task_name, run_id, created, start, end, runtime, levelno, ...).
    [None] for an attribute that is not set (action, message, __return__) or that
    is None (args, exc_text). *)
Record lrec : Type := LRec {
  r_msg : txt;
  r_args : option Z;
  r_message : option txt;
  r_exc_info : einfo;
  r_exc_text : option txt;
  r_action : option Z;
  r_return : option Z;
  r_rest : Z }.

(** What there is to store of a formatted record *)
Record stored : Type := Stored {
  h_text : txt;
  h_message : option txt;
  h_exc_text : option txt;
  h_action : option Z;
  h_return : option Z;
  h_rest : Z }.

Definition a_run : Z := 0.
Definition a_success : Z := 1.
Definition a_fail : Z := 2.

Fixpoint txt_prefix (a b : txt) : bool :=
  match a, b with
  | [], _ => true
  | x :: a, y :: b => (x =? y) && txt_prefix a b
  | _, _ => false
  end.
(** a in b *)
Fixpoint txt_in (a b : txt) : bool :=
  txt_prefix a b || match b with [] => false | _ :: b => txt_in a b end.

Section Logging.
Context (percent : txt -> Z -> txt) (show : Z -> txt).

(** LogRecord.getMessage *)
Definition get_message (r : lrec) : txt := match r_args r with Some a => percent (r_msg r) a | None => r_msg r end.
(** truth of a text or None *)
Definition truthy (t : option txt) : bool := match t with Some (_ :: _) => true | _ => false end.
(** Formatter.formatException; it is only called with an exception there: for a
    text it would fail (str has no three parts) *)
Definition format_exception (i : einfo) : result txt :=
  match i with Exception e => Ok (show e) | InfoText _ => Err ValueError | NoInfo => Err TypeError end.
Definition info_given (i : einfo) : bool := match i with NoInfo => false | Exception _ => true | InfoText t => truthy (Some t) end.
Definition ends_line (t : txt) : bool := match rev t with c :: _ => c =? newline | [] => false end.

(** Formatter.format: the text, and the record, of which message and exc_text
    are set *)
Definition format (r : lrec) : result (txt * lrec) :=
  let m := get_message r in
  let* x := if info_given (r_exc_info r) && negb (truthy (r_exc_text r))
            then let* t := format_exception (r_exc_info r) in Ok (Some t)
            else Ok (r_exc_text r) in
  let s := match x with
           | Some (c :: t) => if ends_line m then m ++ c :: t else m ++ newline :: c :: t
           | _ => m
           end in
  Ok (s, LRec (r_msg r) (r_args r) (Some m) (r_exc_info r) x (r_action r) (r_return r) (r_rest r)).

(** log/handlers.py:16-46 prepare *)
Definition prepare (r : lrec) : result lrec :=
  let* (s, r) := format r in
  Ok (LRec (r_msg r) None (Some s) NoInfo (r_exc_text r) (r_action r) (r_return r) (r_rest r)).

(** core/schedule.py:265-287: what the scheduler makes of a record before it is
    logged; also the return value handed to the task *)
Definition receive (r : lrec) : result (option Z * lrec) :=
  match r_action r with
  | None => Err AttributeError                                    (* 265 record.action *)
  | Some a =>
      if a =? a_fail then
        let info := match r_exc_text r with Some t => InfoText t | None => NoInfo end in
        let* message :=
          match r_exc_text r with
          | Some t =>
              match r_message r with
              | Some m => Ok (Some (if txt_in t m then m else m ++ newline :: m))
              | None => Err AttributeError
              end
          | None => Ok (r_message r)
          end in
        Ok (None, LRec (r_msg r) (r_args r) message info (r_exc_text r) (r_action r) (r_return r) (r_rest r))
      else if a =? a_success then
        match r_return r with
        | None => Err AttributeError                              (* 284 record.__return__ *)
        | Some v => Ok (Some v, LRec (r_msg r) (r_args r) (r_message r) (r_exc_info r) (r_exc_text r) (r_action r) None (r_rest r))
        end
      else Ok (None, r)
  end.

(** From the process to the handlers of the task's logger: core/task.py:1113 *)
Definition carried (r : lrec) : result (option Z * lrec) :=
  let* r := prepare r in receive r.

(** What a handler of the task's logger has of the record once it has formatted
    it: [handled].  msg, args and exc_info are what this is made from. *)
Definition handled (r : lrec) : result stored :=
  let* (s, r) := format r in
  Ok (Stored s (r_message r) (r_exc_text r) (r_action r) (r_return r) (r_rest r)).
End Logging.
