(** Model of rocketry/tasks/command.py:61-82, the building of the command. *)
From Coq Require Import String Ascii.
From Verif Require Import Model.Base.
Local Open Scope string_scope.

(** command: Union[str, List[str]] *)
Inductive command : Type := CStr (c : string) | CList (c : list string).
(** command.py:61-69 argform.  The validator does not run for the default, which
    therefore stays None. *)
Inductive argform : Type := FShort | FLong | FNone.
Definition dashes (f : argform) : result string :=
  match f with FShort => Ok "-" | FLong => Ok "--" | FNone => Err TypeError end.

(** command.py:76-77 (None + str raises TypeError) *)
Definition option_name (f : argform) (p : string) : result string :=
  if String.prefix "-" p then Ok p
  else match dashes f with Ok d => Ok (d ++ p) | Err e => Err e end.
(** The double quote *)
Definition quote : string := String (ascii_of_nat 34) "".

(** command.py:73-82.  The first component is what self.command is afterwards:
    += on a list is in place, on a string it is not.  Values are shown by str(). *)
Fixpoint add_options (f : argform) (c : command) (ps : list (string * string)) : command * result command :=
  match ps with
  | [] => (c, Ok c)
  | (p, v) :: ps =>
      match option_name f p with
      | Err e => (c, Err e)
      | Ok p => match c with
                | CStr s => let (_, r) := add_options f (CStr (s ++ " " ++ p ++ " " ++ quote ++ v ++ quote)) ps in (c, r)
                | CList l => add_options f (CList (l ++ [p; v])%list) ps
                end
      end
  end.
(** One run: what the task's command is afterwards, and what is given to Popen
    or the exception *)
Definition execute (f : argform) (c : command) (ps : list (string * string)) : command * result command := add_options f c ps.
(** The commands of successive runs of a task in the session's process (a child
    process changes its own copy of the task only) *)
Fixpoint runs (f : argform) (c : command) (rs : list (list (string * string))) : list (result command) :=
  match rs with
  | [] => []
  | ps :: rs => let (c', r) := execute f c ps in r :: runs f c' rs
  end.
