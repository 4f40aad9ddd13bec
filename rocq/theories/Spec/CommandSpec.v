(** What the command line of a command task is to be. *)
From Coq Require Import String Ascii.
From Verif Require Import Model.Base Model.Command.
Local Open Scope string_scope.

(** Parameters as options, in order *)
Definition dash (f : argform) : string := match f with FShort => "-" | _ => "--" end.
Definition named (f : argform) (p : string) : string := if String.prefix "-" p then p else dash f ++ p.
Definition words (f : argform) (ps : list (string * string)) : list string :=
  flat_map (fun pv => [named f (fst pv); snd pv]) ps.
Definition line (f : argform) (ps : list (string * string)) : string :=
  fold_right (fun pv rest => " " ++ named f (fst pv) ++ " " ++ quote ++ snd pv ++ quote ++ rest) "" ps.
Definition expected (f : argform) (c : command) (ps : list (string * string)) : command :=
  match c with
  | CStr s => CStr (s ++ line f ps)
  | CList l => CList (l ++ words f ps)%list
  end.
(** The form of the options is known: given, or no option needs it. *)
Definition formed (f : argform) (ps : list (string * string)) : Prop :=
  f <> FNone \/ forall p v, In (p, v) ps -> String.prefix "-" p = true.
Definition is_string (c : command) : Prop := exists s, c = CStr s.
