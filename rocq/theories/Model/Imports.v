(** Model of the import of the file of a task (rocketry/tasks/func.py:25-49, 233-242): the search path of Python
    during it and after it, and the modules that the file imports.  Of Python's import system the cache
    sys.modules, and the search in the entries of sys.path that are strings (PathFinder skips others), are
    modelled; a module that is imported imports no others and does not change sys.path, and importing it does not raise. *)
From Coq Require Import List Bool ZArith String.
Import ListNotations.
Local Open Scope Z_scope.
Local Open Scope list_scope.

(** An entry of sys.path: a string, or a pathlib.Path, which is never equal to a string *)
Inductive entry : Type := Text (d : string) | Object (d : string).
Definition entry_eqb (a b : entry) : bool :=
  match a, b with
  | Text a, Text b | Object a, Object b => String.eqb a b
  | _, _ => false
  end.

(** A module: the directory and the version of the file it was made of *)
Definition module : Type := (string * Z)%type.
(** The interpreter: sys.path; the list that was sys.path when rocketry was imported, unless it still is
    (TempSysPath.sys_path, func.py:36); sys.modules; the files on disk by directory and module name *)
Record python : Type := Python {
  py_path : list entry; py_first : option (list entry); py_mods : list (string * module); py_files : string -> string -> option Z }.

Fixpoint find_mod (n : string) (ms : list (string * module)) : option module :=
  match ms with
  | [] => None
  | (k, m) :: ms => if String.eqb k n then Some m else find_mod n ms
  end.
(** The first directory on the path that has the module *)
Fixpoint search (files : string -> string -> option Z) (n : string) (es : list entry) : option module :=
  match es with
  | [] => None
  | Text d :: es => match files d n with Some v => Some (d, v) | None => search files n es end
  | Object _ :: es => search files n es
  end.
(** The statement import n *)
Definition import_name (n : string) (py : python) : option module * python :=
  match find_mod n (py_mods py) with
  | Some m => (Some m, py)
  | None =>
      match search (py_files py) n (py_path py) with
      | Some m => (Some m, Python (py_path py) (py_first py) ((n, m) :: py_mods py) (py_files py))
      | None => (None, py)
      end
  end.
(** tasks/func.py:28-31: the file is executed: its imports, in order.  None is ImportError *)
Fixpoint exec_imports (ns : list string) (py : python) : option (list (string * module)) * python :=
  match ns with
  | [] => (Some [], py)
  | n :: ns =>
      match import_name n py with
      | (Some m, py) =>
          match exec_imports ns py with
          | (Some bs, py) => (Some ((n, m) :: bs), py)
          | (None, py) => (None, py)
          end
      | (None, py) => (None, py)
      end
  end.

(** tasks/func.py:40-42 __enter__ *)
Definition enter (ps : list entry) (py : python) : python := Python (py_path py ++ ps) (py_first py) (py_mods py) (py_files py).
(** list.remove, with the ValueError of func.py:48-49 suppressed *)
Fixpoint remove_first (e : entry) (es : list entry) : list entry :=
  match es with
  | [] => []
  | x :: es => if entry_eqb x e then es else x :: remove_first e es
  end.
Definition remove_each (ps : list entry) (es : list entry) : list entry := fold_left (fun es p => remove_first p es) ps es.
(** tasks/func.py:44-49 __exit__ *)
Definition leave (ps : list entry) (py : python) : python :=
  match py_first py with
  | None => Python (remove_each ps (py_path py)) None (py_mods py) (py_files py)
  | Some l => Python (py_path py) (Some (remove_each ps l)) (py_mods py) (py_files py)
  end.
(** tasks/func.py:235-241: a file with root [root] and imports [ns], of a task with the sys_paths [sps], which are
    pathlib.Path (func.py:137, List[Path]) *)
Definition added (root : string) (sps : list string) : list entry := Text root :: map Object sps.
Definition load (root : string) (sps ns : list string) (py : python) : option (list (string * module)) * python :=
  match exec_imports ns (enter (added root sps) py) with
  | (bs, py) => (bs, leave (added root sps) py)
  end.

(** What happens to the interpreter: a file of a task is imported; a file is changed; the program assigns
    a new list to sys.path, or changes the list *)
Inductive doing : Type :=
| Load (root : string) (sps ns : list string)
| Write (d n : string) (v : option Z)
| Assign (es : list entry)
| Modify (es : list entry).
Definition do (py : python) (e : doing) : python :=
  match e with
  | Load root sps ns => snd (load root sps ns py)
  | Write d n v => Python (py_path py) (py_first py) (py_mods py)
      (fun d' n' => if String.eqb d d' && String.eqb n n' then v else py_files py d' n')
  | Assign es => Python es (Some (match py_first py with Some l => l | None => py_path py end)) (py_mods py) (py_files py)
  | Modify es => Python es (py_first py) (py_mods py) (py_files py)
  end.
Definition do_all (es : list doing) (py : python) : python := fold_left do es py.
