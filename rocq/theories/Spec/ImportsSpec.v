(** What a user expects of the import of the file of a task. *)
From Coq Require Import List Bool ZArith String.
From Verif Require Import Model.Imports.
Import ListNotations.
Local Open Scope list_scope.

(** sys.path is the list it was when rocketry was imported *)
Definition unassigned (py : python) : Prop := py_first py = None.
(** No directory on sys.path has this module *)
Definition not_on_path (n : string) (py : python) : Prop := forall d, In (Text d) (py_path py) -> py_files py d n = None.
(** It has not been imported *)
Definition not_imported (n : string) (py : python) : Prop := forall m, ~ In (n, m) (py_mods py).
(** What the names in the file of the task mean, if its import succeeds *)
Definition meaning (root : string) (sps ns : list string) (py : python) : option (list (string * module)) := fst (load root sps ns py).
Definition path_after (root : string) (sps ns : list string) (py : python) : list entry := py_path (snd (load root sps ns py)).
