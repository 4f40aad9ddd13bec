(** What a user expects of the task log. *)
From Coq Require Import List Bool ZArith String.
From Verif Require Import Model.Base Model.Interval Model.Period Model.Condition Model.History Model.Logging.
Import ListNotations.
Local Open Scope Z_scope.
Local Open Scope list_scope.

(** No logger has this repository yet *)
Definition unused (r : Z) (reg : registry) : Prop :=
  (forall h, In h (g_handlers (reg_root reg)) -> h_repo h <> Some r) /\
  (forall n g h, look n (reg_named reg) = Some g -> In h (g_handlers g) -> h_repo h <> Some r).

(** The records of the task among what happened, in order *)
Fixpoint said (task : Z) (evs : list happening) : log :=
  match evs with
  | [] => []
  | HLog _ x :: evs | HRelay _ x :: evs => (if r_task x =? task then [x] else []) ++ said task evs
  | _ :: evs => said task evs
  end.

(** What must not happen to the application with the loggers' base name [base], the repository [r] and
    the task: another application, or set_repo, with the same base name; another handler with the
    repository; a higher level; deletion of the logger; records of the task elsewhere. *)
Definition harmless (base : string) (r task : Z) (ev : happening) : Prop :=
  match ev with
  | HApp b q | HSetRepo b q => b <> base /\ q <> r
  | HCheck _ q => q <> r
  | HAdd _ h => h_repo h <> Some r
  | HLevel n lvl => n = base -> 0 < lvl <= info
  | HWrap _ _ _ => True
  | HDelete b => String.prefix b base = false
  | HLog n x | HRelay n x => r_task x = task -> n = base
  end.

(** Only the logger of the application itself has a name that starts with its base name *)
Definition lonely (base n : string) : Prop := String.prefix base n = true -> n = base.
Definition names_of (ev : happening) : list string :=
  match ev with
  | HApp n _ | HCheck n _ | HSetRepo n _ | HAdd n _ | HLevel n _ | HWrap n _ _ | HLog n _ | HRelay n _ => [n]
  | HDelete _ => []
  end.
(** All records, whatever the task *)
Fixpoint said_all (evs : list happening) : log :=
  match evs with
  | [] => []
  | HLog _ x :: evs | HRelay _ x :: evs => x :: said_all evs
  | _ :: evs => said_all evs
  end.
(** The loggers there are have different names, and only that of the application has one that starts
    with its base name *)
Definition sole (base : string) (reg : registry) : Prop :=
  NoDup (map fst (reg_named reg)) /\ forall n, In n (map fst (reg_named reg)) -> lonely base n.
(** ... and every record is logged at the logger of the application *)
Definition harmless_all (base : string) (r : Z) (ev : happening) : Prop :=
  (forall task, harmless base r task ev) /\ forall n, In n (names_of ev) -> lonely base n.

(** Whose clock stamps the records logged at a logger *)
Definition stamped_by (n : string) (reg : registry) : option Z := g_clock (get_logger n reg).

(** The logger itself lets INFO through *)
Definition open_level (base : string) (reg : registry) : Prop := 0 < g_level (get_logger base reg) <= info.
(** Nothing above the logger [base] lets INFO through: as Python starts, with WARNING at the root *)
Definition strict_above (base : string) (reg : registry) : Prop :=
  g_level (get_logger base reg) = 0 /\ info < effective (lineage reg base).
(** It has no repository yet *)
Definition without_repo (base : string) (reg : registry) : Prop :=
  forall h, In h (g_handlers (get_logger base reg)) -> h_repo h = None.
