(** Model of tasks given by a file and the name of a function: the function a run uses (FuncTask in
    rocketry/tasks/func.py:165-188, 222-247, 263-334, with the runs of rocketry/core/task.py:454-543, 577-591,
    655, 677-705, 741-805) and the name under which the file is imported (func.py:15-23,
    rocketry/pybox/pkg/path.py:4-18). *)
From Coq Require Import List Bool ZArith String Ascii.
Import ListNotations.
Local Open Scope Z_scope.
Local Open Scope list_scope.

(** * The package of a file *)
(** A directory by its parts, the innermost first; a file is its name and its directory.  The parents of a
    file, as Path.parents gives them: its directory and so on, to the root or to the current directory *)
Definition dir := list string.
Fixpoint above (d : dir) : list dir := d :: match d with [] => [] | _ :: d => above d end.

(** What find_package_root gives: None, a directory, or FileExistsError *)
Inductive root : Type := NoPackage | Root (d : dir) | NoRoot.
(** pybox/pkg/path.py:10-18; [first] is i == 0, [pkg d] that d holds the file __init__.py *)
Fixpoint search_root (pkg : dir -> bool) (first : bool) (ds : list dir) : root :=
  match ds with
  | [] => NoRoot
  | d :: ds => if pkg d then search_root pkg false ds else if first then NoPackage else Root d
  end.
(** pybox/pkg/path.py:4-18 find_package_root *)
Definition find_package_root (pkg : dir -> bool) (d : dir) : root := search_root pkg true (above d).

(** Path.with_suffix('') of a file name: without what follows the last dot, unless the dot comes first or last *)
Fixpoint cut_suffix (s : string) : option (string * string) :=
  match s with
  | EmptyString => None
  | String c s =>
      match cut_suffix s with
      | Some (p, e) => Some (String c p, e)
      | None => if Ascii.eqb c "." then Some (EmptyString, s) else None
      end
  end.
Definition stem (f : string) : string :=
  match cut_suffix f with
  | Some (p, e) => if String.eqb p "" || String.eqb e "" then f else p
  | None => f
  end.
(** tasks/func.py:15-23: the name of the module of the file [f] in [d] *)
Definition module_name (r : root) (d : dir) (f : string) : option string :=
  match r with
  | NoPackage => Some f
  | Root p => Some (String.concat "." (skipn (List.length p) (rev d ++ [stem f])))
  | NoRoot => None
  end.

(** * The function of a run *)
(** What is at the path: a file whose import gives the version [v] of the function, or something whose
    import raises (no file, no such function, an error in the file) *)
Definition disk := option Z.
(** Where a run takes place: in the process of the scheduler (main, async, thread), or in a process of its own *)
Inductive place : Type := Inside | Outside.
Inductive phase : Type := Begun | Filtered | Executing.
(** A run under way: its place, how far it is, the version whose signature gave its parameters and, in a
    process of its own, the func of the copy of the task *)
Record flight : Type := Flight { f_place : place; f_phase : phase; f_sign : Z; f_copy : option Z }.
(** What happened, in order *)
Inductive mark : Type :=
| MSaved (d : disk)          (* somebody changed the file *)
| MBegun (r : Z) (p : place) (* the run was started and has got its parameters *)
| MImport (r : Z)            (* for the run the file was imported *)
| MKept (r : Z)              (* the task, in the scheduler's process, keeps the function imported for the run *)
| MRan (r s v : Z)           (* the run called version v with the parameters of version s *)
| MFailed (r : Z)            (* the run failed before it called the function *)
| MFinished (r : Z) (p : place). (* process_finish was called *)
(** A task with func None, as FuncTask.__init__ leaves it with a path: its func now, its cache, the file, the runs *)
Record delayed : Type := Delayed {
  d_func : option Z; d_cache : bool; d_disk : disk; d_runs : list (Z * flight); d_marks : list mark }.
Definition new_delayed (cache : bool) (d : disk) : delayed := Delayed None cache d [] [].

(** tasks/func.py:233-247 get_func: the function, if the import does not raise; the func afterwards; whether it imported *)
Definition get_func (cache : bool) (func : option Z) (d : disk) : option Z * option Z * bool :=
  match func with
  | Some v => (Some v, func, false)
  | None => match d with
            | Some v => (Some v, if cache then Some v else None, true)
            | None => (None, None, true)
            end
  end.

Fixpoint flight_of (r : Z) (rs : list (Z * flight)) : option flight :=
  match rs with
  | [] => None
  | (q, f) :: rs => if q =? r then Some f else flight_of r rs
  end.
Definition land (r : Z) (rs : list (Z * flight)) : list (Z * flight) := filter (fun qf => negb (fst qf =? r)) rs.
Definition fly (r : Z) (f : flight) (rs : list (Z * flight)) : list (Z * flight) := (r, f) :: land r rs.

(** The steps of runs, in any order that keeps the order of each run.  An event that is not the next
    step of its run does nothing. *)
Inductive happens : Type :=
| Save (d : disk)
| Begin (r : Z) (p : place)
| Filter (r : Z)
| Execute (r : Z)
| Finish (r : Z).

Section Delayed.
(** Whether the parameters of the signature of a version raise when they are materialized *)
Variable raises : Z -> bool.

Definition marked (imported kept : bool) (r : Z) (ms : list mark) : list mark :=
  ms ++ (if imported then [MImport r] else []) ++ (if kept then [MKept r] else []).

(** core/task.py:478-486: the parameters of a run; of them only get_task_params (func.py:273-284) asks for the
    function, without keeping it (func.py:278: the path is given).  For a run in a process of its own the task is
    copied, with its func (task.py:707-733, 1277-1332; that it may not be possible to pickle it is left out) *)
Definition begin (r : Z) (p : place) (t : delayed) : delayed :=
  match flight_of r (d_runs t) with
  | Some _ => t
  | None =>
      match get_func false (d_func t) (d_disk t) with
      | (Some v, f, i) =>
          Delayed f (d_cache t) (d_disk t)
            (fly r (Flight p Begun v (match p with Inside => None | Outside => d_func t end)) (d_runs t))
            (marked i false r (d_marks t) ++ [MBegun r p])
      | (None, f, i) => Delayed f (d_cache t) (d_disk t) (d_runs t) (marked i false r (d_marks t) ++ [MFailed r])
      end
  end.
(** Which func the run uses, and where it is put back *)
Definition func_of (f : flight) (t : delayed) : option Z := match f_place f with Inside => d_func t | Outside => f_copy f end.
Definition func_after (f : flight) (g : option Z) (t : delayed) : option Z := match f_place f with Inside => g | Outside => d_func t end.
Definition copy_after (f : flight) (g : option Z) : option Z := match f_place f with Inside => f_copy f | Outside => g end.
Definition kept_by (f : flight) (cache imported : bool) : bool := match f_place f with Inside => cache && imported | Outside => false end.

(** core/task.py:591-593: postfilter_params (func.py:299-307) asks for kw_args (func.py:322-334), which
    keeps the function; then the parameters are materialized.  If either raises, process_finish is not
    called: the try of task.py:595 has not begun *)
Definition filter_run (r : Z) (t : delayed) : delayed :=
  match flight_of r (d_runs t) with
  | Some f =>
      match f_phase f with
      | Begun =>
          match get_func true (func_of f t) (d_disk t) with
          | (v, g, i) =>
              let ok := match v with Some _ => negb (raises (f_sign f)) | None => false end in
              let k := match v with Some _ => kept_by f true i | None => false end in
              Delayed (func_after f g t) (d_cache t) (d_disk t)
                (if ok then fly r (Flight (f_place f) Filtered (f_sign f) (copy_after f g)) (d_runs t) else land r (d_runs t))
                (marked i k r (d_marks t) ++ if ok then [] else [MFailed r])
          end
      | _ => t
      end
  | None => t
  end.
(** tasks/func.py:222-231 execute; if the import raises the run fails, and finishes *)
Definition execute (r : Z) (t : delayed) : delayed :=
  match flight_of r (d_runs t) with
  | Some f =>
      match f_phase f with
      | Filtered =>
          match get_func (d_cache t) (func_of f t) (d_disk t) with
          | (v, g, i) =>
              Delayed (func_after f g t) (d_cache t) (d_disk t)
                (fly r (Flight (f_place f) Executing (f_sign f) (copy_after f g)) (d_runs t))
                (marked i (match v with Some _ => kept_by f (d_cache t) i | None => false end) r (d_marks t)
                 ++ [match v with Some v => MRan r (f_sign f) v | None => MFailed r end])
          end
      | _ => t
      end
  | None => t
  end.
(** core/task.py:655 with tasks/func.py:263-268 process_finish, on the task or on its copy *)
Definition finish (r : Z) (t : delayed) : delayed :=
  match flight_of r (d_runs t) with
  | Some f =>
      match f_phase f with
      | Executing =>
          Delayed (func_after f None t) (d_cache t) (d_disk t) (land r (d_runs t)) (d_marks t ++ [MFinished r (f_place f)])
      | _ => t
      end
  | None => t
  end.

Definition happen (t : delayed) (e : happens) : delayed :=
  match e with
  | Save d => Delayed (d_func t) (d_cache t) d (d_runs t) (d_marks t ++ [MSaved d])
  | Begin r p => begin r p t
  | Filter r => filter_run r t
  | Execute r => execute r t
  | Finish r => finish r t
  end.
Definition happen_all (es : list happens) (t : delayed) : delayed := fold_left happen es t.
End Delayed.
