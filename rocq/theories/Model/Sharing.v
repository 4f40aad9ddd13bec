(** Model of which parameter sets are one object and which are copies:
    rocketry/core/parameters/parameters.py, rocketry/core/task.py and
    rocketry/tasks/func.py.

    Model.Params has runs put their arguments together from dictionaries as
    values.  Here the sets are objects that are made, changed in place and
    handed on, so that one that is handed on where it should be copied is seen
    to change.  Each Parameters object has a dictionary of its own
    (parameters.py:36-48 fills the one made for the keyword arguments), so an
    object is the place of its dictionary.  The names self, _param and type_
    are as in Model.Params (see Model.Naming); functions called for arguments
    do not change sets. *)
From Verif Require Import Model.Base Model.World Model.Params.
Open Scope Z_scope.

Definition place : Type := nat.
Definition heap : Type := list (dict param).
Definition read (h : heap) (l : place) : dict param := nth l h [].
Fixpoint write (h : heap) (l : place) (d : dict param) : heap :=
  match h, l with
  | [], _ => []
  | _ :: h, O => d :: h
  | e :: h, S l => e :: write h l d
  end.
(** A new object *)
Definition fresh (h : heap) (d : dict param) : place * heap := (length h, h ++ [d]).

(** * The methods of Parameters *)

(** parameters.py:36-48 __init__ with a dictionary or the set of one *)
Definition p_init (h : heap) (d : dict param) : place * heap := fresh h (parameters d).
(** parameters.py:200-201 copy *)
Definition p_copy (h : heap) (l : place) : place * heap := p_init h (read h l).
(** parameters.py:154-160 __or__ *)
Definition p_or (h : heap) (a b : place) : place * heap := fresh h (params_or (read h a) (read h b)).
(** parameters.py:114-116 __setitem__, 118-120 update, 196-198 clear *)
Definition p_set (h : heap) (l : place) (k : Z) (p : param) : heap := write h l (dset k p (read h l)).
Definition p_update (h : heap) (l : place) (d : dict param) : heap := write h l (dupdate (read h l) d).
Definition p_clear (h : heap) (l : place) : heap := write h l [].
(** parameters.py:87-98 pre_materialize: the object itself is changed *)
Definition p_stage (n : nat) (s : sess) (cx : ctx) (h : heap) (l : place) : result unit * heap :=
  match pre_materialize n s cx (read h l) with
  | Ok d => (Ok tt, write h l d)
  | Err e => (Err e, h)
  end.

(** * Tasks and their runs *)

(** A task as in Model.Params, with its own parameters and its requests being
    objects *)
Record stask : Type := STask {
  st_name : Z;
  st_own : place;
  st_sig : dict param;
  st_takes : Z -> bool;
  st_kind : pkind;
  st_batches : list place }.
(** The task as Model.Params has it, and the session, at a moment *)
Definition seen_task (h : heap) (t : stask) : ptask :=
  PTask (st_name t) (read h (st_own t)) (st_sig t) (st_takes t) (st_kind t) (map (read h) (st_batches t)).
Definition seen_session (h : heap) (s : sess) (sp : place) : sess :=
  Sess (read h sp) (ss_tasks s) (ss_returns s) (ss_environ s) (ss_argv s) (ss_pre s) (ss_exec s) (ss_call s) (ss_event s).

(** core/task.py:374-378 parse_parameters: a Parameters object is kept as it is;
    tasks/func.py:214-219: a function task given its function joins the
    signature's with them.  [given] is a Parameters object. *)
Definition own_params (h : heap) (kind : pkind) (sig : dict param) (given : place) : place * heap :=
  match kind with
  | PFunc false => let (f, h) := fresh h sig in p_or h f given
  | _ => (given, h)
  end.
(** the same for a dictionary *)
Definition own_params_of_dict (h : heap) (kind : pkind) (sig given : dict param) : place * heap :=
  let (l, h) := p_init h given in own_params h kind sig l.

(** core/task.py:390-411 run: the object put among the batches *)
Definition request (h : heap) (given : place) (kwargs : dict param) : place * heap :=
  let (r, h) := fresh h [] in
  let h := p_update h r (read h given) in
  (r, p_update h r kwargs).

(** core/task.py:785-801 get_extra_params *)
Definition extra_set (n : nat) (s : sess) (sp : place) (h : heap) (t : stask) (x : exec) (flag : value) (passed : dict param)
  : result place * heap :=
  let (passed, h) := p_init h passed in
  let (extra, h) := fresh h [(k_session, PVal VSession); (k_task, PVal (VTask (st_name t)))] in
  let h := match x with XThread => p_set h extra k_terminate (PVal flag) | _ => h end in
  let (joined, h) := p_or h sp passed in
  let (joined, h) := p_or h joined extra in
  match prefilter n (seen_session h s sp) (seen_task h t) (read h joined) with
  | Ok d => let (r, h) := p_init h d in (Ok r, h)
  | Err e => (Err e, h)
  end.

(** core/task.py:809-811, tasks/func.py:273-284 get_task_params *)
Definition task_set (h : heap) (t : stask) : place * heap :=
  let (own, h) := p_copy h (st_own t) in
  match st_kind t with
  | PFunc true => let (f, h) := fresh h (st_sig t) in p_or h f own
  | _ => (own, h)
  end.
(** core/task.py:803-807 _get_direct_params; with the batches left *)
Definition direct_set (h : heap) (t : stask) : place * heap * list place :=
  let (d, h) := task_set h t in
  match st_batches t with
  | [] => (d, h, [])
  | b :: bs => (d, p_update h d (read h b), bs)
  end.

(** core/task.py:482-498, 656-665, 705-713: the start of a run, up to where its
    two sets are handed to the code that begins the run.  Line 485 makes their
    union for the run's identifier. *)
Definition start_run (n : nat) (s : sess) (sp : place) (h : heap) (t : stask) (x : exec) (flag : value) (passed : dict param)
  : result (place * place) * heap * list place :=
  match extra_set n s sp h t x flag passed with
  | (Err e, h) => (Err e, h, st_batches t)
  | (Ok params, h) =>
      let '(direct, h, bs) := direct_set h t in
      let (_, h) := p_or h params direct in
      let staged cx :=
        match p_stage n (seen_session h s sp) cx h params with
        | (Err e, h) => (Err e, h, bs)
        | (Ok _, h) =>
            match p_stage n (seen_session h s sp) cx h direct with
            | (Err e, h) => (Err e, h, bs)
            | (Ok _, h) => (Ok (params, direct), h, bs)
            end
        end in
      match x with
      | XMain | XAsync => (Ok (params, direct), h, bs)
      | XThread =>
          match get_item n (seen_session h s sp) (read h params) k_terminate with
          | Err KeyError => staged (Ctx (Some (st_name t)) SGiven (Some (ss_event s)))
          | Err e => (Err e, h, bs)
          | Ok flag => staged (Ctx (Some (st_name t)) SGiven (Some flag))
          end
      | XProcess => staged (Ctx (Some (st_name t)) SGiven None)
      end
  end.

(** core/task.py:591-595: the run begins, in a session [s'] (of the moment, or
    the process's own), and gets its keyword arguments *)
Definition begin_run (n : nat) (s' : sess) (h : heap) (t : stask) (params direct : place) : result (dict value) * heap :=
  let (a, h) := p_init h (postfilter (seen_task h t) (read h params)) in
  let (b, h) := p_copy h direct in
  let (c, h) := p_or h a b in
  (materialize n s' (Ctx (Some (st_name t)) SGiven None) (read h c), h).

(** * What may happen to parameter sets *)
Inductive event : Type :=
| ENew (d : dict param)
| ECopy (l : place)
| EUnion (a b : place)
| ESet (l : place) (k : Z) (p : param)
| EUpdate (l m : place)
| EUpdateDict (l : place) (d : dict param)
| EClear (l : place)
| ETask (kind : pkind) (sig : dict param) (given : place)
| ERequest (given : place) (kwargs : dict param)
| EStart (n : nat) (s : sess) (sp : place) (t : stask) (x : exec) (flag : value) (passed : dict param)
| EBegin (n : nat) (s' : sess) (t : stask) (params direct : place).
Definition happen (h : heap) (e : event) : heap :=
  match e with
  | ENew d => snd (p_init h d)
  | ECopy l => snd (p_copy h l)
  | EUnion a b => snd (p_or h a b)
  | ESet l k p => p_set h l k p
  | EUpdate l m => p_update h l (read h m)
  | EUpdateDict l d => p_update h l d
  | EClear l => p_clear h l
  | ETask kind sig given => snd (own_params h kind sig given)
  | ERequest given kwargs => snd (request h given kwargs)
  | EStart n s sp t x flag passed => snd (fst (start_run n s sp h t x flag passed))
  | EBegin n s' t params direct => snd (begin_run n s' h t params direct)
  end.
Definition happens (h : heap) (es : list event) : heap := fold_left happen es h.
