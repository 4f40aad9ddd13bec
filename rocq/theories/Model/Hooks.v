(** Model of hooks (rocketry/core/hook.py) and of the increment run ids
    (rocketry/tasks/run_id.py). *)
From Verif Require Import Model.Base.

(** * Hooks *)

(** What the part of a generator up to its next yield does: it yields, ends
    (StopIteration) or raises. *)
Inductive part : Type := Yields | Ends | Fails (e : exn).

(** A hook: a function, called before only, or a generator function, whose
    first part runs before and whose second part runs after. *)
Inductive hook_code : Type :=
| Function (raises : option exn)
| Generator (first second : part).

(** [hk_args]: an exception while its arguments are materialised (line 16) *)
Record hook : Type := Hook { hk_args : option exn; hk_code : hook_code }.

(** What is observed: code of the [i]-th hook before and after, and of what the
    hooks are around. *)
Inductive hev (B : Type) : Type :=
| Before (i : nat)
| During (b : B)
| After (i : nat).
Arguments Before {B} i.
Arguments During {B} b.
Arguments After {B} i.

(** A generator kept in _post_hooks; [None]: it has ended already *)
Definition kept : Type := (nat * option part)%type.

Section Hooks.
Context {B : Type}.

(** core/hook.py:12-21 prerun; [i] counts the hooks.  The events, the
    generators kept and the exception if any. *)
Fixpoint prerun (i : nat) (hooks : list hook) : list (hev B) * (list kept * option exn) :=
  match hooks with
  | [] => ([], ([], None))
  | h :: hooks =>
      match hk_args h with
      | Some e => ([], ([], Some e))
      | None =>
          let '(mine, failed) :=
            match hk_code h with
            | Function r => ([], r)
            | Generator Yields second => ([(i, Some second)], None)
            | Generator Ends _ => ([(i, None)], None)
            | Generator (Fails e) _ => ([], Some e)
            end in
          match failed with
          | Some e => ([Before i], ([], Some e))
          | None =>
              let '(evs, (ks, r)) := prerun (S i) hooks in
              (Before i :: evs, (mine ++ ks, r))
          end
      end
  end.

(** core/hook.py:23-28 postrun *)
Fixpoint postrun (ks : list kept) : list (hev B) * option exn :=
  match ks with
  | [] => ([], None)
  | (i, None) :: ks => postrun ks                      (* StopIteration *)
  | (i, Some (Fails e)) :: ks => ([After i], Some e)
  | (i, Some _) :: ks => let '(evs, r) := postrun ks in (After i :: evs, r)
  end.

(** Around code that ends with [r] having done [body].
    [setup]: an exception between the hooks and the try block
    (core/task.py:586-595, of a run); [finish]: an exception of process_finish
    (655); both None elsewhere.  [always]: the hooks are resumed also after an
    exception (core/task.py:654-656, core/schedule.py:430-432) and not only
    after success (core/schedule.py:169-189, 305-328). *)
Definition hooked (always : bool) (setup finish : option exn) (hooks : list hook)
    (body : list B) (r : option exn) : list (hev B) * option exn :=
  let '(evs, (ks, failed)) := prerun O hooks in
  match failed with
  | Some e => (evs, Some e)
  | None =>
      match setup with
      | Some e => (evs, Some e)
      | None =>
          let evs := evs ++ map During body in
          if negb always && (match r with Some _ => true | None => false end) then (evs, r)
          else
            match finish with
            | Some e => (evs, Some e)
            | None =>
                let '(more, r') := postrun ks in
                (evs ++ more, match r' with Some e => Some e | None => r end)
            end
      end
  end.
End Hooks.

(** * Run ids *)

Open Scope Z_scope.

(** tasks/run_id.py:4-10 increment: the first of 1, 2, ... whose decimal string
    is not the id of a run in the stack.  Ids that are no such string are
    numbers below 1 here.  [fuel] bounds the search. *)
Fixpoint count_from (fuel : nat) (ids : list Z) (i : Z) : outcome Z :=
  match fuel with
  | O => OutOfFuel
  | S fuel => if existsb (Z.eqb i) ids then count_from fuel ids (i + 1) else Returns i
  end.
Definition increment (fuel : nat) (ids : list Z) : outcome Z := count_from fuel ids 1.

(** The ids of the runs a task tracks: a start adds one (core/task.py:485, 500,
    670, 733), cleaning keeps some (1000-1010, 541-542) *)
Inductive id_step : list Z -> list Z -> Prop :=
| IdStart : forall fuel ids i, increment fuel ids = Returns i -> id_step ids (ids ++ [i])
| IdClean : forall f ids, id_step ids (filter f ids).
