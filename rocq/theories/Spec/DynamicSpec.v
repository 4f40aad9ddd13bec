(** What "tasks created and removed while the scheduler runs" mean, in terms of
    what is seen to happen (the trace), apart from how the scheduler does it. *)
From Coq Require Import ZArith List Bool Permutation.
From Verif Require Import Model.Base Model.History Model.Dynamic.
Import ListNotations.
Open Scope Z_scope.

(** ** Reading the trace *)
(** the tasks in the session after [tr], if [s] were there before *)
Definition session_step (s : list nat) (e : devent) : list nat :=
  match e with
  | DAdd i => s ++ [i]
  | DRemove i => filter (fun j => negb (Nat.eqb i j)) s
  | _ => s
  end.
Definition session_after (s : list nat) (tr : list devent) : list nat := fold_left session_step tr s.
(** no new phase begins in it *)
Definition one_phase (tr : list devent) : Prop := ~ In DPhase tr.
(** the tasks the cycles came to, in order *)
Definition considered (tr : list devent) : list nat :=
  flat_map (fun e => match e with DConsider i => [i] | _ => [] end) tr.
(** the runs in threads and processes that started and are not over *)
Definition live_step (l : list (nat * nat * dkind)) (e : devent) : list (nat * nat * dkind) :=
  match e with
  | DStart i u KMain => l
  | DStart i u k => l ++ [(i, u, k)]
  | DOver i u => filter (fun x => negb (Nat.eqb (fst (fst x)) i && Nat.eqb (snd (fst x)) u)) l
  | _ => l
  end.
Definition live_after (tr : list devent) : list (nat * nat * dkind) := fold_left live_step tr [].
Definition processes (l : list (nat * nat * dkind)) : nat :=
  length (filter (fun x => match snd x with KProcess => true | _ => false end) l).
Definition prefix {A} (p l : list A) : Prop := exists q, l = p ++ q.

(** ** Where the session begins *)
(** all the tasks there are are in the session, under different names; nothing
    is running and nothing has happened yet *)
Definition outset (w : dworld) : Prop :=
  dw_members w = seq 0 (length (dw_objs w)) /\
  (forall i j, (i < length (dw_objs w))%nat -> (j < length (dw_objs w))%nat ->
     do_name (obj i w) = do_name (obj j w) -> i = j) /\
  (forall o, In o (dw_objs w) -> do_runs o = []) /\
  dw_queue w = [] /\ dw_trace w = [].
(** a task of the cycles *)
Definition cyclic (w : dworld) (i : nat) : bool := negb (do_startup (obj i w) || do_shutdown (obj i w)).

(** ** Ways of removing and adding tasks *)
(** The task may go: it runs on the main thread, or it is disabled, none of its
    runs is going and no record of it is waiting to be noted. *)
Definition may_go (i : nat) (w : dworld) : Prop :=
  do_kind (obj i w) = KMain \/
  (do_disabled (obj i w) = true /\
   (forall r, In r (do_runs (obj i w)) -> dr_alive r = false) /\
   (forall q, In q (dw_queue w) -> q_from q <> i)).
Definition orderly (orc : doracle) : Prop :=
  forall k w, match o_move orc k w with
              | MvRemove i => may_go i w
              | MvDisable i false => In i (dw_members w)
              | _ => True
              end.
(** Names are not used again: a task is created under a name that no task has
    had and the log does not know. *)
Definition new_names (orc : doracle) : Prop :=
  forall k w, match o_move orc k w with
              | MvAdd name _ _ _ _ =>
                  (forall o, In o (dw_objs w) -> do_name o <> name) /\
                  (forall r, In r (dw_log w) -> r_task r <> name)
              | _ => True
              end.
(** What the task remembers of its actions is what the log has: the time of the
    last record of each action, if there is one. *)
Definition remembers (name : Z) (st : tstate) (l : log) : Prop :=
  forall a, match ts_last st a with
            | None => forall r, In r l -> ~ (r_task r = name /\ r_action r = a)
            | Some t => exists p r q, l = p ++ r :: q /\ r_task r = name /\ r_action r = a /\ r_created r = t /\
                          forall r', In r' q -> ~ (r_task r' = name /\ r_action r' = a)
            end.
(** Removing with the care one can take through the API: the task is disabled
    and is_alive() says no. *)
Definition careful (orc : doracle) : Prop :=
  forall k w i, o_move orc k w = MvRemove i -> do_disabled (obj i w) = true /\ forall r, In r (do_runs (obj i w)) -> dr_alive r = false.
(** a start condition such as daily: the task does not remember a success within
    the last day *)
Definition us_per_day : Z := 86400000000.
Definition daily_cond : dobj -> log -> Z -> bool :=
  fun o _ t => match ts_last (do_state o) ASuccess with None => true | Some s => (s + us_per_day <=? t)%Z end.
