(** The tasks of sessions: C36, C48. *)
From Coq Require Import Bool Arith Lia ZifyBool String.
From Verif Require Import Model.Base Model.Condition Model.World Model.Registry.
From Verif Require Import Spec.RegistrySpec Proofs.RegistryProofs Proofs.GrouperProofs Proofs.RegistryExamples.
Open Scope nat_scope.
Open Scope string_scope.

(** * C36 *)

(** After any operations that leave the tasks of session [s] to it and rename
    none of them under the policy to ignore, names are unique in [s] and looking
    a task's name up gives the task. *)
Theorem c36_unique_partial : forall s os, all_keep_to s os empty_store ->
  unique_names (history os empty_store) s /\
  forall i, task_of (history os empty_store) s i ->
    lookup (history os empty_store) s (name_of (history os empty_store) i) = Ok i.
Proof. exact names_unique. Qed.
Print Assumptions c36_unique_partial.

Example c36_unique_met :
  all_keep_to 1 ex_ops empty_store /\ names ex_store 1 = ["a"; "a - 3"; "a - 2"] /\ st_tasks ex_store 1 = [0; 1; 3].
Proof. split; [exact ex_keeps1|]. vm_compute. split; reflexivity. Qed.

(** The same from any store, for one operation. *)
Theorem c36_each_operation : forall o st s, sane st -> orderly st s -> keeps_to s o st ->
  sane (fst (apply_op o st)) /\ orderly (fst (apply_op o st)) s.
Proof. exact (fun o st s S O K => conj (sane_op o st S) (orderly_op o st s S O K)). Qed.
Print Assumptions c36_each_operation.

Example c36_each_operation_met : sane ex_store /\ orderly ex_store 1 /\ keeps_to 1 (OInclude 1 ex_group) ex_store.
Proof.
  split; [apply sane_history, empty_sane|].
  split; [apply orderly_history; [apply empty_sane|apply empty_orderly|exact ex_keeps1]|].
  intros i I J. vm_compute in I, J. destruct I as [<- | []]. destruct J as [J | [J | [J | []]]]; discriminate.
Qed.

(** Creating a task with a name in use raises and changes nothing, or changes the
    tasks of the session not at all (ignore), or adds it under the name with the
    least free number (rename); one with a free name is added under it. *)
Theorem c36_creation : forall st s n c x, orderly st s -> sane st ->
  let '(st', r) := new_task s n c x st in
  let i := st_next st in
  match st_policy st s with
  | PIgnore => r = Ok tt /\ (used st s n -> st_tasks st' s = st_tasks st s) /\
               (~ used st s n -> st_tasks st' s = (st_tasks st s ++ [i])%list /\ name_of st' i = n)
  | PRename => r = Ok tt /\ st_tasks st' s = (st_tasks st s ++ [i])%list /\
      exists n', name_of st' i = n' /\ ~ used st s n' /\
        ((n' = n) \/ (used st s n /\ exists k, 1 <= k /\ n' = numbered n k /\
                       forall m, 1 <= m < k -> used st s (numbered n m)))
  | _ => (used st s n -> r = Err ValueError /\ st' = st) /\
         (~ used st s n -> r = Ok tt /\ st_tasks st' s = (st_tasks st s ++ [i])%list /\ name_of st' i = n)
  end.
Proof. exact new_spec. Qed.
Print Assumptions c36_creation.

Example c36_creation_met :
  orderly ex_store 1 /\ sane ex_store /\
  names (fst (new_task 1 "a" CTrue None (set_policy 1 PRename ex_store))) 1 = ["a"; "a - 3"; "a - 2"; "a - 1"].
Proof.
  split; [apply orderly_history; [apply empty_sane|apply empty_orderly|exact ex_keeps1]|].
  split; [apply sane_history, empty_sane|]. vm_compute. reflexivity.
Qed.

(** Under the policy to ignore a task can be given the name of another. *)
Theorem c36_rename_ignore_refuted : exists os i j, let st := history os empty_store in
  (forall o, In o os -> match o with ONew s _ _ _ => s = 1 | OPolicy s _ => s = 1 | OName _ _ => True | _ => False end) /\
  task_of st 1 i /\ task_of st 1 j /\ i <> j /\ name_of st i = name_of st j.
Proof. exact ignore_renames. Qed.
Print Assumptions c36_rename_ignore_refuted.

(** A task added to a second session stays in the first, where its name is no
    longer checked. *)
Theorem c36_two_sessions_refuted : exists os i j, let st := history os empty_store in
  (forall o, In o os -> match o with ONew _ _ _ _ | OAdd _ _ | OName _ _ => True | _ => False end) /\
  task_of st 1 i /\ task_of st 1 j /\ i <> j /\ name_of st i = name_of st j.
Proof. exact shared_renames. Qed.
Print Assumptions c36_two_sessions_refuted.

(** Under the policy to rename, adding a task whose name is taken neither renames
    nor adds it, and does not say so. *)
Theorem c36_add_rename_refuted : exists st i, let '(st', r) := add_task 1 i st in
  sane st /\ orderly st 1 /\ st_policy st 1 = PRename /\ i < st_next st /\ r = Ok tt /\
  ~ task_of st' 1 i /\ st_tasks st' 1 = st_tasks st 1 /\ name_of st' i = name_of st i.
Proof. exact rename_adds_nothing. Qed.
Print Assumptions c36_add_rename_refuted.

(** * C48 *)

(** A group included without an exception: its tasks are added to the session,
    each with the prefixed name, its own execution or else the group's, and a
    start condition that holds when its own and the group's hold; names stay
    unique and other tasks as they were. *)
Theorem c48_included : forall s g st st', s <> g_session g -> sane st -> orderly st s -> orderly st (g_session g) ->
  (forall i, task_of st (g_session g) i -> ~ task_of st s i) ->
  st_policy st s = PRaise -> st_policy st (g_session g) = PRaise ->
  include_grouper s g st = (st', Ok tt) ->
  st_tasks st' s = (st_tasks st s ++ st_tasks st (g_session g))%list /\ unique_names st' s /\
  (forall i, task_of st (g_session g) i ->
     name_of st' i = prefixed g (name_of st i) /\ o_session (st_obj st' i) = s /\
     o_exec (st_obj st' i) = (match o_exec (st_obj st i) with None => g_exec g | x => x end) /\
     forall env, observe env (o_start (st_obj st' i)) = both env (o_start (st_obj st i)) (g_start g)) /\
  forall i, ~ task_of st (g_session g) i -> st_obj st' i = st_obj st i.
Proof. exact group_included. Qed.
Print Assumptions c48_included.

(** There is no exception when the prefixed names are free in the session and,
    with a prefix, not names in the group. *)
Theorem c48_succeeds : forall s g st, s <> g_session g -> orderly st (g_session g) ->
  (forall i, task_of st (g_session g) i -> ~ task_of st s i) ->
  st_policy st s = PRaise -> st_policy st (g_session g) = PRaise ->
  (forall i, task_of st (g_session g) i -> ~ used st s (prefixed g (name_of st i))) ->
  (g_prefix g <> "" -> forall i, task_of st (g_session g) i -> ~ used st (g_session g) (prefixed g (name_of st i))) ->
  snd (include_grouper s g st) = Ok tt.
Proof. exact group_succeeds. Qed.
Print Assumptions c48_succeeds.

Example c48_met :
  let '(st', r) := include_grouper 1 ex_group ex_store in
  sane ex_store /\ orderly ex_store 1 /\ orderly ex_store 2 /\
  (forall i, task_of ex_store 2 i -> ~ task_of ex_store 1 i) /\
  r = Ok tt /\ names st' 1 = ["a"; "a - 3"; "a - 2"; "g.a"] /\ o_exec (st_obj st' 5) = Some XMain /\
  o_start (st_obj st' 5) = CAll [CAtom 2; CAtom 9].
Proof.
  assert (E : let '(st', r) := include_grouper 1 ex_group ex_store in
    r = Ok tt /\ names st' 1 = ["a"; "a - 3"; "a - 2"; "g.a"] /\ o_exec (st_obj st' 5) = Some XMain /\
    o_start (st_obj st' 5) = CAll [CAtom 2; CAtom 9]) by (vm_compute; auto).
  destruct (include_grouper 1 ex_group ex_store) as [st' r].
  split; [apply sane_history, empty_sane|].
  split; [apply orderly_history; [apply empty_sane|apply empty_orderly|exact ex_keeps1]|].
  split; [apply orderly_history; [apply empty_sane|apply empty_orderly|exact ex_keeps2]|].
  split; [|exact E]. intros i I J. vm_compute in I, J. destruct I as [<- | []]. destruct J as [J | [J | [J | []]]]; discriminate.
Qed.

(** An inclusion that raises leaves some tasks included, one renamed and not
    included, and the rest as they were. *)
Theorem c48_part_included_refuted : exists st g, let '(st', r) := include_grouper 1 g st in
  sane st /\ orderly st 1 /\ orderly st (g_session g) /\ st_policy st 1 = PRaise /\ st_policy st (g_session g) = PRaise /\
  r = Err KeyError /\
  exists i j k, task_of st (g_session g) i /\ task_of st' 1 i /\
    task_of st (g_session g) j /\ ~ task_of st' 1 j /\ name_of st' j <> name_of st j /\
    task_of st (g_session g) k /\ ~ task_of st' 1 k /\ name_of st' k = name_of st k.
Proof. exact half_included. Qed.
Print Assumptions c48_part_included_refuted.

(** Whether a group can be included depends on the order in which its set of
    tasks is iterated, although no two of the prefixed names are the same. *)
Theorem c48_order_refuted : exists os1 os2 g,
  let st1 := history os1 empty_store in let st2 := history os2 empty_store in
  (forall n, used st1 (g_session g) n <-> used st2 (g_session g) n) /\ st_tasks st1 1 = [] /\ st_tasks st2 1 = [] /\
  snd (include_grouper 1 g st1) = Ok tt /\ snd (include_grouper 1 g st2) = Err ValueError.
Proof. exact order_matters. Qed.
Print Assumptions c48_order_refuted.

(** Under the policy to rename, a task whose prefixed name is taken is silently
    left out. *)
Theorem c48_left_out_refuted : exists st g i, let '(st', r) := include_grouper 1 g st in
  st_policy st 1 = PRename /\ r = Ok tt /\ task_of st (g_session g) i /\ ~ task_of st' 1 i.
Proof. exact group_task_lost. Qed.
Print Assumptions c48_left_out_refuted.

(** A task of a group with a prefix is no longer found by its function. *)
Theorem c48_by_function_refuted : exists st g i, let '(st', r) := include_grouper 1 g st in
  r = Ok tt /\ lookup_function st (g_session g) i = Ok i /\ task_of st' 1 i /\ lookup_function st' 1 i = Err KeyError.
Proof. exact function_lost. Qed.
Print Assumptions c48_by_function_refuted.
