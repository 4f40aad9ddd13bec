(** Concrete sessions and groups. *)
From Coq Require Import Bool Arith Lia ZifyBool String.
From Verif Require Import Model.Base Model.Condition Model.World Model.Registry.
From Verif Require Import Spec.RegistrySpec Proofs.RegistryProofs Proofs.GrouperProofs.
Open Scope nat_scope.
Open Scope string_scope.

(** The names of a session, and what became of the operations *)
Definition names (st : store) (s : nat) : list string := map (name_of st) (st_tasks st s).

(** Session 1 is an application, session 2 that of a group. *)
Definition ex_ops : list op :=
  [ONew 1 "a" (CAtom 0) None; ONew 1 "b" (CAtom 1) (Some XThread); ONew 1 "a" CTrue None; OPolicy 1 PRename;
   ONew 1 "a" CTrue None; ONew 1 "a" CTrue None; OName 1 "a"; ORemoveNamed 1 "a - 1"; OPolicy 1 PIgnore;
   ONew 1 "a" CTrue None; OPolicy 1 PRaise; ONew 2 "a" (CAtom 2) None].
Definition ex_store : store := history ex_ops empty_store.
Definition ex_group : grouper := Grouper 2 "g." (Some (CAtom 9)) (Some XMain).

Lemma ex_keeps1 : all_keep_to 1 ex_ops empty_store.
Proof. vm_compute. repeat split; auto; intros; discriminate. Qed.
Lemma ex_keeps2 : all_keep_to 2 ex_ops empty_store.
Proof. vm_compute. repeat split; auto; intros; discriminate. Qed.

(** Renaming under the policy to ignore *)
Lemma ignore_renames : exists os i j, let st := history os empty_store in
  (forall o, In o os -> match o with ONew s _ _ _ => s = 1 | OPolicy s _ => s = 1 | OName _ _ => True | _ => False end) /\
  task_of st 1 i /\ task_of st 1 j /\ i <> j /\ name_of st i = name_of st j.
Proof.
  exists [ONew 1 "a" CTrue None; ONew 1 "b" CTrue None; OPolicy 1 PIgnore; OName 1 "a"], 0, 1. cbn zeta.
  split; [intros o [<- | [<- | [<- | [<- | []]]]]; exact I || reflexivity|].
  vm_compute. repeat split; auto. discriminate.
Qed.
(** A task of two sessions *)
Lemma shared_renames : exists os i j, let st := history os empty_store in
  (forall o, In o os -> match o with ONew _ _ _ _ | OAdd _ _ | OName _ _ => True | _ => False end) /\
  task_of st 1 i /\ task_of st 1 j /\ i <> j /\ name_of st i = name_of st j.
Proof.
  exists [ONew 1 "a" CTrue None; ONew 1 "b" CTrue None; OAdd 2 1; OName 1 "a"], 0, 1. cbn zeta.
  split; [intros o [<- | [<- | [<- | [<- | []]]]]; exact I|].
  vm_compute. repeat split; auto. discriminate.
Qed.
(** Adding under the policy to rename *)
Lemma rename_adds_nothing : exists st i, let '(st', r) := add_task 1 i st in
  sane st /\ orderly st 1 /\ st_policy st 1 = PRename /\ i < st_next st /\ r = Ok tt /\
  ~ task_of st' 1 i /\ st_tasks st' 1 = st_tasks st 1 /\ name_of st' i = name_of st i.
Proof.
  exists (history [ONew 1 "a" CTrue None; ONew 2 "a" CTrue None; OPolicy 1 PRename] empty_store), 1.
  match goal with |- context [add_task 1 1 ?x] => set (st := x) end.
  assert (O : orderly st 1) by (apply orderly_history; [apply empty_sane|apply empty_orderly|vm_compute; auto]).
  assert (S : sane st) by (apply sane_history, empty_sane).
  assert (E : let '(st', r) := add_task 1 1 st in
     st_policy st 1 = PRename /\ 1 < st_next st /\ r = Ok tt /\
     ~ task_of st' 1 1 /\ st_tasks st' 1 = st_tasks st 1 /\ name_of st' 1 = name_of st 1).
  { vm_compute. repeat split; auto. intros [H | []]; discriminate. }
  destruct (add_task 1 1 st) as [st' r]. split; [exact S|]. split; [exact O|exact E].
Qed.

(** A group that fails part of the way *)
Definition half_ops : list op := [ONew 1 "g.b" CTrue None; ONew 2 "a" CTrue None; ONew 2 "b" CTrue None; ONew 2 "c" CTrue None].
Definition half_store : store := history half_ops empty_store.
Definition plain_group : grouper := Grouper 2 "g." None None.
Lemma half_included : exists st g, let '(st', r) := include_grouper 1 g st in
  sane st /\ orderly st 1 /\ orderly st (g_session g) /\ st_policy st 1 = PRaise /\ st_policy st (g_session g) = PRaise /\
  r = Err KeyError /\
  exists i j k, task_of st (g_session g) i /\ task_of st' 1 i /\
    task_of st (g_session g) j /\ ~ task_of st' 1 j /\ name_of st' j <> name_of st j /\
    task_of st (g_session g) k /\ ~ task_of st' 1 k /\ name_of st' k = name_of st k.
Proof.
  exists half_store, plain_group.
  assert (O1 : orderly half_store 1) by (apply orderly_history; [apply empty_sane|apply empty_orderly|vm_compute; auto]).
  assert (O2 : orderly half_store 2) by (apply orderly_history; [apply empty_sane|apply empty_orderly|vm_compute; auto]).
  assert (S : sane half_store) by (apply sane_history, empty_sane).
  assert (E : let '(st', r) := include_grouper 1 plain_group half_store in
    r = Err KeyError /\ task_of half_store 2 1 /\ task_of st' 1 1 /\
    task_of half_store 2 2 /\ ~ task_of st' 1 2 /\ name_of st' 2 <> name_of half_store 2 /\
    task_of half_store 2 3 /\ ~ task_of st' 1 3 /\ name_of st' 3 = name_of half_store 3).
  { vm_compute. repeat split; auto; try discriminate; intros [H | [H | []]]; discriminate. }
  destruct (include_grouper 1 plain_group half_store) as [st' r]. destruct E as (E1 & E2 & E3 & E).
  split; [exact S|]. split; [exact O1|]. split; [exact O2|]. split; [reflexivity|]. split; [reflexivity|].
  split; [exact E1|]. exists 1, 2, 3. split; [exact E2|]. split; [exact E3|]. exact E.
Qed.

(** A group in which one name is the prefixed other *)
Lemma order_matters : exists os1 os2 g,
  let st1 := history os1 empty_store in let st2 := history os2 empty_store in
  (forall n, used st1 (g_session g) n <-> used st2 (g_session g) n) /\ st_tasks st1 1 = [] /\ st_tasks st2 1 = [] /\
  snd (include_grouper 1 g st1) = Ok tt /\ snd (include_grouper 1 g st2) = Err ValueError.
Proof.
  exists [ONew 2 "g.a" CTrue None; ONew 2 "a" CTrue None], [ONew 2 "a" CTrue None; ONew 2 "g.a" CTrue None], plain_group.
  cbn zeta. split; [|vm_compute; auto].
  intros n. split; intros (i & T & N).
  - vm_compute in T. destruct T as [<- | [<- | []]]; [exists 1|exists 0]; vm_compute in N |- *; auto.
  - vm_compute in T. destruct T as [<- | [<- | []]]; [exists 1|exists 0]; vm_compute in N |- *; auto.
Qed.

(** A name that is taken, under the policy to rename *)
Lemma group_task_lost : exists st g i, let '(st', r) := include_grouper 1 g st in
  st_policy st 1 = PRename /\ r = Ok tt /\ task_of st (g_session g) i /\ ~ task_of st' 1 i.
Proof.
  exists (history [ONew 1 "g.a" CTrue None; ONew 2 "a" CTrue None; OPolicy 1 PRename] empty_store), plain_group, 1.
  vm_compute. repeat split; auto. intros [H | []]; discriminate.
Qed.
(** The function of a task in a group with a prefix *)
Lemma function_lost : exists st g i, let '(st', r) := include_grouper 1 g st in
  r = Ok tt /\ lookup_function st (g_session g) i = Ok i /\ task_of st' 1 i /\ lookup_function st' 1 i = Err KeyError.
Proof.
  exists (history [ONew 2 "a" CTrue None] empty_store), plain_group, 0. vm_compute. repeat split; auto.
Qed.
