(** Sessions in which tasks come and go. *)
From Coq Require Import ZArith List Bool Arith Lia.
From Verif Require Import Model.Base Model.History Model.Dynamic Spec.DynamicSpec.
Import ListNotations.
Open Scope nat_scope.

Definition task_of (name : Z) (k : dkind) (prio : Z) : dobj := DObj name k prio false false false fresh_state [].
Definition world_of (os : list dobj) : dworld := DWorld os (seq 0 (length os)) [] [] 0%Z false 0 0 0 [].
Definition always : dobj -> log -> Z -> bool := fun _ _ _ => true.
Definition oracle_of (n : nat) (mv : dworld -> dmove) : doracle := DOracle (fun _ => n) (fun _ w => mv w) (fun _ => EndOk) (fun _ => false) (fun _ => 1).
Definition last_event (w : dworld) : devent := last (dw_trace w) DPhase.
Definition member (i : nat) (w : dworld) : bool := existsb (Nat.eqb i) (dw_members w).
(** once only *)
Definition once : dobj -> log -> Z -> bool := fun o _ _ => match ts_last (do_state o) ARun with None => true | Some _ => false end.

(** ** In order *)
Definition ex_may_go (i : nat) (w : dworld) : bool :=
  do_disabled (obj i w) && forallb (fun r => negb (dr_alive r)) (do_runs (obj i w)) && forallb (fun q => negb (q_from q =? i)) (dw_queue w).
Definition ex_move (w : dworld) : dmove :=
  if member 0 w then
    if do_disabled (obj 0 w) then
      if ex_may_go 0 w then MvRemove 0 else MvEnd 0 0 EndOk
    else if dw_uid w =? 0 then MvWait 1 else MvDisable 0 true
  else if forallb (fun o => negb (do_name o =? 2)%Z) (dw_objs w) && forallb (fun r => negb (r_task r =? 2)%Z) (dw_log w) then MvAdd 2 KThread 0 false false
  else MvEnd 1 1 EndOk.
Definition ex_orc : doracle := oracle_of 1 ex_move.
Definition ex_cf : dconfig := DConfig 1 false false false 6 once.
Definition ex_w : dworld := world_of [task_of 1 KProcess 0].
Definition ex_end : dworld := fst (dserve ex_orc ex_cf 20 ex_w).
Lemma ex_outset : outset ex_w.
Proof.
  split; [reflexivity|]. split; [intros [|i] [|j]; cbn; lia|]. split; [intros o [<- |[]]; reflexivity|]. split; reflexivity.
Qed.
Lemma ex_returns : dserve ex_orc ex_cf 20 ex_w = (ex_end, Returns tt).
Proof. vm_compute. reflexivity. Qed.
Lemma ex_orderly : orderly ex_orc.
Proof.
  intros k w. cbn. unfold ex_move. destruct (member 0 w); [|destruct (_ && _); exact I].
  destruct (do_disabled (obj 0 w)) eqn:D; [|destruct (dw_uid w =? 0); exact I].
  destruct (ex_may_go 0 w) eqn:M; [|exact I]. unfold ex_may_go in M. apply andb_prop in M. destruct M as [M Q]. apply andb_prop in M. destruct M as [_ R].
  rewrite forallb_forall in Q, R. right. split; [exact D|]. split.
  - intros r Hr. apply negb_true_iff. apply R. exact Hr.
  - intros q Hq. specialize (Q q Hq). apply negb_true_iff in Q. apply Nat.eqb_neq in Q. exact Q.
Qed.
Lemma ex_new_names : new_names ex_orc.
Proof.
  intros k w. cbn. unfold ex_move. destruct (member 0 w).
  { destruct (do_disabled (obj 0 w)); [destruct (ex_may_go 0 w); exact I|destruct (dw_uid w =? 0); exact I]. }
  destruct (_ && _) eqn:E; [|exact I]. apply andb_prop in E. destruct E as [E1 E2]. rewrite forallb_forall in E1, E2. split.
  - intros o Ho. specialize (E1 o Ho). apply negb_true_iff in E1. apply Z.eqb_neq in E1. exact E1.
  - intros r Hr. specialize (E2 r Hr). apply negb_true_iff in E2. apply Z.eqb_neq in E2. exact E2.
Qed.

(** ** Out of order *)
Definition ex_started (w : dworld) : bool := match last_event w with DStart _ _ _ => true | _ => false end.
Lemma outset_of os : (forall i j, i < length os -> j < length os -> do_name (nth i os no_obj) = do_name (nth j os no_obj) -> i = j) ->
  (forall o, In o os -> do_runs o = []) -> outset (world_of os).
Proof. intros N R. split; [reflexivity|]. split; [exact N|]. split; [exact R|]. split; reflexivity. Qed.
Lemma outset_two k1 k2 p1 p2 : outset (world_of [task_of 1 k1 p1; task_of 2 k2 p2]).
Proof. apply outset_of; [intros [|[|i]] [|[|j]]; cbn; lia|intros o [<- |[<- |[]]]; reflexivity]. Qed.
Lemma outset_one k p : outset (world_of [task_of 1 k p]).
Proof. apply outset_of; [intros [|i] [|j]; cbn; lia|intros o [<- |[]]; reflexivity]. Qed.

(** The first task removes the second one, which starts nevertheless. *)
Lemma removed_starts :
  exists orc cf n w w' p i q u k s, outset w /\ dserve orc cf n w = (w', Returns tt) /\
    dw_trace w' = p ++ DRemove i :: q ++ DStart i u k :: s /\ ~ In (DAdd i) q.
Proof.
  set (orc := oracle_of 1 (fun w => match last_event w with DStart 0 _ _ => MvRemove 1 | _ => MvWait 1 end)).
  set (cf := DConfig 1 false false false 1 always). set (w := world_of [task_of 1 KMain 1; task_of 2 KMain 0]).
  exists orc, cf, 5, w, (fst (dserve orc cf 5 w)). eexists [_; _; _; _; _], 1, [_; _], 1, KMain, _.
  split; [apply outset_two|]. split; [vm_compute; reflexivity|]. split; [vm_compute; reflexivity|]. intros [H|[H|[]]]; discriminate.
Qed.

Definition ex_drop (rest : dworld -> dmove) (w : dworld) : dmove :=
  if member 0 w then
    if negb (do_disabled (obj 0 w)) then MvDisable 0 true
    else if dalive (obj 0 w) then MvEnd 0 0 EndOk
    else MvRemove 0
  else rest w.
Lemma drop_careful (c : dworld -> bool) rest n : (forall w i, rest w <> MvRemove i) ->
  careful (oracle_of n (fun w => if c w then MvWait 1 else ex_drop rest w)).
Proof.
  intros R k w i. cbn. destruct (c w); [discriminate|]. unfold ex_drop. destruct (member 0 w); [|intros H; destruct (R w i H)].
  destruct (do_disabled (obj 0 w)) eqn:D; [|discriminate]. cbn. destruct (dalive (obj 0 w)) eqn:A; [discriminate|]. intros [= <-]. split; [exact D|].
  intros r Hr. destruct (dr_alive r) eqn:E; [|reflexivity]. assert (X : dalive (obj 0 w) = true) by (apply existsb_exists; exists r; split; assumption). congruence.
Qed.
(** Its outcome is still on the way: the scheduler crashes on it and it is lost. *)
Lemma outcome_crashes :
  exists orc cf n w w', outset w /\ careful orc /\ dserve orc cf n w = (w', Raises KeyError) /\
    (exists i u, In (DStart i u KProcess) (dw_trace w') /\ In (DOver i u) (dw_trace w')) /\
    (forall k w i u e, o_move orc k w = MvEnd i u e -> e = EndOk) /\ (forall k, o_stop orc k = false) /\
    forall r, In r (dw_log w') -> r_action r = ARun.
Proof.
  set (orc := oracle_of 3 (fun w => if (dw_uid w =? 0) || ex_started w then MvWait 1 else ex_drop (fun _ => MvWait 1) w)).
  set (cf := DConfig 1 false false false 5 always). set (w := world_of [task_of 1 KProcess 0]).
  exists orc, cf, 20, w, (fst (dserve orc cf 20 w)).
  split; [apply outset_one|]. split; [apply drop_careful; discriminate|]. split; [vm_compute; reflexivity|].
  split; [exists 0, 0; split; vm_compute; tauto|]. split; [|split; [reflexivity|]].
  - intros k w0 i u e. cbn. destruct (_ || _); [discriminate|]. unfold ex_drop. destruct (member 0 w0); [|discriminate].
    destruct (negb _); [discriminate|]. destruct (dalive _); [intros [= _ _ <-]; reflexivity|discriminate].
  - assert (E : dw_log (fst (dserve orc cf 20 w)) = [Rec 1 ARun 9 None]) by (vm_compute; reflexivity). rewrite E. intros r [<- |[]]. reflexivity.
Qed.
(** ... or another task that happens to start is said to have failed. *)
Lemma other_blamed :
  exists orc cf n w w', outset w /\ careful orc /\ dserve orc cf n w = (w', Returns tt) /\
    (forall k w i u e, o_move orc k w = MvEnd i u e -> e = EndOk) /\ (forall k, o_stop orc k = false) /\
    exists i u t, filter (fun e => match e with DStart j _ _ => Nat.eqb j i | _ => false end) (dw_trace w') = [DStart i u KProcess] /\
      In (Rec (do_name (obj i w')) AFail t None) (dw_log w').
Proof.
  set (orc := oracle_of 3 (fun w => if dw_uid w <? 2 then MvWait 1 else ex_drop (fun w => MvEnd 1 1 EndOk) w)).
  set (cf := DConfig 2 false true false 2 once). set (w := world_of [task_of 1 KProcess 1; task_of 2 KProcess 0]).
  exists orc, cf, 20, w, (fst (dserve orc cf 20 w)).
  split; [apply outset_two|]. split; [apply drop_careful; discriminate|]. split; [vm_compute; reflexivity|].
  split; [|split; [reflexivity|]].
  - intros k w0 i u e. unfold orc, oracle_of. cbn [o_move]. destruct (dw_uid w0 <? 2); [discriminate|]. unfold ex_drop. destruct (member 0 w0); [|intros [= _ _ <-]; reflexivity].
    destruct (negb _); [discriminate|]. destruct (dalive _); [intros [= _ _ <-]; reflexivity|discriminate].
  - exists 1, 1. eexists. split; [vm_compute; reflexivity|]. vm_compute. do 2 right. left. reflexivity.
Qed.
(** ... or a new task of the name is credited with it. *)
Lemma namesake_credited :
  exists orc cf n w w' i q, outset w /\ careful orc /\ dserve orc cf n w = (w', Returns tt) /\
    In (DNote i q) (dw_trace w') /\ q_from q <> i /\ q_action q = ASuccess /\
    ts_status (do_state (obj i w')) = Some ASuccess /\ forall u k, ~ In (DStart i u k) (dw_trace w').
Proof.
  set (orc := oracle_of 4 (fun w => if (dw_uid w =? 0) || ex_started w then MvWait 1 else ex_drop (fun _ => MvAdd 1 KProcess 5 false false) w)).
  set (cf := DConfig 1 false false false 3 (fun o _ _ => (do_prio o =? 0)%Z)). set (w := world_of [task_of 1 KProcess 0]).
  set (w' := fst (dserve orc cf 20 w)).
  assert (E : filter (fun e => match e with DJudge _ _ _ => false | _ => true end) (dw_trace w') =
    [DPhase; DPhase; DConsider 0; DStart 0 0 KProcess; DNote 0 (QRec 1 0 ARun 12); DOver 0 0; DRemove 0; DAdd 1;
     DPhase; DNote 1 (QRec 1 0 ASuccess 16); DConsider 1; DPhase; DConsider 1; DPhase]) by (vm_compute; reflexivity).
  assert (R : dserve orc cf 20 w = (w', Returns tt)) by (vm_compute; reflexivity).
  assert (S1 : ts_status (do_state (obj 1 w')) = Some ASuccess) by (vm_compute; reflexivity).
  exists orc, cf, 20, w, w', 1, (QRec 1 0 ASuccess 16).
  split; [apply outset_one|]. split; [apply drop_careful; discriminate|]. split; [exact R|]. clearbody w'.
  assert (I : forall e, In e (dw_trace w') -> match e with DJudge _ _ _ => True | _ => In e (filter (fun e => match e with DJudge _ _ _ => false | _ => true end) (dw_trace w')) end).
  { intros e He. destruct e; try exact I; apply filter_In; split; try exact He; reflexivity. }
  rewrite E in I. split; [|split; [discriminate|split; [reflexivity|split; [exact S1|]]]].
  - assert (X : In (DNote 1 (QRec 1 0 ASuccess 16)) (filter (fun e => match e with DJudge _ _ _ => false | _ => true end) (dw_trace w'))) by (rewrite E; cbn; tauto).
    apply filter_In in X. apply X.
  - intros u k X. apply I in X. cbn in X. repeat (destruct X as [X|X]; [discriminate|]). exact X.
Qed.
(** Removed while it runs, it does not count and is not waited for. *)
Lemma not_counted :
  exists orc cf n w w', outset w /\ dserve orc cf n w = (w', Returns tt) /\
    (exists p, prefix p (dw_trace w') /\ dc_max cf < processes (live_after p)) /\
    live_after (dw_trace w') <> [].
Proof.
  set (orc := oracle_of 1 (fun w => if (dw_uid w =? 0) || ex_started w then MvWait 1 else if member 0 w then MvRemove 0 else MvEnd 1 1 EndOk)).
  set (cf := DConfig 1 false false false 3 once). set (w := world_of [task_of 1 KProcess 1; task_of 2 KProcess 0]).
  exists orc, cf, 20, w, (fst (dserve orc cf 20 w)).
  split; [apply outset_two|]. split; [vm_compute; reflexivity|]. split; [|vm_compute; discriminate].
  exists (firstn 10 (dw_trace (fst (dserve orc cf 20 w)))). split; [exists (skipn 10 (dw_trace (fst (dserve orc cf 20 w)))); symmetry; apply firstn_skipn|].
  vm_compute. lia.
Qed.
(** A daily task made anew under its name has forgotten that it ran today. *)
Lemma forgotten :
  exists orc cf n w w', outset w /\ dc_cond cf = daily_cond /\ dserve orc cf n w = (w', Returns tt) /\
    exists p r1 q r2 s, dw_log w' = p ++ r1 :: q ++ r2 :: s /\ r_task r1 = r_task r2 /\ r_action r1 = ASuccess /\ r_action r2 = ASuccess /\
      (r_created r1 <= r_created r2 < r_created r1 + us_per_day)%Z.
Proof.
  set (orc := oracle_of 2 (fun w => if (dw_uid w =? 0) || ex_started w then MvWait 1 else if member 0 w then MvRemove 0 else MvAdd 1 KMain 0 false false)).
  set (cf := DConfig 1 false false false 3 daily_cond). set (w := world_of [task_of 1 KMain 0]).
  exists orc, cf, 20, w, (fst (dserve orc cf 20 w)).
  split; [apply outset_one|]. split; [reflexivity|]. split; [vm_compute; reflexivity|].
  eexists [_], _, [_], _, _. split; [vm_compute; reflexivity|]. cbn. split; [reflexivity|]. split; [reflexivity|]. split; [reflexivity|]. unfold us_per_day. lia.
Qed.
