(** Concrete shutdowns for the examples beside the theorems, and where the code
    deviates. *)
From Coq Require Import Bool Arith Lia ZifyBool.
From Verif Require Import Model.Base Model.History Model.World Model.Run Model.Scheduler.
From Verif Require Import Spec.SchedulerSpec Proofs.StackProofs Proofs.TerminationProofs Proofs.SchedulerExamples Proofs.TerminationExamples.
Open Scope Z_scope.

(** One busy asynchronous run of task 1 *)
Definition ex_busy : world := ex_after 500 [ex_task (ex_cfg 1 XAsync 0)].
(** ... which ends by itself from the [k]-th question on *)
Definition ex_leaves (k0 k : nat) : list move := if Nat.leb k0 k then [MLeave 0 good_script] else [].
(** A hook fails from the [k0]-th question on *)
Definition ex_hook (k0 : nat) : oracle :=
  Oracle ex_quiet (fun _ _ _ => Ok true) (fun _ => Ok false) (fun _ => Ok false) (fun _ => true)
    (fun _ => None) (fun _ => None) (fun _ => true) (fun k => Ok (Z.of_nat k)) (fun _ => good_script)
    (fun k => if Nat.leb k0 k then Some ValueError else None).
Definition ex_happened (w w' : world) : list event := rev (firstn (length (w_trace w') - length (w_trace w)) (w_trace w')).
(** Conditions hold; runs that are cancelled end with that *)
Definition ex_yields (f : nat -> list move) : oracle :=
  Oracle f (fun _ _ _ => Ok true) (fun _ => Ok false) (fun _ => Ok false) (fun _ => true)
    (fun _ => None) (fun _ => None) (fun _ => true) (fun k => Ok (Z.of_nat k)) (fun _ => cancelled_script) (fun _ => None).
Definition ex_forced (k : nat) : list move := if Nat.leb 3 k then [MShutdown (Some true)] else [].
Definition ex_one : world := ex_world 1 [ex_task (ex_cfg 1 XAsync 0)].

Fixpoint ex_pos (p : event -> bool) (l : list event) : nat :=
  match l with [] => O | e :: l => if p e then O else S (ex_pos p l) end.

(** The hook of the shutdown fails: nothing is waited for. *)
Lemma hook_leaves_live : exists orc cf fuel w e,
  no_runs w /\ snd (serve orc cf fuel w) = Raises e /\ exists u, live_in (fst (serve orc cf fuel w)) u.
Proof.
  exists (ex_hook 20), ex_config, 20%nat, ex_one, ValueError. split; [vm_compute; reflexivity|]. split; [vm_compute; reflexivity|].
  exists 0%nat. eexists. vm_compute. split; [now left|split; reflexivity].
Qed.
(** One session was shut down by force.  The next one, which nobody forces,
    terminates its runs instead of waiting. *)
Lemma force_persists : exists orc orc' cf fuel w w1 n u evs,
  cf_instant cf = false /\ w_force w = false /\ serve orc cf fuel w = (w1, Returns tt) /\ no_runs w1 /\
  (forall f, never orc' (MShutdown f)) /\
  snd (serve orc' cf fuel w1) = Returns tt /\ happened w1 (fst (serve orc' cf fuel w1)) evs /\
  earlier evs EvShutdown (EvTerminate n u).
Proof.
  set (w1 := fst (serve (ex_oracle ex_forced) ex_config 30 ex_one)).
  set (w2 := fst (serve (ex_yields ex_quiet) ex_config 30 w1)).
  exists (ex_oracle ex_forced), (ex_yields ex_quiet), ex_config, 30%nat, ex_one, w1, 1, 0%nat, (ex_happened w1 w2).
  split; [reflexivity|]. split; [reflexivity|]. split; [vm_compute; reflexivity|]. split; [vm_compute; reflexivity|].
  split; [intros f k []|]. split; [vm_compute; reflexivity|]. split; [vm_compute; reflexivity|].
  set (evs := ex_happened w1 w2).
  set (i := ex_pos (fun e => match e with EvShutdown => true | _ => false end) evs).
  set (j := ex_pos (fun e => match e with EvTerminate _ _ => true | _ => false end) (skipn (S i) evs)).
  exists (firstn i evs), (firstn j (skipn (S i) evs)), (skipn (S j) (skipn (S i) evs)). vm_compute. reflexivity.
Qed.
(** While the scheduler waits for a run, a forced shutdown changes nothing. *)
Lemma repeated_ignored : exists orc cf fuel w w' n u evs,
  w_force w = false /\ live_in w u /\
  (forall k, In (MShutdown (Some true)) (o_env orc k)) /\
  (forall k s, In (MLeave u s) (o_env orc k) -> (w_tick w + 10 <= k)%nat) /\
  shut_down orc cf fuel None w = (w', Returns tt) /\ w_force w' = true /\ happened w w' evs /\
  ~ In (EvTerminate n u) evs.
Proof.
  set (orc := ex_oracle (fun k => MShutdown (Some true) :: ex_leaves 35 k)).
  set (w' := fst (shut_down orc ex_config 30 None ex_busy)).
  exists orc, ex_config, 30%nat, ex_busy, w', 1, 0%nat, (ex_happened ex_busy w').
  split; [vm_compute; reflexivity|]. split; [eexists; vm_compute; split; [now left|split; reflexivity]|].
  split; [intros k; now left|]. split.
  { intros k s. change (w_tick ex_busy) with 25%nat. cbn [o_env orc ex_oracle]. unfold ex_leaves. destruct (Nat.leb_spec 35 k); [intros _; lia|].
    intros [H1|[]]. discriminate H1. }
  split; [vm_compute; reflexivity|]. split; [vm_compute; reflexivity|]. split; [vm_compute; reflexivity|]. vm_compute. intuition discriminate.
Qed.

Definition ex_unhurried (cf : config) (A B n : Z) (w : world) : bool :=
  (A <=? w_clock w) && (w_clock w <=? B) && negb (w_force w) &&
  forallb (fun t => negb (t_name t =? n) ||
    (negb (t_term t) && negb (tc_permanent (t_cfg t)) && negb (tc_shutdown (t_cfg t)) &&
     negb (match tc_timeout (t_cfg t) with Some 0 => true | _ => false end) &&
     (B - A <=? timeout_of cf t) && forallb (fun r => A <=? rn_start r) (t_stack t))) (w_tasks w).
Lemma ex_unhurried_ok orc cf A B n w : ex_unhurried cf A B n w = true ->
  (forall k m, In m (o_env orc k) ->
     match m with MClock t => A <= t <= B | MTerminate m => m <> n | MShutdown _ => False | _ => True end) ->
  (forall k, o_end orc k = Ok false) -> unhurried orc cf A B n w.
Proof.
  unfold ex_unhurried. intros H HM HE. apply andb_prop in H as [H H4]. apply andb_prop in H as [H H3]. apply andb_prop in H as [H1 H2].
  split; [exact HM|]. split; [exact HE|]. split; [lia|]. split; [now destruct (w_force w)|].
  intros t Ht En. rewrite forallb_forall in H4. specialize (H4 t Ht). apply orb_prop in H4 as [K|K]; [lia|].
  repeat (apply andb_prop in K as [K ?]). repeat (split; [first [now apply negb_true_iff | idtac]|]).
  - intros E. rewrite E in *. discriminate.
  - lia.
  - intros r Hr. match goal with F : forallb _ (t_stack t) = true |- _ => rewrite forallb_forall in F; specialize (F r Hr) end. lia.
Qed.
