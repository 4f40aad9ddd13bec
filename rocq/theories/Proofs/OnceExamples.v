(** Served sessions for the examples beside the theorems of C75, and where the
    code deviates. *)
From Coq Require Import Bool Arith Lia ZifyBool.
From Verif Require Import Model.Base Model.Interval Model.Calendar Model.Anchored Model.Period Model.Condition Model.History.
From Verif Require Import Spec.PeriodSpec Spec.HistorySpec Spec.SchedulerSpec Model.World Model.Run Model.Scheduler.
From Verif Require Import Spec.OnceSpec Proofs.WindowProofs Proofs.SchedulerExamples.
Open Scope Z_scope.

(** A task's condition is looked at with its cached status, the log and the time *)
Definition ex_observe (gate : Z -> HistorySpec.world -> Z -> bool) (n : Z) (w : world) : result bool :=
  match find_task n w with Some t => Ok (gate n (t_state t, w_log w) (w_clock w)) | None => Err KeyError end.
Definition ex_conditioned (gate : Z -> HistorySpec.world -> Z -> bool) (f : nat -> list move) (s : script) : oracle :=
  Oracle f (fun _ n w => ex_observe gate n w) (fun _ => Ok false) (fun _ => Ok false) (fun _ => true)
    (fun _ => None) (fun _ => None) (fun _ => true) (fun k => Ok (Z.of_nat k)) (fun _ => s) (fun _ => None).
Definition ex_patient : config := Config XProcess false 2 (10 * us_day) false false false false.
Definition ex_day : tperiod := PAnch (Anchored TDay 0 us_day).
(** The clock goes on by [step] at each question *)
Definition ex_time (step : Z) (k : nat) : Z := 1000 * us_day + us_hour + step * Z.of_nat k.
Definition ex_new (n : nat) (ts : list task) : world :=
  World (1000 * us_day + us_hour) [] ts [] [] [] true false false false (ShutCycles n) 0 0 0 [].
Definition ex_runs (me : Z) (w : world) : list Z :=
  map r_created (filter (fun r => (r_task r =? me) && action_eqb (r_action r) ARun) (w_log w)).

Lemma ex_time_mono step j k : 0 <= step -> (j <= k)%nat -> ex_time step j <= ex_time step k.
Proof. intros H L. unfold ex_time. assert (step * Z.of_nat j <= step * Z.of_nat k) by nia. lia. Qed.
Lemma ex_requires gate f s me : requires (ex_conditioned gate f s) me (gate me).
Proof. intros k w t F H. cbn in H. unfold ex_observe in H. rewrite F in H. now injection H as ->. Qed.
Lemma ex_known me n ts : (forall t, In t ts -> t_state t = fresh_state) -> known_history me (ex_new n ts).
Proof.
  intros H. constructor; cbn.
  - intros [|] ? ? ? ? E; discriminate E.
  - intros r [].
  - intros t r _ _ [].
  - intros t c Ht _ E. rewrite (H t Ht) in E. discriminate E.
  - intros q [].
Qed.
(** Coroutines enter and leave, processes end *)
Definition ex_finish (s : script) (us : list nat) : list move :=
  flat_map (fun u => [MEnter u s; MLeave u s; MProcess u s]) us.
Lemma ex_finish_clock s us t : ~ In (MClock t) (ex_finish s us).
Proof. unfold ex_finish. rewrite in_flat_map. intros (u & _ & H). cbn in H. intuition discriminate. Qed.
Lemma ex_finish_request s us n p : ~ In (MRequest n p) (ex_finish s us).
Proof. unfold ex_finish. rewrite in_flat_map. intros (u & _ & H). cbn in H. intuition discriminate. Qed.
Definition ex_goes (step : Z) (us : nat -> list nat) (k : nat) : list move := MClock (ex_time step k) :: ex_finish good_script (us k).
Lemma ex_goes_on gate step us s : 0 <= step -> time_goes_on (ex_conditioned gate (ex_goes step us) s) (ex_time step).
Proof.
  intros P. split; [intros j k; now apply ex_time_mono|]. intros k t [H|H]; [now injection H|]. destruct (ex_finish_clock _ _ _ H).
Qed.
Lemma ex_by_condition gate step us s me n ts : (exists t, find (fun t => t_name t =? me) ts = Some t) ->
  (forall t, In t ts -> t_batches t = [] /\ tc_always_false (t_cfg t) = false) ->
  by_condition (ex_conditioned gate (ex_goes step us) s) me (ex_new n ts).
Proof.
  intros F H. constructor.
  - exact F.
  - intros k p [E|E]; [discriminate E|]. destruct (ex_finish_request _ _ _ _ E).
  - intros t Ht _. exact (proj1 (H t Ht)).
  - intros t Ht _. exact (proj2 (H t Ht)).
Qed.
Lemma ex_day_window k : window ex_day (us_day * k) (us_day * k + us_day).
Proof.
  pose proof (window_fixed TDay us_day None None false false false (Anchored TDay 0 us_day) fc_day eq_refl k) as H.
  unfold occ_start, occ_end, every_L in H. cbn [a_start a_end] in H.
  replace (k * us_day + 0) with (us_day * k) in H by lia.
  destruct (Z_lt_dec 0 us_day) as [Q|Q]; [|exfalso; apply Q; reflexivity].
  replace (k * us_day + us_day) with (us_day * k + us_day) in H by lia. exact H.
Qed.

(** A daily asynchronous task, with a process task beside it, over four days *)
Definition ex_gate_daily (n : Z) (w : HistorySpec.world) (d : Z) : bool := if n =? 1 then gate_runnable 1 false 5 ex_day w d else true.
(** Every twenty hours, from the log *)
Definition ex_gate_every (n : Z) (w : HistorySpec.world) (d : Z) : bool := if n =? 1 then gate_every 1 true w_started 5 (20 * us_hour) w d else true.
(** After the success of task 2, which is daily *)
Definition ex_gate_after (n : Z) (w : HistorySpec.world) (d : Z) : bool :=
  if n =? 1 then gate_depend 1 2 dep_success w d else gate_runnable 2 false 5 ex_day w d.
Definition ex_twenty : Z := 1200000000.  (* minutes *)
Definition ex_served (gate : Z -> HistorySpec.world -> Z -> bool) : oracle := ex_conditioned gate (ex_goes ex_twenty (seq 0)) good_script.
Definition ex_pair : world := ex_new 8 [ex_task (ex_cfg 1 XAsync 0); ex_task (ex_cfg 2 XProcess 0)].
(** In hours of the first day *)
Definition ex_hours (l : list Z) : list Z := map (fun t => (t - 1000 * us_day) / us_hour) l.
Lemma ex_pair_served gate : time_goes_on (ex_served gate) (ex_time ex_twenty) /\ w_clock ex_pair <= ex_time ex_twenty (w_tick ex_pair) /\
  by_condition (ex_served gate) 1 ex_pair /\ undisturbed (ex_served gate) ex_patient 1 ex_pair /\ known_history 1 ex_pair /\
  requires (ex_served gate) 1 (gate 1).
Proof.
  split; [apply ex_goes_on; discriminate|]. split; [vm_compute; discriminate|]. split; [|split; [|split; [|apply ex_requires]]].
  - apply ex_by_condition; [eexists; reflexivity|]. intros t [<- |[<- |[]]]; now split.
  - intros t _ _ _ k. split; [reflexivity|]. unfold tidy. cbn. split; [reflexivity|]. split; [discriminate|]. split; [reflexivity|]. now split.
  - apply ex_known. intros t [<- |[<- |[]]]; reflexivity.
Qed.

(** A daily process ends after the scheduler took the records that were there
    and before it sees whether the task is alive: its success is not in the log
    yet, and it is run again. *)
Definition ex_ends (k : nat) : list nat := if Nat.eqb k 28 then [0%nat] else if Nat.leb 45 k then [1%nat] else [].
Definition ex_gate_success (n : Z) : HistorySpec.world -> Z -> bool := gate_executable n false None 5 ex_day.
Lemma success_overlooked : exists orc cf me time fuel n p s e w x r,
  time_goes_on orc time /\ w_clock w <= time (w_tick w) /\ by_condition orc me w /\ undisturbed orc cf me w /\ known_history me w /\
  requires orc me (gate_executable me false None n p) /\ window p s e /\
  snd (serve orc cf fuel w) = Returns tt /\
  (exists l1 l2 l3, w_log (fst (serve orc cf fuel w)) = l1 ++ x :: l2 ++ r :: l3) /\
  about me [ASuccess] x /\ run_record me r /\ s <= r_created x <= r_created r /\ r_created r < e.
Proof.
  set (orc := ex_conditioned ex_gate_success (ex_goes 60000000 ex_ends) good_script).
  set (w := ex_new 3 [ex_task (ex_cfg 1 XProcess 0)]).
  exists orc, ex_patient, 1, (ex_time 60000000), 60%nat, 5%nat, ex_day, (us_day * 1000), (us_day * 1000 + us_day), w,
    (Rec 1 ASuccess 86405280000000 (Some 14)), (Rec 1 ARun 86405520000000 (Some 34)).
  split; [apply ex_goes_on; discriminate|]. split; [vm_compute; discriminate|].
  split; [apply ex_by_condition; [eexists; reflexivity|]; intros t [<- |[]]; now split|].
  split; [intros t [<- |[]] _ E; unfold executes in E; cbn in E; discriminate E|].
  split; [apply ex_known; intros t [<- |[]]; reflexivity|]. split; [apply (ex_requires ex_gate_success)|]. split; [apply ex_day_window|].
  split; [vm_compute; reflexivity|].
  split; [exists [Rec 1 ARun 86404320000000 (Some 14)], [], [Rec 1 ASuccess 86406360000000 (Some 34)]; vm_compute; reflexivity|].
  split; [split; [reflexivity|now left]|]. split; [split; reflexivity|]. vm_compute. split; [split; discriminate|reflexivity].
Qed.

(** A hook that fails after the code of a task of the scheduler's thread: the run
    is recorded twice. *)
Definition hook_fails : script := Script None None 7 None None None None (Some ValueError).
Lemma recorded_twice : exists orc cf me time fuel n p s e w x r,
  time_goes_on orc time /\ w_clock w <= time (w_tick w) /\ by_condition orc me w /\ known_history me w /\
  requires orc me (gate_runnable me false n p) /\ window p s e /\
  (exists l1 l2 l3, w_log (fst (serve orc cf fuel w)) = l1 ++ x :: l2 ++ r :: l3) /\
  run_record me x /\ run_record me r /\ s <= r_created x <= r_created r /\ r_created r < e.
Proof.
  set (orc := ex_conditioned ex_gate_daily (ex_goes us_hour (seq 0)) hook_fails).
  set (w := ex_new 8 [ex_task (ex_cfg 1 XMain 0)]).
  pose (l := w_log (fst (serve orc ex_patient 60 w))).
  exists orc, ex_patient, 1, (ex_time us_hour), 60%nat, 5%nat, ex_day, (us_day * 1000), (us_day * 1000 + us_day), w,
    (nth 0 l (Rec 0 AFail 0 None)), (nth 2 l (Rec 0 AFail 0 None)).
  split; [apply ex_goes_on; discriminate|]. split; [vm_compute; discriminate|].
  split; [apply ex_by_condition; [eexists; reflexivity|]; intros t [<- |[]]; now split|].
  split; [apply ex_known; intros t [<- |[]]; reflexivity|]. split; [apply (ex_requires ex_gate_daily)|]. split; [apply ex_day_window|].
  split; [exists [], [nth 1 l (Rec 0 AFail 0 None)], (skipn 3 l); vm_compute; reflexivity|].
  split; [split; vm_compute; reflexivity|]. split; [split; vm_compute; reflexivity|]. vm_compute. split; [split; discriminate|reflexivity].
Qed.
