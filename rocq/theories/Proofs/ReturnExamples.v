(** Concrete cases about return values. *)
From Verif Require Import Model.Base Model.History Model.World Model.Run Model.Scheduler Model.Params.
From Verif Require Import Spec.SchedulerSpec Spec.ReturnSpec.
From Verif Require Import Proofs.SchedulerExamples Proofs.OutcomeExamples.
Open Scope Z_scope.

(** Two tasks run in processes; the first one's process ends at question [k]. *)
Definition lost_world : world := ex_world 1 [ex_task (ex_cfg 1 XProcess 0); ex_task (ex_cfg 2 XProcess 0)].
Definition at_tick (k : nat) (m : list move) (j : nat) : list move := if Nat.eqb j k then m else [].
Definition lost_oracle (k : nat) : oracle := ex_oracle (at_tick k [MProcess 0 good_script]).
Definition lost_end (k : nat) : world := fst (run_cycle (lost_oracle k) ex_config 30 lost_world).
(** Records of process runs on their way *)
Definition ex_sent : world :=
  set_queue [QRec (Rec 1 ASuccess 1000 (Some 0)) (Some 5); QRec (Rec 2 AFail 1000 (Some 0)) (Some 9);
             QRec (Rec 1 ASuccess 1001 (Some 1)) (Some 6)] lost_world.
Definition ex_sess (w : world) : sess :=
  Sess [] (map t_name (w_tasks w)) (map (fun r => (fst r, VData (snd r))) (w_returns w)) [] [] false (fun _ => XMain)
    (fun _ _ => Err KeyError) VNone.

Lemma process_lost : exists orc cf fuel w w',
  run_cycle orc cf fuel w = (w', Returns tt) /\ w_log w = [] /\ w_returns w = [] /\
  (exists i, In (Rec 1 ASuccess 1000 (Some i)) (w_log w')) /\
  (forall k m, In m (o_env orc k) -> m = MProcess 0 good_script) /\ s_exec good_script = None /\
  w_queue w' = [] /\ return_of 1 w' = None.
Proof.
  exists (lost_oracle 21), ex_config, 30%nat, lost_world, (lost_end 21).
  split; [vm_compute; reflexivity|]. split; [reflexivity|]. split; [reflexivity|].
  split; [exists 9; vm_compute; auto|]. split; [|split; [reflexivity|split; vm_compute; reflexivity]].
  intros k m. unfold lost_oracle, ex_oracle, at_tick. cbn [o_env]. destruct (Nat.eqb k 21); [|intros []].
  intros [<- | []]. reflexivity.
Qed.
