(** Runs whose records show other times. *)
From Coq Require Import ZArith List Bool Sorted QArith Lia.
From Verif Require Import Model.Base Model.Duration Model.RunTimes Spec.RunTimesSpec Proofs.RunTimesProofs.
Import ListNotations.
Open Scope Z_scope.

Ltac sorted := repeat (constructor; [|repeat (constructor; [unfold sec; lia|]); constructor]); constructor.

(** Two runs of a task at the same time: the first lasts 60 seconds, the second
    begins 50 seconds after it *)
Definition two_runs : list step :=
  [Make 1 0; Begin 1 Here 0 0 true; Make 2 (sec 50); Begin 2 Here (sec 50) (sec 50) true;
   Finish 1 true Here ASuccess (sec 60) (sec 60) true].
Theorem overlapping : exists l u r o, clock_goes_on l /\ Forall outcome_step l /\ In r (x_log (do_steps false nothing l)) /\
  In o (x_log (do_steps false nothing l)) /\ starts r u 0 0 /\ tr_action o = ASuccess /\ tr_run o = Some u /\
  lasted o (sec 50) (sec 60).
Proof.
  exists two_runs, 1%nat, (TRec ARun (Some 1%nat) (Some 0) None None 0),
    (TRec ASuccess (Some 1%nat) (Some (sec 50)) (Some (sec 60)) (Some (sec 10)) (sec 60)).
  split; [unfold clock_goes_on; cbn; sorted|]. split; [repeat constructor; discriminate|].
  split; [now left|]. split; [right; right; now left|]. repeat split.
Qed.

(** The clock goes on between the start of a run and its record *)
Theorem two_starts : exists l u r o s s', clock_goes_on l /\ Forall outcome_step l /\
  x_log (do_steps false nothing l) = [r; o] /\ tr_run r = Some u /\ tr_run o = Some u /\
  tr_action r = ARun /\ tr_start r = Some s /\ tr_start o = Some s' /\ s < s'.
Proof.
  exists [Make 1 0; Begin 1 Here 3 5 true; Finish 1 true Here ASuccess 8 9 true], 1%nat. eexists _, _, _, _.
  split; [unfold clock_goes_on; cbn; sorted|]. split; [repeat constructor; discriminate|].
  split; [vm_compute; reflexivity|]. repeat split.
Qed.

(** With force_status_from_logs the outcome of a run in a process *)
Theorem no_runtime : exists l u o, clock_goes_on l /\ Forall outcome_step l /\ In o (x_log (do_steps true nothing l)) /\
  In (Begin u Child 0 0 true) l /\ tr_run o = Some u /\ tr_action o = ASuccess /\ tr_start o = None /\ tr_runtime o = None.
Proof.
  exists [Make 1 0; Begin 1 Child 0 0 true; Receive true; Finish 1 true Child ASuccess (sec 60) (sec 60) true; Receive true], 1%nat.
  eexists. split; [unfold clock_goes_on; cbn; sorted|]. split; [repeat constructor; discriminate|].
  split; [right; left; reflexivity|]. split; [right; now left|]. repeat split.
Qed.
