(** What the times on a task's records should be. *)
From Coq Require Import ZArith List Bool Sorted.
From Verif Require Import Model.Base Model.RunTimes.
Import ListNotations.
Open Scope Z_scope.

(** Nothing was logged yet *)
Definition nothing : times := Times None (fun _ => None) (fun _ => 0) [] [].

(** The readings of the clock, in the order they are made *)
Definition reads (s : step) : list Z :=
  match s with
  | Make _ c | Mark _ c => [c]
  | Begin _ _ c c' _ | Finish _ _ _ _ c c' _ => [c; c']
  | Receive _ | Load => []
  end.
Definition clock_goes_on (l : list step) : Prop := StronglySorted Z.le (flat_map reads l).

(** No run of the task begins, and its times are not read from the log *)
Definition no_begin (s : step) : Prop :=
  match s with Begin _ _ _ _ _ | Mark _ _ | Make _ _ | Load => False | _ => True end.
(** No start of another run is on its way from a child process *)
Definition none_waiting (x : times) : Prop := Forall (fun r => tr_action r <> ARun) (x_queue x).
(** It is not the child process of run [u] that acts *)
Definition not_child (u : nat) (s : step) : Prop :=
  match s with Begin v Child _ _ _ | Finish v _ Child _ _ _ _ => v <> u | _ => True end.
(** Run [u] is not made once more *)
Definition not_made (u : nat) (s : step) : Prop := match s with Make v _ => v <> u | _ => True end.
(** What child processes send is written *)
Definition written (s : step) : Prop := match s with Receive ok => ok = true | _ => True end.

(** The record of a start: when the run was made and when that was logged *)
Definition starts (r : trec) (u : nat) (made logged : Z) : Prop :=
  tr_action r = ARun /\ tr_run r = Some u /\ tr_start r = Some made /\ tr_created r = logged.
(** The record of an outcome says that the run went on from [s] to [e] *)
Definition lasted (o : trec) (s e : Z) : Prop :=
  tr_start o = Some s /\ tr_end o = Some e /\ tr_runtime o = Some (e - s).
(** What ends is not a start *)
Definition outcome_step (s : step) : Prop := match s with Finish _ _ _ a _ _ _ => a <> ARun | _ => True end.
Definition sec (n : Z) : Z := n * 1000000.
