(** Specifications for the return values of tasks. *)
From Verif Require Import Model.Base Model.History Model.World Model.Run Model.Params.
Open Scope Z_scope.

(** The session that parameters are read in has the tasks and return values of
    the scheduler's session [w]. *)
Definition reads (s : sess) (w : world) : Prop :=
  ss_tasks s = map t_name (w_tasks w) /\ ss_returns s = map (fun r => (fst r, VData (snd r))) (w_returns w).
(** From [w] to [w'] return values were only added. *)
Definition adds_returns (w w' : world) : Prop := exists new, w_returns w' = new ++ w_returns w.
