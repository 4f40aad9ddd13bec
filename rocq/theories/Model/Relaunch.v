(** Model of restarting: rocketry/core/schedule.py:108-154 serve with the end of shut_down
    (435-439) and _restart (441-469), which Model/Scheduler.v leaves out.  Launching another Python
    process is an outcome here: with "replace" the code never returns from os.execl, with
    "relaunch" and "fresh" it returns and serve ends. *)
From Verif Require Import Model.Base Model.History Model.World Model.Run Model.Scheduler.

(** session.py:67 config.restarting: "recall"; "replace", "relaunch", "fresh"; another text *)
Inductive restarting : Type := Recall | Launch | Unknown.
Inductive ending : Type := Stopped | Launched.

Section Relaunch.
Context (orc : oracle) (cf : config) (how : restarting).

(** [fuel] is that of each session, [n] bounds the number of sessions *)
Fixpoint serve_restart (fuel n : nat) : M ending :=
  match n with
  | O => fun w => (w, OutOfFuel)
  | S n =>
      modify (fun w => set_flags true false false (w_force w) w) ;;              (* 112-114 *)
      r <- attempt (startup orc cf fuel ;; main_loop orc cf fuel) ;;             (* 118-131 *)
      let exception := match r with Ok _ | Err CancelledError => None | Err e => Some e end in
      shut_down orc cf fuel exception ;;                                         (* 154, 389-434 *)
      e <- match exception with
           | Some SchedulerRestart =>                                            (* 435-439 *)
               match how with
               | Recall => serve_restart fuel n                                  (* 464-467 *)
               | Launch => ret Launched                                          (* 451-463 *)
               | Unknown => raise ValueError                                     (* 468-469 *)
               end
           | _ => ret Stopped
           end ;;
      match r with
      | Ok _ | Err SchedulerExit | Err SchedulerRestart => ret e
      | Err e => raise e
      end
  end.
End Relaunch.
