(** Concrete runs. *)
From Coq Require Import List Bool ZArith Permutation Lia ZifyBool.
From Verif Require Import Model.Base Model.Interval Model.Period Model.Condition Model.History Model.Running
  Spec.ConditionSpec Spec.RunningSpec.
Import ListNotations.
Local Open Scope Z_scope.
Local Open Scope list_scope.

(** Task 1: a run that ended, two that go on; task 2 has a run of its own. *)
Definition ex_now : Z := 63000000000000000.
Definition ex_runs : list story :=
  [Story 11 (ex_now - 900) (Some (ASuccess, ex_now - 700)); Story 12 (ex_now - 600) None; Story 13 (ex_now - 50) None].
Definition ex_log (ids : bool) : log :=
  flat_map (written ids 1) ex_runs ++ [Rec 2 ARun (ex_now - 10) (if ids then Some 14 else None)].
Definition ex_stack : list stack_run := [StackRun (ex_now - 600) true; StackRun (ex_now - 50) true].

Lemma ex_happened : forall st, In st ex_runs -> happened ex_now st.
Proof.
  intros st [<- |[<- |[<- |[]]]]; repeat split; vm_compute; congruence.
Qed.
Lemma ex_form : form_ok (Between 100 800) ex_now /\ form_ok (MoreThan 100) ex_now /\ form_ok (LessThan 100) ex_now /\ form_ok Running ex_now.
Proof. repeat split; vm_compute; congruence. Qed.
Lemma ex_log_tells : forall ids, log_tells ids (ex_log ids) 1 ex_runs.
Proof.
  intros ids. split.
  - apply Permutation_refl.
  - cbn [map ex_runs s_id]. repeat constructor; cbn; lia.
Qed.
Lemma ex_stack_tells : stack_tells ex_stack ex_runs.
Proof.
  exists [Story 12 (ex_now - 600) None; Story 13 (ex_now - 50) None], [Story 11 (ex_now - 900) (Some (ASuccess, ex_now - 700))].
  split; [|split].
  - apply Permutation_sym. apply (Permutation_app_comm [_; _] [_]).
  - intros st [<- |[]]. reflexivity.
  - reflexivity.
Qed.
Lemma ex_ended : forall st a t, In st ex_runs -> s_end st = Some (a, t) -> t <= latest_start (MoreThan 100) ex_now.
Proof. intros st a t [<- |[<- |[<- |[]]]] E; cbn [s_end] in E; try discriminate E. injection E as <- <-. vm_compute. congruence. Qed.
Lemma ex_ended_window : forall st a t, In st ex_runs -> s_end st = Some (a, t) ->
  t <= latest_start (Between 100 650) ex_now /\ (t < earliest (Between 100 650) ex_now \/ earliest (Between 100 650) ex_now <= s_began st).
Proof.
  intros st a t [<- |[<- |[<- |[]]]] E; cbn [s_end] in E; try discriminate E. injection E as <- <-.
  split; [|left]; vm_compute; congruence.
Qed.
