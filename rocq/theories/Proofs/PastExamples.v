From Coq Require Import Bool Arith Lia ZifyBool List ZArith.
From Verif Require Import Model.Base Model.Interval Model.Calendar Model.Anchored Model.Period Model.Condition Model.History Model.Past
  Model.Running Spec.ConditionSpec Spec.PeriodSpec Spec.HistorySpec Spec.RunningSpec Spec.PastSpec
  Proofs.PastProofs.
Import ListNotations.
Local Open Scope Z_scope.
Local Open Scope list_scope.

(** A task that succeeded once, on 1 May 2024 at 11:00 *)
Definition ex_moment : Z := mk_datetime 2024 5 1 11 0 0 0.
Definition ex_state : tstate := TState (fun a => if action_eqb a ASuccess then Some ex_moment else None) (Some ASuccess).
Definition ex_past (c : start_cond) : ptask := PTask 1 ex_state c.
Definition ex_other : ptask := PTask 2 fresh_state (StartOne PartOther).
Definition ex_log : log := [Rec 1 ASuccess ex_moment None; Rec 2 AFail (ex_moment + 5) None].

Lemma ex_trusted : forall c, trusted false ex_log (ex_past c).
Proof.
  intros c a. cbn [ex_past pt_state ex_state ts_last pt_name]. unfold about, ex_log. destruct (action_eqb a ASuccess) eqn:E.
  - destruct a; try discriminate E. split.
    + exists (Rec 1 ASuccess ex_moment None). split; [now left|]. split; [split; [reflexivity|now left]|reflexivity].
    + intros r [<- |[<- |[]]]; cbn; lia.
  - intros r [<- |[<- |[]]] [H1 H2]; cbn in H1, H2.
    + destruct H2 as [-> |[]]. discriminate E.
    + discriminate H1.
Qed.

Lemma ex_trusted_log : forall c, trusted true ex_log (ex_past c).
Proof.
  intros c l1 a l2 b l3 H. unfold ex_log in H.
  destruct l1 as [|x l1]; cbn [app] in H.
  - injection H as <- H. destruct l2 as [|y l2]; cbn [app] in H.
    + injection H as <- _. cbn. lia.
    + injection H as _ H. destruct l2; discriminate H.
  - injection H as _ H. destruct l1 as [|y l1]; cbn [app] in H.
    + injection H as _ H. destruct l2; discriminate H.
    + injection H as _ H. destruct l1; discriminate H.
Qed.

Lemma ex_meant : forall c, meant [ex_other; ex_past c] (Some ex_other) (Some 1) (ex_past c).
Proof.
  intros c. split; [right; now left|]. split; [reflexivity|].
  intros t' [<- |[<- |[]]] H; [discriminate H|reflexivity].
Qed.

Lemma ex_dated : forall d, 0 <= d <= us_day -> dated ex_log 1 (ex_moment + d).
Proof.
  intros d H. unfold dated.
  assert (A : ex_moment + us_day <= p_max) by (vm_compute; congruence).
  assert (B : p_min <= ex_moment) by (vm_compute; congruence).
  split; [lia|]. split; [lia|]. intros r [<- |[<- |[]]] E; [cbn [r_created]; lia|discriminate E].
Qed.

(** At midnight the day before is looked at ... *)
Lemma boundary_says : forall u k dforce own l tasks current cs w named fuel t,
  NoDup (map fst cs) -> meant tasks current named t -> trusted own l t -> unit_begin u k < unit_begin u (k + 1) ->
  exists b, past_observe dforce own l tasks current (as_comps cs) w named (past_this (unit_class u)) fuel (unit_begin u (k + 1)) = Returns b /\
    (b = true <-> meets cs (times l (pt_name t) (watched_list w) (unit_begin u k) (unit_begin u (k + 1)))).
Proof.
  intros u k dforce own l tasks current cs w named fuel t K M T H.
  destruct (unit_span u k (unit_begin u (k + 1)) fuel) as (p & -> & E); [lia|].
  rewrite (past_means _ _ _ _ _ _ _ _ _ _ _ _ M). cbn [obind].
  assert (K' : keys_ok (as_comps cs)).
  { unfold keys_ok, as_comps. rewrite map_map. exact K. }
  rewrite (status_counts _ _ _ _ _ _ _ _ _ _ _ K' (trusted_latest _ _ _ T) E).
  eexists. split; [reflexivity|]. rewrite RunningProofs.meets_state. reflexivity.
Qed.

Lemma boundary_wrong : exists u k l tasks t fuel,
  meant tasks None (Some 1) t /\ trusted false l t /\ dated l 1 (unit_begin u k) /\
  times l 1 [ASuccess] (unit_begin u k) (unit_begin u k) = 0 /\
  past_observe false false l tasks None [] w_succeeded (Some 1) (past_this (unit_class u)) fuel (unit_begin u k) = Returns true.
Proof.
  exists ThisDay, (mk_datetime 2024 5 2 0 0 0 0 / us_day), ex_log, [ex_past (StartOne PartOther)], (ex_past (StartOne PartOther)), 1%nat.
  split. { split; [now left|]. split; [reflexivity|]. intros t' [<- |[]] _. reflexivity. }
  split; [apply ex_trusted|]. split.
  { assert (E : unit_begin ThisDay (mk_datetime 2024 5 2 0 0 0 0 / us_day) = ex_moment + 13 * us_hour) by (vm_compute; reflexivity).
    rewrite E. apply ex_dated. vm_compute. split; congruence. }
  split; vm_compute; reflexivity.
Qed.

(** ... and before ten the part of the day from ten to twelve is that of the day before. *)
Lemma part_wrong : exists p k now l tasks t fuel,
  past_this_between TDay (Some (VClock (10 * us_hour))) (Some (VClock (12 * us_hour))) = Ok p /\
  unit_begin ThisDay k < now < unit_begin ThisDay (k + 1) /\
  meant tasks None (Some 1) t /\ trusted false l t /\ dated l 1 now /\
  times l 1 [ASuccess] (unit_begin ThisDay k) now = 0 /\
  past_observe false false l tasks None [] w_succeeded (Some 1) (Some p) fuel now = Returns true.
Proof.
  eexists. exists (mk_datetime 2024 5 2 0 0 0 0 / us_day), (mk_datetime 2024 5 2 9 0 0 0), ex_log,
    [ex_past (StartOne PartOther)], (ex_past (StartOne PartOther)), 1%nat.
  split; [reflexivity|]. split; [vm_compute; split; reflexivity|].
  split. { split; [now left|]. split; [reflexivity|]. intros t' [<- |[]] _. reflexivity. }
  split; [apply ex_trusted|]. split.
  { assert (E : mk_datetime 2024 5 2 9 0 0 0 = ex_moment + 22 * us_hour) by (vm_compute; reflexivity).
    rewrite E. apply ex_dated. vm_compute. split; congruence. }
  split; vm_compute; reflexivity.
Qed.
