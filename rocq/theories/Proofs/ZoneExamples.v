From Coq Require Import Bool Arith ZArith List Lia ZifyBool.
From Verif Require Import Model.Base Model.Interval Model.Calendar Model.Anchored Model.Period Model.Condition Model.History
  Model.Zone Spec.PeriodSpec Spec.ConditionSpec Spec.HistorySpec Spec.ZoneSpec
  Proofs.HistoryProofs Proofs.ZoneProofs Proofs.ZoneResults.
Import ListNotations.
Open Scope Z_scope.

Definition hour : Z := 3600000000.
Definition minute : Z := 60000000.

(** Helsinki in 2023: put forward from 3:00 to 4:00 on 26 March and back from
    4:00 to 3:00 on 29 October, at 1:00 UTC both times. *)
Definition spring : Z := mk_datetime 2023 3 26 1 0 0 0.
Definition autumn : Z := mk_datetime 2023 10 29 1 0 0 0.
Definition helsinki : zone := fun u => if u <? spring then 2 * hour else if u <? autumn then 3 * hour else 2 * hour.
(** Havana: put forward at midnight, 12 March 2023, 5:00 UTC. *)
Definition midnight : Z := mk_datetime 2023 3 12 5 0 0 0.
Definition havana : zone := fun u => if u <? midnight then -5 * hour else -4 * hour.

Lemma spring_val : spring = 63815389200000000. Proof. vm_compute. reflexivity. Qed.
Lemma autumn_val : autumn = 63834138000000000. Proof. vm_compute. reflexivity. Qed.
Lemma midnight_val : midnight = 63814194000000000. Proof. vm_compute. reflexivity. Qed.

Lemma helsinki_spring : changes_once helsinki spring (2 * hour) (3 * hour) (spring - 100 * us_day) (spring + 100 * us_day).
Proof.
  unfold changes_once, helsinki. rewrite spring_val, autumn_val. unfold hour. change us_day with 86400000000.
  split; [lia|]. split; [lia|]. split; [lia|]. intros u Hu. split_ifs; lia.
Qed.
Lemma helsinki_autumn : changes_once helsinki autumn (3 * hour) (2 * hour) (autumn - 100 * us_day) (autumn + 100 * us_day).
Proof.
  unfold changes_once, helsinki. rewrite spring_val, autumn_val. unfold hour. change us_day with 86400000000.
  split; [lia|]. split; [lia|]. split; [lia|]. intros u Hu. split_ifs; lia.
Qed.
Lemma havana_spring : changes_once havana midnight (-5 * hour) (-4 * hour) (midnight - 100 * us_day) (midnight + 100 * us_day).
Proof.
  unfold changes_once, havana. rewrite midnight_val. unfold hour. change us_day with 86400000000.
  split; [lia|]. split; [lia|]. split; [lia|]. intros u Hu. split_ifs; lia.
Qed.

(** Histories with one record, and with two failures *)
Definition one_log (k : action) (u : Z) : log := [Rec 1 k u None].
Definition one_state (k : action) (u : Z) : tstate := TState (set_last (fun _ => None) k (Some u)) (Some k).

Lemma one_latest : forall k u, latest_at (one_log k u) 1 k u.
Proof.
  intros k u. split.
  - exists (Rec 1 k u None). split; [left; reflexivity|]. split; [split; [reflexivity|left; reflexivity]|reflexivity].
  - intros r [<- | []] _. cbn. lia.
Qed.
Lemma one_none : forall k u x, x <> k -> none_of (one_log k u) 1 x.
Proof. intros k u x H r [<- | []] [_ [E|[]]]. cbn in E. congruence. Qed.
Lemma one_cache : forall k u, cache_latest (one_state k u) (one_log k u) 1.
Proof.
  intros k u x. cbn [ts_last one_state]. unfold set_last. destruct (action_eqb k x) eqn:E.
  - apply action_eqb_eq in E. subst x. apply one_latest.
  - apply action_eqb_neq in E. apply one_none. congruence.
Qed.
Lemma one_before : forall k u t, u < t -> all_before (one_log k u) t.
Proof. intros k u t H r [<- | []]. exact H. Qed.
