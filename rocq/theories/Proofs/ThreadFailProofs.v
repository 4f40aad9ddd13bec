(** Threads whose log records cannot be written (C47). *)
From Coq Require Import Bool Arith Lia ZifyBool.
From Verif Require Import Model.Base Model.History Model.World Model.Run Model.Scheduler.
From Verif Require Import Spec.SchedulerSpec Proofs.WorldProofs Proofs.LimitProofs Proofs.RequestProofs Proofs.TerminationProofs.
From Verif Require Import Proofs.LogFailProofs Proofs.OutcomeProofs.
Open Scope Z_scope.

(** * A thread whose records cannot be written *)
Lemma log_fails' orc n a rid v w : find_task n w <> None -> o_write orc (w_tick w) = false ->
  exists w', log_action orc false n a rid v w = (w', Raises TaskLoggingError) /\ find_task n w' <> None.
Proof.
  intros F O. destruct (find_task n w) as [t|] eqn:E; [|congruence]. destruct (log_fails orc n a rid v w t E O) as (w' & H1 & _ & H2 & _).
  exists w'. split; [exact H1|]. unfold status_of in H2. destruct (find_task n w'); [discriminate|]. discriminate H2.
Qed.
Lemma raise_if_cases o w : raise_if o w = (w, match o with Some e => Raises e | None => Returns tt end).
Proof. now destruct o. Qed.
Lemma unwritten_body orc x n rid s w : (forall k, o_write orc k = false) -> ordinary s -> find_task n w <> None ->
  exists w' e, run_body orc false x n rid s w = (w', Raises e) /\ is_exception e = true /\ find_task n w' <> None.
Proof.
  intros O (_ & R & FI & PO & FA) F. unfold run_body.
  assert (K : forall m : M unit, (exists w' e, m w = (w', Raises e) /\ is_exception e = true /\ find_task n w' <> None) ->
    exists w' e, finally m (raise_if (s_finish s) ;; raise_if (s_post s)) w = (w', Raises e) /\ is_exception e = true /\ find_task n w' <> None).
  { intros m (w1 & e & E & I & F1). unfold finally, mbind, attempt. rewrite E, !raise_if_cases.
    destruct (s_finish s) as [ef|] eqn:SF; [exists w1, ef; auto|]. rewrite ?raise_if_cases.
    destruct (s_post s) as [ep|] eqn:SP; [exists w1, ep; auto|]. exists w1, e; auto. }
  apply K; clear K.
  assert (L : forall a rid' v w1 (k : M unit), find_task n w1 <> None ->
    exists w' e, (log_action orc false n a rid' v ;; k) w1 = (w', Raises e) /\ is_exception e = true /\ find_task n w' <> None).
  { intros a rid' v w1 k F1. destruct (log_fails' orc n a rid' v w1 F1 (O _)) as (w' & E & F2). exists w', TaskLoggingError.
    unfold mbind. rewrite E. auto. }
  assert (L' : forall a rid' v w1, find_task n w1 <> None ->
    exists w' e, log_action orc false n a rid' v w1 = (w', Raises e) /\ is_exception e = true /\ find_task n w' <> None).
  { intros a rid' v w1 F1. destruct (log_fails' orc n a rid' v w1 F1 (O _)) as (w' & E & F2). exists w', TaskLoggingError. auto. }
  destruct (s_exec s) as [e|] eqn:SE.
  - destruct e; try (apply L; exact F); try (apply L'; exact F);
      (destruct (s_failure s) as [ef|] eqn:SF; [destruct ef; try congruence|]; apply L; exact F).
  - destruct (s_return s) as [er|] eqn:SR.
    + exists w, er. unfold mbind at 1, raise_if, mbind, raise. auto.
    + cbn [raise_if]. unfold mbind at 1, mbind, ret, handle_return, mbind, get, modify. apply L'. exact F.
Qed.
Lemma unwritten_thread orc n u rid s w : (forall k, o_write orc k = false) -> ordinary s -> find_task n w <> None ->
  exists w', thread_code orc n u rid s w = (on_run u (with_exc true) w', Returns tt).
Proof.
  intros O OS F. unfold thread_code.
  assert (B : exists w1 e, run_as_async orc false (Some XThread) n rid s w = (w1, Raises e) /\ is_exception e = true /\ find_task n w1 <> None).
  { unfold run_as_async, run_setup. destruct (s_setup s) as [e|] eqn:SS.
    - exists w, e. unfold raise_if, mbind, raise. split; [reflexivity|]. split; [now apply (proj1 OS)|exact F].
    - cbn [raise_if]. unfold mbind, ret. now apply unwritten_body. }
  destruct B as (w1 & e & E & I & F1). rewrite (bind_to _ _ _ _ _ (attempt_err _ _ _ _ E)), I.
  destruct (log_fails' orc n AFail None 0 w1 F1 (O _)) as (w2 & E2 & _). exists w2.
  now rewrite (bind_to _ _ _ _ _ (attempt_err _ _ _ _ E2)).
Qed.
Lemma thread_marked orc u s w t r : (forall k, o_write orc k = false) -> ordinary s ->
  find_run u w = Some (t, r) -> rn_kind r = XThread -> rn_phase r = Busy ->
  exists w', do_move orc (MThread u s) w = (w', Returns tt) /\
    forall r', In r' (tracked w') -> rn_uid r' = u -> rn_exc r' = true.
Proof.
  intros O OS FR K P. cbn [do_move]. unfold mbind at 1, get. rewrite FR, K. unfold is_busy. rewrite P. cbn [exec_eqb andb].
  assert (F : find_task (t_name t) w <> None).
  { apply find_run_task in FR. intro N. unfold find_task in N. apply find_none with (x := t) in N; [|exact FR]. now rewrite Z.eqb_refl in N. }
  destruct (unwritten_thread orc (t_name t) u (rn_id r) s w O OS F) as (w1 & E).
  unfold end_coroutine. rewrite (bind_to _ _ _ _ _ (attempt_ok _ _ _ _ E)). unfold modify. eexists. split; [reflexivity|].
  intros r' I U. rewrite !tracked_on_run in I. rewrite in_map_iff in I. destruct I as (r1 & <- & I).
  rewrite in_map_iff in I. destruct I as (r0 & <- & I).
  destruct (Nat.eqb_spec (rn_uid r0) u) as [E0|N0].
  - cbn [with_exc rn_uid] in *. destruct (Nat.eqb_spec (rn_uid r0) u); [reflexivity|congruence].
  - destruct (Nat.eqb_spec (rn_uid r0) u); congruence.
Qed.
