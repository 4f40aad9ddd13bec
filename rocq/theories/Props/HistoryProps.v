(** C17-C21, C24, C25: what the task log says and what is decided from it. *)
From Coq Require Import Bool Lia.
From Verif Require Import Model.Base Model.Interval Model.Calendar Model.Anchored Model.Period Model.Condition Model.History
  Spec.PeriodSpec Spec.ConditionSpec Spec.HistorySpec
  Proofs.HistoryProofs Proofs.HistoryRunProofs Proofs.DependProofs Proofs.BookkeepingProofs Proofs.WindowProofs.
Open Scope Z_scope.

(** * C17 *)

(** Same answer from the cache as from the log, for every comparison, kind of
    action(s) and span. *)
Theorem c17_cache_agrees_with_log : forall c st l name w s e, keys_ok c -> cache_latest st l name ->
  comparable_observe c (get_measurement false c st l name w s e) =
  comparable_observe c (get_measurement true c st l name w s e).
Proof. exact cache_agrees. Qed.
Print Assumptions c17_cache_agrees_with_log.

(** And both are what counting the matching records of the log gives. *)
Theorem c17_answer_is_the_count : forall force c st l name w fuel p now b, keys_ok c -> cache_latest st l name ->
  status_observe force c st l name w fuel p now = Returns b ->
  exists s e, get_period_span fuel (Some p) now = Returns (s, e) /\
    b = comp_state c (times l name (watched_list w) s e).
Proof. exact status_spec. Qed.
Print Assumptions c17_answer_is_the_count.

Example c17_case :
  let l := [Rec 1 ARun 10 None; Rec 1 AFail 20 None; Rec 2 ASuccess 25 None; Rec 1 ARun 30 None; Rec 1 ASuccess 40 None] in
  let st := fst (srun 1 (fresh_state, []) [SSelf ARun 10 10 None; SSelf AFail 20 20 None; SElse (Rec 2 ASuccess 25 None);
                   SSelf ARun 30 30 None; SSelf ASuccess 40 40 None]) in
  keys_ok [(OpGt, BInt 0)] /\ cache_latest st l 1 /\
  comparable_observe [(OpGt, BInt 0)] (get_measurement false [(OpGt, BInt 0)] st l 1 w_finished 15 35) = true.
Proof.
  split; [apply keys_single|]. split; [|reflexivity].
  intros []; cbn; try (intros r H [H1 [H2|[]]]; repeat (destruct H as [<- | H]; [cbn in *; discriminate|]); destruct H).
  all: split; [|intros r H [H1 [H2|[]]]; repeat (destruct H as [<- | H]; [cbn in *; try discriminate; lia|]); destruct H].
  - exists (Rec 1 ARun 30 None). repeat split; cbn; auto 10.
  - exists (Rec 1 ASuccess 40 None). repeat split; cbn; auto 10.
  - exists (Rec 1 AFail 20 None). repeat split; cbn; auto 10.
Qed.

(** The hypothesis on the cache is met after any bookkeeping in which an action
    is noted and recorded at the same clock reading. *)
Theorem c17_cache_is_exact_with_one_clock_reading : forall me w evs,
  cache_latest (fst w) (snd w) me -> one_reading evs -> foreign me evs ->
  chronological (snd (srun me w evs)) -> cache_latest (fst (srun me w evs)) (snd (srun me w evs)) me.
Proof. exact exact_cache. Qed.
Print Assumptions c17_cache_is_exact_with_one_clock_reading.

Example c17_exact_case :
  cache_latest fresh_state [] 1 /\
  one_reading [SSelf ARun 10 10 None; SChild ASuccess 12 None] /\ foreign 1 [SSelf ARun 10 10 None; SChild ASuccess 12 None] /\
  chronological (snd (srun 1 (fresh_state, []) [SSelf ARun 10 10 None; SChild ASuccess 12 None])).
Proof.
  split; [apply cache_latest_fresh|]. split; [|split].
  - intros ev a t1 t2 [<- | [<- | []]] H; injection H; congruence.
  - intros r [H|[H|[]]]; discriminate.
  - intros l1 a l2 b l3 E. destruct l1 as [|x1 [|x2 [|x3 l1]]]; destruct l2 as [|y1 [|y2 l2]]; cbn in E;
      try discriminate; injection E; intros; subst; cbn; lia.
Qed.

(** But the code reads the clock twice (for the cache, then for the record): a
    task noted just before midnight and recorded just after gives two answers. *)
Theorem c17_two_clock_readings_refuted : exists evs p now,
  foreign 1 evs /\
  status_observe false [] (fst (srun 1 (fresh_state, []) evs)) (snd (srun 1 (fresh_state, []) evs)) 1 w_started 1 p now
    = Returns false /\
  status_observe true [] (fst (srun 1 (fresh_state, []) evs)) (snd (srun 1 (fresh_state, []) evs)) 1 w_started 1 p now
    = Returns true.
Proof. exact drift_answers. Qed.
Print Assumptions c17_two_clock_readings_refuted.

(** * C18 *)

(** The decision, at a moment of an occurrence of any second, minute, hour, day
    or week period: no success, inaction or termination in it so far and at
    most [retries] failures. *)
Theorem c18_decision : forall c L st en tp sg rc p, fixed_cycle c L -> mk_anchored c st en tp sg rc = Ok p ->
  forall force st' l me retries fuel k d, cache_latest st' l me -> settled L p k d ->
  exists b, executable force st' l me retries fuel (PAnch p) d = Returns b /\
  (b = true <-> ~ did l me [ASuccess; AInaction; ATerminate] (occ_start (every_L L) (a_start p) k) d /\
     times l me [AFail] (occ_start (every_L L) (a_start p) k) d <= match retries with None => 0 | Some n => n end).
Proof. exact executable_decision. Qed.
Print Assumptions c18_decision.

(** Never outside the occurrences. *)
Theorem c18_never_outside : forall c L st en tp sg rc p, fixed_cycle c L -> mk_anchored c st en tp sg rc = Ok p ->
  forall force st' l me retries fuel d,
  (forall k, ~ occ_start (every_L L) (a_start p) k <= d < occ_end (every_L L) (a_start p) (a_end p) k) ->
  executable force st' l me retries fuel (PAnch p) d = Returns false /\
  runnable force st' l me fuel (PAnch p) d = Returns false.
Proof. exact out_decision. Qed.
Print Assumptions c18_never_outside.

Example c18_decision_case : (* daily.between("10:00", "12:00"), at 11:00 of day 5 *)
  fixed_cycle TDay (24 * 60 * 60 * 10 ^ 6) /\
  mk_anchored TDay (Some (VClock (10 * us_hour))) (Some (VClock (12 * us_hour))) false false false
    = Ok (Anchored TDay (10 * us_hour) (12 * us_hour)) /\
  cache_latest fresh_state [] 1 /\
  settled (24 * 60 * 60 * 10 ^ 6) (Anchored TDay (10 * us_hour) (12 * us_hour)) 5 (5 * us_day + 11 * us_hour) /\
  executable false fresh_state [] 1 None 1 (PAnch (Anchored TDay (10 * us_hour) (12 * us_hour))) (5 * us_day + 11 * us_hour)
    = Returns true /\
  (forall k, ~ occ_start (every_L (24 * 60 * 60 * 10 ^ 6)) (10 * us_hour) k <= 9 * us_hour <
               occ_end (every_L (24 * 60 * 60 * 10 ^ 6)) (10 * us_hour) (12 * us_hour) k).
Proof.
  split; [constructor|]. split; [vm_compute; reflexivity|]. split; [apply cache_latest_fresh|].
  split; [|split; [vm_compute; reflexivity|]].
  - split; [|discriminate]. vm_compute. split; [discriminate|reflexivity].
  - intros k. unfold occ_start, occ_end, every_L. destruct (Z_lt_dec (10 * us_hour) (12 * us_hour)) as [H|H].
    + change (24 * 60 * 60 * 10 ^ 6) with 86400000000. change us_hour with 3600000000. lia.
    + exfalso. apply H. reflexivity.
Qed.

(** Every occurrence is a window in the sense used below. *)
Theorem c18_occurrences_are_windows : forall c L st en tp sg rc p,
  fixed_cycle c L -> mk_anchored c st en tp sg rc = Ok p -> forall k,
  window (PAnch p) (occ_start (every_L L) (a_start p) k) (occ_end (every_L L) (a_start p) (a_end p) k).
Proof. exact window_fixed. Qed.
Print Assumptions c18_occurrences_are_windows.

(** After success, inaction or termination noted in the window the task is not
    started again in it. *)
Theorem c18_no_restart_after_outcome : forall me force retries fuel p s e pre a t1 t2 id mid d u1 u2 id' post c,
  window p s e ->
  legal me (gate_executable me force retries fuel p)
    (pre ++ HOutcome a t1 t2 id :: mid ++ HStart d u1 u2 id' :: post) c ->
  In a [ASuccess; AInaction; ATerminate] -> s <= t1 -> s <= d < e -> False.
Proof. exact no_restart. Qed.
Print Assumptions c18_no_restart_after_outcome.

(** At most [1 + retries] starts in a window, plus one for every crash. *)
Theorem c18_starts_bounded : forall me force retries fuel p s e evs c n,
  window p s e -> legal me (gate_executable me force retries fuel p) evs c -> one_at_a_time evs ->
  n = match retries with None => 0 | Some n => n end -> 0 <= n ->
  starts evs s e <= 1 + n + outcomes evs ACrash s e.
Proof. exact starts_bounded. Qed.
Print Assumptions c18_starts_bounded.

Example c18_history_case : (* daily with one retry: failed at 8:00, retried at 9:00 and succeeded *)
  let p := PAnch (Anchored TDay 0 us_day) in
  let evs := [HStart (28800000000) 28800000000 28800000001 None; HOutcome AFail 28800000005 28800000006 None;
              HStart 32400000000 32400000000 32400000001 None; HOutcome ASuccess 32400000007 32400000009 None] in
  legal 1 (gate_executable 1 false (Some 1) 1 p) evs 32400000009 /\ one_at_a_time evs /\ starts evs 0 us_day = 2.
Proof.
  cbv zeta. split; [|split].
  - apply (legal_outcome _ _ [HStart 28800000000 28800000000 28800000001 None; HOutcome AFail 28800000005 28800000006 None;
              HStart 32400000000 32400000000 32400000001 None] 32400000001); try lia; [|discriminate].
    apply (legal_start _ _ [HStart 28800000000 28800000000 28800000001 None; HOutcome AFail 28800000005 28800000006 None] 28800000006);
      try lia; [|vm_compute; reflexivity].
    apply (legal_outcome _ _ [HStart 28800000000 28800000000 28800000001 None] 28800000001); try lia; [|discriminate].
    apply (legal_start _ _ [] 0); try lia; [constructor|vm_compute; reflexivity].
  - intros e1 d t1 t2 id e2 E.
    destruct e1 as [|x1 [|x2 [|x3 [|x4 [|x5 e1]]]]]; cbn in E; try discriminate;
      injection E; intros; subst; reflexivity.
  - reflexivity.
Qed.

(** At an occurrence's first microsecond a whole-cycle period (plain daily,
    hourly, ...) still looks at the previous occurrence: a task that succeeded
    yesterday is not startable at 00:00:00.000000 but is a microsecond later. *)
Theorem c18_startable_at_first_microsecond_refuted : exists l now,
  (forall r, In r l -> r_created r < now) /\ chronological l /\ now mod us_day = 0 /\
  (exists r, l = [r; Rec 1 ASuccess (now - 5) None]) /\
  executable true fresh_state l 1 None 1 (PAnch (Anchored TDay 0 us_day)) now = Returns false /\
  executable true fresh_state l 1 None 1 (PAnch (Anchored TDay 0 us_day)) (now + 1) = Returns true.
Proof. exact midnight. Qed.
Print Assumptions c18_startable_at_first_microsecond_refuted.

(** * C19 *)

Theorem c19_at_most_once_per_window : forall me force fuel p s e evs c, window p s e ->
  legal me (gate_runnable me force fuel p) evs c -> starts evs s e <= 1.
Proof. exact once_runnable. Qed.
Print Assumptions c19_at_most_once_per_window.

(** The decision: true iff there is no start in the occurrence so far. *)
Theorem c19_decision : forall c L st en tp sg rc p, fixed_cycle c L -> mk_anchored c st en tp sg rc = Ok p ->
  forall force st' l me fuel k d, cache_latest st' l me -> settled L p k d ->
  exists b, runnable force st' l me fuel (PAnch p) d = Returns b /\
  (b = true <-> ~ did l me [ARun] (occ_start (every_L L) (a_start p) k) d).
Proof. exact runnable_decision. Qed.
Print Assumptions c19_decision.

Example c19_case : (* at minute 5 of every hour *)
  let p := PAnch (Anchored THour (5 * us_minute) (6 * us_minute)) in
  let evs := [HStart 300000000 300000002 300000003 None; HStart 3900000000 3900000002 3900000003 None] in
  legal 1 (gate_runnable 1 false 1 p) evs 3900000003 /\
  window p 300000000 360000000 /\
  settled (60 * 60 * 10 ^ 6) (Anchored THour (5 * us_minute) (6 * us_minute)) 0 300000000 /\
  runnable false (fst (hrun 1 evs)) (snd (hrun 1 evs)) 1 1 p 3900000009 = Returns false.
Proof.
  cbv zeta. split; [|split; [|split]].
  - apply (legal_start _ _ [HStart 300000000 300000002 300000003 None] 300000003); try lia; [|vm_compute; reflexivity].
    apply (legal_start _ _ [] 0); try lia; [constructor|vm_compute; reflexivity].
  - exact (window_fixed THour (60 * 60 * 10 ^ 6) (Some (VInt 5)) (Some (VInt 5)) false false false
             (Anchored THour (5 * us_minute) (6 * us_minute)) fc_hour eq_refl 0).
  - split; [vm_compute; split; [discriminate|reflexivity]|discriminate].
  - vm_compute. reflexivity.
Qed.

(** every(X): the next start is decided more than X after the last was noted. *)
Theorem c19_every_starts_apart : forall me force fuel past pre d t1 t2 id mid d' u1 u2 id' post c,
  legal me (gate_every me force w_started fuel past)
    (pre ++ HStart d t1 t2 id :: mid ++ HStart d' u1 u2 id' :: post) c ->
  t1 + Z.abs past < d'.
Proof. exact every_starts_apart. Qed.
Print Assumptions c19_every_starts_apart.

(** every(X, based="success") (or "fail"): more than X after the last one. *)
Theorem c19_every_after_outcome : forall me force a fuel past pre t1 t2 id mid d' u1 u2 id' post c,
  legal me (gate_every me force (WOne a) fuel past)
    (pre ++ HOutcome a t1 t2 id :: mid ++ HStart d' u1 u2 id' :: post) c ->
  t1 + Z.abs past < d'.
Proof. exact every_outcome_apart. Qed.
Print Assumptions c19_every_after_outcome.

(** And not longer than that: startable iff no such record in the last X. *)
Theorem c19_every_decision : forall force st l me a fuel past d, cache_latest st l me ->
  exists b, every_based force st l me (WOne a) fuel past d = Returns b /\
  (b = true <-> ~ did l me [a] (d - Z.abs past) d).
Proof. exact every_decision. Qed.
Print Assumptions c19_every_decision.

Example c19_every_case :
  legal 1 (gate_every 1 false w_started 1 100) ([] ++ HStart 10 11 11 None :: [] ++ [HStart 112 112 112 None]) 112 /\
  legal 1 (gate_every 1 true (WOne ASuccess) 1 100) ([] ++ HOutcome ASuccess 9 11 None :: [] ++ [HStart 112 112 112 None]) 112 /\
  cache_latest fresh_state [] 1 /\
  gate_every 1 false w_started 1 100 (hrun 1 [HStart 10 11 11 None]) 111 = false.
Proof.
  split; [|split; [|split]].
  - apply (legal_start _ _ [HStart 10 11 11 None] 11); try lia; [|vm_compute; reflexivity].
    apply (legal_start _ _ [] 0); try lia; [constructor|vm_compute; reflexivity].
  - apply (legal_start _ _ [HOutcome ASuccess 9 11 None] 11); try lia; [|vm_compute; reflexivity].
    apply (legal_outcome _ _ [] 0); try lia; [constructor|discriminate].
  - apply cache_latest_fresh.
  - vm_compute. reflexivity.
Qed.

(** * C20 *)

(** after_success/after_fail/after_finish: a matching outcome later than every
    start of the task. *)
Theorem c20_holds_iff_newer_outcome : forall l me dep acts, chronological l ->
  (depend_state l me dep acts = true <->
   exists r, In r l /\ about dep acts r /\
     forall r', In r' l -> about me [ARun] r' -> r_created r' < r_created r).
Proof. exact depend_iff. Qed.
Print Assumptions c20_holds_iff_newer_outcome.

(** Once started the outcome is used up. *)
Theorem c20_used_up_by_a_start : forall l1 r l2 me dep acts, chronological (l1 ++ r :: l2) ->
  about me [ARun] r -> (forall r', In r' l2 -> ~ about dep acts r') -> ~ about dep acts r ->
  depend_state (l1 ++ r :: l2) me dep acts = false.
Proof. exact depend_consumed. Qed.
Print Assumptions c20_used_up_by_a_start.

(** A new outcome makes it true again. *)
Theorem c20_new_outcome_triggers : forall l r me dep acts, about dep acts r -> dep <> me \/ ~ In ARun acts ->
  (forall r', In r' l -> about me [ARun] r' -> r_created r' < r_created r) ->
  depend_state (l ++ [r]) me dep acts = true.
Proof. exact depend_triggered. Qed.
Print Assumptions c20_new_outcome_triggers.

(** Over any history: never more starts than matching outcomes. *)
Theorem c20_starts_at_most_outcomes : forall me dep acts evs c, dep <> me ->
  legal me (gate_depend me dep acts) evs c -> all_starts evs <= triggers dep acts evs.
Proof. exact starts_at_most_triggers. Qed.
Print Assumptions c20_starts_at_most_outcomes.

Example c20_case :
  let l := [Rec 2 ASuccess 10 None; Rec 1 ARun 11 None; Rec 1 ASuccess 12 None] in
  chronological l /\ depend_state l 1 2 dep_success = false /\
  depend_state (l ++ [Rec 2 ASuccess 13 None]) 1 2 dep_success = true /\
  about 1 [ARun] (Rec 1 ARun 11 None) /\ about 2 dep_success (Rec 2 ASuccess 13 None) /\
  legal 1 (gate_depend 1 2 dep_success) [HOther (Rec 2 ASuccess 10 None); HStart 10 11 11 None] 11.
Proof.
  cbv zeta. split; [|split; [|split; [|split; [|split]]]]; try reflexivity.
  - intros l1 a l2 b l3 E. destruct l1 as [|x1 [|x2 [|x3 [|x4 l1]]]]; destruct l2 as [|y1 [|y2 [|y3 l2]]]; cbn in E;
      try discriminate; injection E; intros; subst; cbn; lia.
  - split; [reflexivity|left; reflexivity].
  - split; [reflexivity|left; reflexivity].
  - apply (legal_start _ _ [HOther (Rec 2 ASuccess 10 None)] 10); try lia; [|reflexivity].
    apply (legal_other _ _ [] 0 (Rec 2 ASuccess 10 None)); cbn; try lia. constructor.
Qed.

(** An outcome logged after a start with the same time is lost. *)
Theorem c20_same_time_refuted : exists l me dep r,
  depend_state l me dep dep_success = false /\
  (exists l1 l2, l = l1 ++ r :: l2 /\ about me [ARun] r /\
     exists d, In d l2 /\ about dep dep_success d).
Proof. exact depend_same_time. Qed.
Print Assumptions c20_same_time_refuted.

(** after_finish does not react to a termination, although a terminated task
    counts as finished elsewhere (TaskFinished). *)
Theorem c20_finish_after_termination_refuted : exists l me dep,
  (exists r, In r l /\ about dep [ASuccess; AFail; ATerminate] r /\
     forall r', In r' l -> about me [ARun] r' -> r_created r' < r_created r) /\
  depend_state l me dep dep_finish = false.
Proof. exact depend_finish_ignores_termination. Qed.
Print Assumptions c20_finish_after_termination_refuted.

(** * C21 *)

Theorem c21_only_after_failure : forall n force st l name,
  retry_state n force st l name = true -> get_status force st l name = Some AFail.
Proof. exact retry_needs_failure. Qed.
Print Assumptions c21_only_after_failure.

Theorem c21_zero_never : forall force st l name, retry_state 0 force st l name = false.
Proof. exact retry_zero. Qed.
Print Assumptions c21_zero_never.

Theorem c21_minus_one_always : forall force st l name,
  retry_state (-1) force st l name = true <-> get_status force st l name = Some AFail.
Proof. exact retry_infinite. Qed.
Print Assumptions c21_minus_one_always.

(** Only while the failures since the last other outcome are at most n... *)
Theorem c21_at_most_n_failures : forall n force st l name, 0 < n -> chronological l -> after_epoch l name ->
  retry_state n force st l name = true ->
  get_status force st l name = Some AFail /\ failures_in_a_row l name <= n.
Proof. exact retry_sound. Qed.
Print Assumptions c21_at_most_n_failures.

(** ... and exactly then, when the task's record times differ. *)
Theorem c21_exact : forall n force st l name,
  0 < n -> chronological l -> strictly_chronological l name -> after_epoch l name ->
  (retry_state n force st l name = true <->
   get_status force st l name = Some AFail /\ failures_in_a_row l name <= n).
Proof. exact retry_exact. Qed.
Print Assumptions c21_exact.

Example c21_case :
  let e := unix_epoch in
  let l := [Rec 1 AFail (e + 1) None; Rec 1 ASuccess (e + 2) None; Rec 1 ARun (e + 3) None; Rec 1 AFail (e + 4) None] in
  chronological l /\ strictly_chronological l 1 /\ after_epoch l 1 /\ failures_in_a_row l 1 = 1 /\
  retry_state 1 true fresh_state l 1 = true.
Proof.
  cbv zeta. split; [|split; [|split; [|split; reflexivity]]].
  - intros l1 a l2 b l3 E. destruct l1 as [|x1 [|x2 [|x3 [|x4 [|x5 l1]]]]]; destruct l2 as [|y1 [|y2 [|y3 [|y4 l2]]]]; cbn in E;
      try discriminate; injection E; intros; subst; cbn [r_created]; lia.
  - intros l1 a l2 b l3 E _ _. destruct l1 as [|x1 [|x2 [|x3 [|x4 [|x5 l1]]]]]; destruct l2 as [|y1 [|y2 [|y3 [|y4 l2]]]]; cbn in E;
      try discriminate; injection E; intros; subst; cbn [r_created]; lia.
  - intros r H _. repeat (destruct H as [<- | H]; [cbn [r_created]; lia|]). destruct H.
Qed.

(** Over any history of a task whose condition retries only by retry(n): after
    a first failure at most n starts until another outcome. *)
Theorem c21_at_most_n_retries : forall me (gate : world -> Z -> bool) force n evs c,
  legal me gate evs c -> one_at_a_time evs -> 0 <= n ->
  (forall ev, In ev evs -> unix_epoch <= event_time ev) ->
  (forall w d, gate w d = true -> get_status force (fst w) (snd w) me = Some AFail ->
     retry_state n force (fst w) (snd w) me = true) ->
  snd (fails_and_retries evs) <= n.
Proof. exact retries_bounded. Qed.
Print Assumptions c21_at_most_n_retries.

Example c21_retries_case : (* starts when never run; retry(1) *)
  let gate (w : world) (d : Z) :=
    match get_status false (fst w) (snd w) 1 with None => true | _ => retry_state 1 false (fst w) (snd w) 1 end in
  let e := 63000000000000000 in
  let evs := [HStart e e e None; HOutcome AFail (e + 1) (e + 1) None; HStart (e + 2) (e + 2) (e + 2) None;
              HOutcome AFail (e + 3) (e + 3) None] in
  legal 1 gate evs (e + 3) /\ one_at_a_time evs /\ (forall ev, In ev evs -> unix_epoch <= event_time ev) /\
  (forall w d, gate w d = true -> get_status false (fst w) (snd w) 1 = Some AFail ->
     retry_state 1 false (fst w) (snd w) 1 = true) /\
  fails_and_retries evs = (2, 1) /\ gate (hrun 1 evs) (e + 4) = false.
Proof.
  cbv zeta. split; [|split; [|split; [|split; [|split; vm_compute; reflexivity]]]].
  - apply (legal_outcome _ _ [HStart 63000000000000000 63000000000000000 63000000000000000 None;
             HOutcome AFail (63000000000000000 + 1) (63000000000000000 + 1) None;
             HStart (63000000000000000 + 2) (63000000000000000 + 2) (63000000000000000 + 2) None] (63000000000000000 + 2));
      try lia; [|discriminate].
    apply (legal_start _ _ [HStart 63000000000000000 63000000000000000 63000000000000000 None;
             HOutcome AFail (63000000000000000 + 1) (63000000000000000 + 1) None] (63000000000000000 + 1));
      try lia; [|vm_compute; reflexivity].
    apply (legal_outcome _ _ [HStart 63000000000000000 63000000000000000 63000000000000000 None] 63000000000000000);
      try lia; [|discriminate].
    apply (legal_start _ _ [] 63000000000000000); try lia; [constructor|vm_compute; reflexivity].
  - intros e1 d t1 t2 id e2 E.
    destruct e1 as [|x1 [|x2 [|x3 [|x4 [|x5 e1]]]]]; cbn [app] in E; try discriminate;
      injection E; intros; subst; reflexivity.
  - intros ev H. repeat (destruct H as [<- | H]; [cbn [event_time]; unfold unix_epoch; lia|]). destruct H.
  - intros w d H1 H2. rewrite H2 in H1. exact H1.
Qed.

(** With a failure and a success at one time the earlier failure is counted too. *)
Theorem c21_same_time_refuted : exists l st,
  chronological l /\ get_status false st l 1 = Some AFail /\ failures_in_a_row l 1 = 1 /\
  retry_state 1 false st l 1 = false.
Proof. exact retry_same_time. Qed.
Print Assumptions c21_same_time_refuted.

(** * C24 *)

(** The status is the last action of the task, from the cache or from the log. *)
Theorem c24_status_is_last_action : forall me w evs ev a t1 t2 force, foreign me evs ->
  last_such (fun e => s_action e <> None) evs ev -> s_action ev = Some (a, t1, t2) ->
  get_status force (fst (srun me w evs)) (snd (srun me w evs)) me = Some a.
Proof. exact status_is_last. Qed.
Print Assumptions c24_status_is_last_action.

(** Each cached time is when the last such action was noted; the log has the
    time of its record. *)
Theorem c24_last_times : forall me w evs ev a t1 t2, foreign me evs ->
  last_such (own_action a) evs ev -> s_action ev = Some (a, t1, t2) ->
  ts_last (fst (srun me w evs)) a = Some t1 /\ last_from_log (snd (srun me w evs)) me a = Some t2.
Proof. exact last_is_last. Qed.
Print Assumptions c24_last_times.

Theorem c24_others_unchanged : forall me w evs a, foreign me evs -> (forall ev, In ev evs -> ~ own_action a ev) ->
  ts_last (fst (srun me w evs)) a = ts_last (fst w) a /\ last_from_log (snd (srun me w evs)) me a = last_from_log (snd w) me a.
Proof. exact last_unchanged. Qed.
Print Assumptions c24_others_unchanged.

Example c24_case :
  let evs := [SSelf ARun 1 2 None; SSelf AFail 3 4 None; SSelf ARun 5 6 None; SChild ASuccess 8 None; SElse (Rec 2 AFail 9 None)] in
  foreign 1 evs /\ last_such (fun e => s_action e <> None) evs (SChild ASuccess 8 None) /\
  last_such (own_action ARun) evs (SSelf ARun 5 6 None) /\ (forall ev, In ev evs -> ~ own_action ATerminate ev).
Proof.
  cbv zeta. split; [|split; [|split]].
  - intros r H. repeat (destruct H as [H|H]; [try discriminate; injection H as <-; cbn; discriminate|]). destruct H.
  - exists [SSelf ARun 1 2 None; SSelf AFail 3 4 None; SSelf ARun 5 6 None], [SElse (Rec 2 AFail 9 None)].
    split; [reflexivity|]. split; [discriminate|]. intros b [<- | []] H. apply H. reflexivity.
  - exists [SSelf ARun 1 2 None; SSelf AFail 3 4 None], [SChild ASuccess 8 None; SElse (Rec 2 AFail 9 None)].
    split; [reflexivity|]. split; [exists 5, 6; reflexivity|].
    intros b [<- | [<- | []]] (t1 & t2 & H); discriminate.
  - intros ev H (t1 & t2 & E). repeat (destruct H as [<- | H]; [discriminate|]). destruct H.
Qed.

(** So the cached time need not be the recorded one. *)
Theorem c24_times_refuted : exists evs,
  foreign 1 evs /\ chronological (snd (srun 1 (fresh_state, []) evs)) /\
  ts_last (fst (srun 1 (fresh_state, []) evs)) ARun <>
  last_from_log (snd (srun 1 (fresh_state, []) evs)) 1 ARun.
Proof. exact drift. Qed.
Print Assumptions c24_times_refuted.

(** When the log cannot be written: nothing is stored, the error is reported,
    and the task becomes failed (a start leaves it running). *)
Theorem c24_failed_logging : forall st l name a t1 t2 id st' l' r,
  set_status st l name a t1 t2 id false = (st', l', r) ->
  r = Err TaskLoggingError /\ l' = l /\
  (a = ARun -> ts_status st' = Some ARun /\ ts_last st' ARun = Some t1) /\
  (a <> ARun -> ts_status st' = Some AFail /\ ts_last st' AFail = Some t1 /\
                (a <> AFail -> ts_last st' a = ts_last st a)).
Proof. exact failed_logging. Qed.
Print Assumptions c24_failed_logging.

Example c24_failed_case : snd (set_status fresh_state [] 1 ASuccess 5 6 None false) = Err TaskLoggingError.
Proof. reflexivity. Qed.

(** * C25 *)

Theorem c25_recovery : forall st l me t1 t2, strictly_chronological l me ->
  let '(st', l', res) := set_cached st l me t1 t2 true in
  res = Ok tt /\
  match get_latest_any l me with
  | None => l' = l /\ ts_status st' = ts_status st
  | Some r =>
      if action_eqb (r_action r) ARun
      then l' = l ++ [Rec me ACrash t2 None] /\ ts_status st' = Some ACrash
      else l' = l /\ ts_status st' = Some (r_action r)
  end.
Proof. exact recovery. Qed.
Print Assumptions c25_recovery.

Theorem c25_twice_adds_nothing : forall st l me t1 t2 u1 u2, strictly_chronological l me ->
  (forall r, In r l -> r_task r = me -> r_created r < t2) ->
  let '(st', l', _) := set_cached st l me t1 t2 true in
  let '(st'', l'', res) := set_cached st' l' me u1 u2 true in
  res = Ok tt /\ l'' = l' /\ ts_status st'' = ts_status st'.
Proof. exact recovery_twice. Qed.
Print Assumptions c25_twice_adds_nothing.

(** Afterwards the cached times are those of the log. *)
Theorem c25_cache_from_log : forall st l me t1 t2, chronological l ->
  get_latest_any l me = None \/ (exists r, get_latest_any l me = Some r /\ r_action r <> ARun) ->
  strictly_chronological l me ->
  let '(st', l', _) := set_cached st l me t1 t2 true in cache_latest st' l' me.
Proof. exact recovery_cache. Qed.
Print Assumptions c25_cache_from_log.

(** [get_latest_any] is the last record of the task. *)
Theorem c25_latest_is_last : forall l name r, get_latest_any l name = Some r -> last_such (fun x => r_task x = name) l r.
Proof. exact latest_any_spec. Qed.
Print Assumptions c25_latest_is_last.

Example c25_case :
  let l := [Rec 1 ARun 1 None; Rec 1 ASuccess 2 None; Rec 2 ARun 2 None; Rec 1 ARun 3 None] in
  strictly_chronological l 1 /\ chronological l /\ (forall r, In r l -> r_task r = 1 -> r_created r < 10) /\
  get_latest_any l 1 = Some (Rec 1 ARun 3 None) /\
  snd (fst (set_cached fresh_state l 1 9 10 true)) = l ++ [Rec 1 ACrash 10 None].
Proof.
  cbv zeta. split; [|split; [|split; [|split]]]; try reflexivity.
  - intros l1 a l2 b l3 E. destruct l1 as [|x1 [|x2 [|x3 [|x4 [|x5 l1]]]]]; destruct l2 as [|y1 [|y2 [|y3 [|y4 l2]]]]; cbn in E;
      try discriminate; injection E; intros; subst; cbn in *; try discriminate; lia.
  - intros l1 a l2 b l3 E. destruct l1 as [|x1 [|x2 [|x3 [|x4 [|x5 l1]]]]]; destruct l2 as [|y1 [|y2 [|y3 [|y4 l2]]]]; cbn in E;
      try discriminate; injection E; intros; subst; cbn in *; lia.
  - intros r H _. repeat (destruct H as [<- | H]; [cbn; lia|]). destruct H.
Qed.

(** A start and its outcome with the same time are taken for a crash. *)
Theorem c25_same_time_refuted : exists st l,
  (exists r, get_latest_any l 1 = Some r /\ r_action r = ASuccess) /\ chronological l /\
  (let '(_, l', _) := set_cached st l 1 30 31 true in l' = l ++ [Rec 1 ACrash 31 None]).
Proof. exact tie_crash. Qed.
Print Assumptions c25_same_time_refuted.
