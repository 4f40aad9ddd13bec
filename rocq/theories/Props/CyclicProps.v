(** C03-C06: periods with a fixed-length cycle (second, minute, hour, day, week). *)
From Verif Require Import Model.Base Model.Interval Model.Calendar Model.Anchored
  Spec.PeriodSpec Proofs.AnchoredProofs Proofs.FixedCycleProofs Proofs.ClockProofs.
From Coq Require Import Lia.
Open Scope Z_scope.

(** C03: a datetime is in the period iff its offset in the cycle is in the
    half-open, possibly wrapping, clock range of the stored anchors. *)
Theorem c03_membership : forall c L st en tp sg rc p t,
  fixed_cycle c L -> mk_anchored c st en tp sg rc = Ok p ->
  (acontains p t = true <-> clock_range (a_start p) (a_end p) (t mod L)).
Proof. exact fixed_clock_range. Qed.
Print Assumptions c03_membership.
Example c03_membership_met : fixed_cycle TWeek (7 * us_day) /\
  mk_anchored TWeek (Some (VUnit 4 (Some (22 * us_hour)))) (Some (VUnit 0 None)) false false false = Ok (Anchored TWeek (4 * us_day + 22 * us_hour) us_day) /\
  clock_range (4 * us_day + 22 * us_hour) us_day (mk_datetime 2022 9 11 1 0 0 0 mod (7 * us_day)).
Proof. split; [constructor|]. split; [vm_compute; reflexivity|]. vm_compute. intuition congruence. Qed.

(** C03, with the anchors as the user writes them: clock strings, *)
Theorem c03_membership_clock_strings : forall c L a b p t,
  fixed_cycle c L -> c <> TWeek ->
  period c (Some (VClock a)) (Some (VClock b)) = Ok p ->
  (acontains p t = true <-> clock_range a b (t mod L)).
Proof. exact period_clock. Qed.
Print Assumptions c03_membership_clock_strings.
Example c03_membership_clock_strings_met : exists p, period THour (Some (VClock (45 * us_minute))) (Some (VClock (15 * us_minute))) = Ok p /\
  acontains p (mk_datetime 2022 9 9 5 50 0 0) = true /\ acontains p (mk_datetime 2022 9 9 5 15 0 0) = false.
Proof. eexists. split; [vm_compute; reflexivity|]. split; vm_compute; reflexivity. Qed.

(** ... which the constructor accepts whenever they are within the cycle, *)
Theorem c03_clock_strings_accepted : forall c L a b,
  fixed_cycle c L -> c <> TWeek -> 0 <= a <= L -> 0 <= b <= L ->
  exists p, period c (Some (VClock a)) (Some (VClock b)) = Ok p.
Proof. exact period_clock_accepted. Qed.
Print Assumptions c03_clock_strings_accepted.
Example c03_clock_strings_accepted_met : fixed_cycle TDay us_day /\ TDay <> TWeek /\ 0 <= 22 * us_hour <= us_day /\ 0 <= us_day <= us_day.
Proof. split; [constructor|]. split; [discriminate|]. vm_compute. intuition congruence. Qed.

(** ... integers (both ends included; also days of month), *)
Theorem c03_membership_integers : forall c i j p t, c <> TYear ->
  period c (Some (VInt i)) (Some (VInt j)) = Ok p ->
  (acontains p t = true <-> cyc_between i j (unit_number c t)).
Proof. exact period_int_range. Qed.
Print Assumptions c03_membership_integers.
Example c03_membership_integers_met : exists p, period TMonth (Some (VInt 28)) (Some (VInt 2)) = Ok p /\
  acontains p (mk_datetime 2022 9 30 5 0 0 0) = true /\ unit_number TMonth (mk_datetime 2022 9 30 5 0 0 0) = 30 /\
  acontains p (mk_datetime 2022 9 3 0 0 0 0) = false.
Proof. eexists. split; [vm_compute; reflexivity|]. repeat split; vm_compute; reflexivity. Qed.

Theorem c03_integers_accepted : forall c i j, c <> TYear ->
  unit_range c i -> unit_range c j ->
  exists p, period c (Some (VInt i)) (Some (VInt j)) = Ok p.
Proof. exact period_int_accepted. Qed.
Print Assumptions c03_integers_accepted.
Example c03_integers_accepted_met : unit_range TDay 22 /\ unit_range TDay 5.
Proof. split; vm_compute; intuition congruence. Qed.

Theorem c03_integers_rejected : forall c i j,
  ~ (unit_range c i \/ c = TSecond /\ i = 1000) ->
  period c (Some (VInt i)) (Some (VInt j)) = Err ValueError.
Proof. exact period_int_rejected. Qed.
Print Assumptions c03_integers_rejected.
Example c03_integers_rejected_met : ~ (unit_range TDay 24 \/ TDay = TSecond /\ 24 = 1000).
Proof. vm_compute. intuition congruence. Qed.

(** ... only a start or only an end, *)
Theorem c03_membership_from : forall c i p t, c <> TYear ->
  period c (Some (VInt i)) None = Ok p ->
  (acontains p t = true <-> i <= unit_number c t) \/ (c = TSecond /\ i = 1000).
Proof. exact period_from_int. Qed.
Print Assumptions c03_membership_from.
Example c03_membership_from_met : exists p, period TDay (Some (VInt 22)) None = Ok p /\
  acontains p (mk_datetime 2022 9 9 22 0 0 0) = true /\ acontains p (mk_datetime 2022 9 9 21 59 0 0) = false.
Proof. eexists. split; [vm_compute; reflexivity|]. split; vm_compute; reflexivity. Qed.

Theorem c03_membership_until : forall c j p t, c <> TYear ->
  period c None (Some (VInt j)) = Ok p ->
  (acontains p t = true <-> unit_number c t <= j).
Proof. exact period_until_int. Qed.
Print Assumptions c03_membership_until.
Example c03_membership_until_met : exists p, period TDay None (Some (VInt 22)) = Ok p /\
  acontains p (mk_datetime 2022 9 9 22 59 0 0) = true /\ acontains p (mk_datetime 2022 9 9 23 0 0 0) = false.
Proof. eexists. split; [vm_compute; reflexivity|]. split; vm_compute; reflexivity. Qed.

(** ... a single unit, *)
Theorem c03_membership_at : forall c i p t, c <> TYear -> unit_range c i ->
  period_at c (VInt i) = Ok p ->
  (acontains p t = true <-> unit_number c t = i).
Proof. exact period_at_int. Qed.
Print Assumptions c03_membership_at.
Example c03_membership_at_met : unit_range TWeek 7 /\ exists p, period_at TWeek (VInt 7) = Ok p /\
  acontains p (mk_datetime 2022 9 11 23 59 0 0) = true /\ acontains p (mk_datetime 2022 9 12 0 0 0 0) = false.
Proof. split; [vm_compute; intuition congruence|]. eexists. split; [vm_compute; reflexivity|]. split; vm_compute; reflexivity. Qed.

Theorem c03_at_accepted : forall c i, c <> TYear -> unit_range c i ->
  exists p, period_at c (VInt i) = Ok p.
Proof. exact period_at_int_accepted. Qed.
Print Assumptions c03_at_accepted.
Example c03_at_accepted_met : TMinute <> TYear /\ unit_range TMinute 59.
Proof. split; [discriminate|]. vm_compute. intuition congruence. Qed.

(** ... a shifted full cycle, *)
Theorem c03_membership_starting : forall c v p t,
  period_starting c v = Ok p -> acontains p t = true.
Proof. exact period_starting_all. Qed.
Print Assumptions c03_membership_starting.
Example c03_membership_starting_met : period_starting TDay (VClock (10 * us_hour)) = Ok (Anchored TDay (10 * us_hour) (10 * us_hour)).
Proof. vm_compute. reflexivity. Qed.

(** ... weekday names, without and with times of day. *)
Theorem c03_membership_weekday_names : forall n m p t,
  period TWeek (Some (VUnit n None)) (Some (VUnit m None)) = Ok p ->
  (acontains p t = true <-> cyc_between n m (dt_weekday t)).
Proof. exact period_week_names. Qed.
Print Assumptions c03_membership_weekday_names.

Theorem c03_membership_weekday_times : forall n m a b p t,
  period TWeek (Some (VUnit n (Some a))) (Some (VUnit m (Some b))) = Ok p ->
  (acontains p t = true <-> clock_range (n * us_day + a) (m * us_day + b) (t mod (7 * us_day))).
Proof. exact period_week_times. Qed.
Print Assumptions c03_membership_weekday_times.
Example c03_membership_weekday_times_met : exists p,
  period TWeek (Some (VUnit 4 (Some (22 * us_hour)))) (Some (VUnit 0 (Some (6 * us_hour)))) = Ok p /\
  acontains p (mk_datetime 2022 9 12 5 0 0 0) = true /\ acontains p (mk_datetime 2022 9 9 21 0 0 0) = false.
Proof. eexists. split; [vm_compute; reflexivity|]. split; vm_compute; reflexivity. Qed.

(** ... and with right_closed the end itself belongs to it. *)
Theorem c03_right_closed : forall c L a b tp sg p t, fixed_cycle c L -> c <> TWeek ->
  mk_anchored c (Some (VClock a)) (Some (VClock b)) tp sg true = Ok p ->
  (acontains p t = true <-> closed_clock_range a b (t mod L)).
Proof. exact period_right_closed. Qed.
Print Assumptions c03_right_closed.

Example c03_right_closed_met : exists p q,
  mk_anchored TDay (Some (VClock 36000000000)) (Some (VClock 39600000000)) false false true = Ok p /\
  period TDay (Some (VClock 36000000000)) (Some (VClock 39600000000)) = Ok q /\
  acontains p 39600000000 = true /\ acontains p 39600000001 = false /\ acontains q 39600000000 = false.
Proof. eexists. eexists. repeat split; vm_compute; reflexivity. Qed.


(** TimeOfDay("22:00", "06:00"), Fri-Mon and 2022-09-09T05:59:59 (a Friday). *)
Example c03_nonvacuous :
  period TDay (Some (VClock (22 * us_hour))) (Some (VClock (6 * us_hour)))
    = Ok (Anchored TDay (22 * us_hour) (6 * us_hour)) /\
  acontains (Anchored TDay (22 * us_hour) (6 * us_hour)) (mk_datetime 2022 9 9 5 59 59 0) = true /\
  acontains (Anchored TDay (22 * us_hour) (6 * us_hour)) (mk_datetime 2022 9 9 6 0 0 0) = false /\
  period TWeek (Some (VUnit 4 None)) (Some (VUnit 0 None)) = Ok (Anchored TWeek (4 * us_day) us_day) /\
  acontains (Anchored TWeek (4 * us_day) us_day) (mk_datetime 2022 9 9 5 59 59 0) = true /\
  acontains (Anchored TWeek (4 * us_day) us_day) (mk_datetime 2022 9 8 5 59 59 0) = false /\
  dt_weekday (mk_datetime 2022 9 9 5 59 59 0) = 4 /\
  period TDay (Some (VInt 10)) (Some (VInt 12)) = Ok (Anchored TDay (10 * us_hour) (13 * us_hour)) /\
  period_at TMinute (VInt 59) = Ok (Anchored TMinute (59 * us_second) 0).
Proof. repeat split; reflexivity. Qed.

(** C04: boundaries. *)
Theorem c04_next_start : forall c L st en tp sg rc p, fixed_cycle c L ->
  mk_anchored c st en tp sg rc = Ok p ->
  forall t, first_after (fun k => k * L + a_start p) t (next_start p t).
Proof. exact fixed_next_start. Qed.
Print Assumptions c04_next_start.

Theorem c04_next_end : forall c L st en tp sg rc p, fixed_cycle c L ->
  mk_anchored c st en tp sg rc = Ok p ->
  forall t, first_after (fun k => k * L + a_end p) t (next_end p t).
Proof. exact fixed_next_end. Qed.
Print Assumptions c04_next_end.

Theorem c04_prev_start : forall c L st en tp sg rc p, fixed_cycle c L ->
  mk_anchored c st en tp sg rc = Ok p ->
  forall t, last_until (fun k => k * L + a_start p) t (prev_start p t).
Proof. exact fixed_prev_start. Qed.
Print Assumptions c04_prev_start.

Theorem c04_prev_end : forall c L st en tp sg rc p, fixed_cycle c L ->
  mk_anchored c st en tp sg rc = Ok p ->
  forall t, last_until (fun k => k * L + a_end p) t (prev_end p t).
Proof. exact fixed_prev_end. Qed.
Print Assumptions c04_prev_end.

Example c04_nonvacuous :
  next_start (Anchored TDay (22 * us_hour) (6 * us_hour)) (mk_datetime 2022 12 31 22 0 0 0) = mk_datetime 2023 1 1 22 0 0 0 /\
  prev_end (Anchored TDay (22 * us_hour) (6 * us_hour)) (mk_datetime 2023 1 1 5 59 0 0) = mk_datetime 2022 12 31 6 0 0 0.
Proof. split; reflexivity. Qed.

(** C05: rollforward, for every accepted period that contains some moment. *)
Theorem c05_rollforward : forall c L st en tp sg rc p u, fixed_cycle c L ->
  mk_anchored c st en tp sg rc = Ok p -> acontains p u = true ->
  forall fuel t, exists i, arollforward (S fuel) p t = Returns i /\
    rollforward_spec (every_L L) (a_start p) (a_end p) t i.
Proof.
  exact (fun c L st en tp sg rc p u HL Hp Hu =>
    fixed_rollforward c L st en tp sg rc p HL Hp (nonempty_not_corner c L st en tp sg rc p u HL Hp Hu)).
Qed.
Print Assumptions c05_rollforward.
Example c05_rollforward_met : mk_anchored TDay (Some (VClock (22 * us_hour))) (Some (VClock (6 * us_hour))) false false false = Ok (Anchored TDay (22 * us_hour) (6 * us_hour)) /\
  acontains (Anchored TDay (22 * us_hour) (6 * us_hour)) 0 = true.
Proof. split; vm_compute; reflexivity. Qed.

Theorem c05_membership_agrees : forall c L st en tp sg rc p, fixed_cycle c L ->
  mk_anchored c st en tp sg rc = Ok p ->
  forall t, acontains p t = true <-> in_period (every_L L) (a_start p) (a_end p) t.
Proof. exact fixed_contains_iff. Qed.
Print Assumptions c05_membership_agrees.

Theorem c05_in_period_iff_in_rollforward : forall c L st en tp sg rc p u fuel t i,
  fixed_cycle c L -> mk_anchored c st en tp sg rc = Ok p -> acontains p u = true ->
  arollforward (S fuel) p t = Returns i -> (acontains p t = true <-> left i <= t < right i).
Proof. exact rollforward_membership. Qed.
Print Assumptions c05_in_period_iff_in_rollforward.

(** Without a moment in the period (start at the very end of the cycle, end at
    its very start, e.g. TimeOfHour("60:00", "00:00")), rollforward recurses for ever. *)
Theorem c05_empty_period_diverges :
  exists p, period THour (Some (VClock (60 * us_minute))) (Some (VClock 0)) = Ok p /\
  forall fuel t, arollforward fuel p t = OutOfFuel.
Proof. exact (ex_intro _ corner (conj eq_refl corner_rollforward)). Qed.
Print Assumptions c05_empty_period_diverges.

Example c05_nonvacuous :
  arollforward 1 (Anchored TDay (22 * us_hour) (6 * us_hour)) (mk_datetime 2022 12 31 23 0 0 0)
    = Returns (Interval (mk_datetime 2022 12 31 23 0 0 0) (mk_datetime 2023 1 1 6 0 0 0) CLeft) /\
  arollforward 1 (Anchored TDay (22 * us_hour) (6 * us_hour)) (mk_datetime 2022 12 31 6 0 0 0)
    = Returns (Interval (mk_datetime 2022 12 31 22 0 0 0) (mk_datetime 2023 1 1 6 0 0 0) CLeft).
Proof. split; reflexivity. Qed.

(** C06: rollback. *)
Theorem c06_rollback : forall c L st en tp sg rc p u, fixed_cycle c L ->
  mk_anchored c st en tp sg rc = Ok p -> acontains p u = true ->
  forall t, is_full p = false -> exists i, arollback p t = Ok i /\
    rollback_spec (every_L L) (a_start p) (a_end p) t i.
Proof.
  exact (fun c L st en tp sg rc p u HL Hp Hu =>
    fixed_rollback c L st en tp sg rc p HL Hp (nonempty_not_corner c L st en tp sg rc p u HL Hp Hu)).
Qed.
Print Assumptions c06_rollback.

(** Periods covering whole cycles. *)
Theorem c06_rollback_full_cycle : forall c L st en tp sg rc p, fixed_cycle c L ->
  mk_anchored c st en tp sg rc = Ok p ->
  forall t, is_full p = true -> exists i, arollback p t = Ok i /\
    rollback_full_spec (every_L L) (a_start p) (a_end p) t i.
Proof. exact fixed_rollback_full. Qed.
Print Assumptions c06_rollback_full_cycle.

Example c06_nonvacuous :
  is_full (Anchored TDay (22 * us_hour) (6 * us_hour)) = false /\
  arollback (Anchored TDay (22 * us_hour) (6 * us_hour)) (mk_datetime 2022 12 31 12 0 0 0)
    = Ok (Interval (mk_datetime 2022 12 30 22 0 0 0) (mk_datetime 2022 12 31 6 0 0 0) CLeft) /\
  arollback (Anchored TDay (22 * us_hour) (6 * us_hour)) (mk_datetime 2022 12 31 1 0 0 0)
    = Ok (Interval (mk_datetime 2022 12 30 22 0 0 0) (mk_datetime 2022 12 31 1 0 0 0) CLeft) /\
  is_full (Anchored TDay 0 us_day) = true /\
  arollback (Anchored TDay 0 us_day) (mk_datetime 2023 1 1 0 0 0 0)
    = Ok (Interval (mk_datetime 2022 12 31 0 0 0 0) (mk_datetime 2023 1 1 0 0 0 0) CLeft).
Proof. repeat split; reflexivity. Qed.
