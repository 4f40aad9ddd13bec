(** C07, C08: days of the month and months of the year. *)
From Verif Require Import Model.Base Model.Interval Model.Calendar Model.Anchored
  Spec.CalendarSpec Spec.PeriodSpec Proofs.ClockProofs Proofs.MonthProofs Proofs.YearProofs.
From Coq Require Import Lia.
Open Scope Z_scope.

(** C07, membership: day numbers and day names, any month. *)
Theorem c07_membership_integers : forall i j p t,
  period TMonth (Some (VInt i)) (Some (VInt j)) = Ok p ->
  (acontains p t = true <-> cyc_between i j (dt_day t)).
Proof. exact (fun i j p t => period_int_range TMonth i j p t ltac:(discriminate)). Qed.
Print Assumptions c07_membership_integers.

Theorem c07_membership_names : forall n m p t,
  period TMonth (Some (VUnit n None)) (Some (VUnit m None)) = Ok p ->
  (acontains p t = true <-> cyc_between n m (dt_day t)).
Proof. exact period_month_names. Qed.
Print Assumptions c07_membership_names.

Theorem c07_membership_times : forall n m a b p t, 0 <= a < us_day -> 0 <= b < us_day ->
  period TMonth (Some (VUnit n (Some a))) (Some (VUnit m (Some b))) = Ok p ->
  (acontains p t = true <->
   clock_range ((n - 1) * us_day + a) ((m - 1) * us_day + b) ((dt_day t - 1) * us_day + t mod us_day)).
Proof. exact period_month_times. Qed.
Print Assumptions c07_membership_times.

Theorem c07_membership_at : forall i p t, 1 <= i <= 31 ->
  period_at TMonth (VInt i) = Ok p -> (acontains p t = true <-> dt_day t = i).
Proof. exact (fun i p t => period_at_int TMonth i p t ltac:(discriminate)). Qed.
Print Assumptions c07_membership_at.

Example c07_membership_nonvacuous :
  period TMonth (Some (VInt 25)) (Some (VInt 3)) = Ok (Anchored TMonth (24 * us_day) (3 * us_day)) /\
  acontains (Anchored TMonth (24 * us_day) (3 * us_day)) (mk_datetime 2024 2 29 12 0 0 0) = true /\
  acontains (Anchored TMonth (24 * us_day) (3 * us_day)) (mk_datetime 2024 3 4 0 0 0 0) = false /\
  period_at TMonth (VInt 31) = Ok (Anchored TMonth (30 * us_day) 0).
Proof. repeat split; reflexivity. Qed.

(** C07, rolls.  Partial: both anchors within the first 28 days of the month,
    the part every month has.  Missing: anchors on days 29-31 and the open end
    of a month (refuted below). *)
Theorem c07_rollforward_partial : forall s e,
  0 <= s <= 28 * us_day -> 0 <= e <= 28 * us_day -> ~ (s = 28 * us_day /\ e = 0) ->
  forall fuel t, exists i, arollforward (S fuel) (Anchored TMonth s e) t = Returns i /\
    rollforward_spec month_begin s e t i.
Proof. exact month_rollforward. Qed.
Print Assumptions c07_rollforward_partial.

Theorem c07_rollback_partial : forall s e,
  0 <= s <= 28 * us_day -> 0 <= e <= 28 * us_day -> ~ (s = 28 * us_day /\ e = 0) ->
  forall t, is_full (Anchored TMonth s e) = false ->
  exists i, arollback (Anchored TMonth s e) t = Ok i /\ rollback_spec month_begin s e t i.
Proof. exact month_rollback. Qed.
Print Assumptions c07_rollback_partial.

Theorem c07_rollback_full_partial : forall s e,
  0 <= s <= 28 * us_day -> 0 <= e <= 28 * us_day ->
  forall t, is_full (Anchored TMonth s e) = true ->
  exists i, arollback (Anchored TMonth s e) t = Ok i /\ rollback_full_spec month_begin s e t i.
Proof. exact month_rollback_full. Qed.
Print Assumptions c07_rollback_full_partial.

Theorem c07_boundaries_partial : forall s e t, 0 <= s <= 28 * us_day ->
  first_after (fun k => month_begin k + s) t (next_start (Anchored TMonth s e) t) /\
  last_until (fun k => month_begin k + s) t (prev_start (Anchored TMonth s e) t).
Proof. exact month_starts_any_end. Qed.
Print Assumptions c07_boundaries_partial.

(** Whole months (TimeOfMonth(), "monthly"): rollback is the elapsed part of the month. *)
Theorem c07_whole_month_rollback : forall t,
  exists i, arollback (Anchored TMonth 0 (31 * us_day)) t = Ok i /\
  closed i = CLeft /\ right i = t /\
  exists k, left i = month_begin k /\ month_begin k < t <= month_begin (k + 1).
Proof. exact whole_month_rollback. Qed.
Print Assumptions c07_whole_month_rollback.

Example c07_rolls_nonvacuous :
  period TMonth (Some (VInt 25)) (Some (VInt 3)) = Ok (Anchored TMonth (24 * us_day) (3 * us_day)) /\
  period TMonth None None = Ok (Anchored TMonth 0 (31 * us_day)) /\
  arollforward 1 (Anchored TMonth (24 * us_day) (3 * us_day)) (mk_datetime 2024 2 26 0 0 0 0)
    = Returns (Interval (mk_datetime 2024 2 26 0 0 0 0) (mk_datetime 2024 3 4 0 0 0 0) CLeft) /\
  arollback (Anchored TMonth (24 * us_day) (3 * us_day)) (mk_datetime 2024 3 10 0 0 0 0)
    = Ok (Interval (mk_datetime 2024 2 25 0 0 0 0) (mk_datetime 2024 3 4 0 0 0 0) CLeft).
Proof. repeat split; reflexivity. Qed.

(** C07 fails for days a month lacks: the 30th, asked on 10 February 2023, "starts" on 2 March, *)
Theorem c07_missing_day_refuted : exists p t i,
  period_at TMonth (VInt 30) = Ok p /\ t = mk_datetime 2023 2 10 0 0 0 0 /\
  arollforward 1 p t = Returns i /\ left i = mk_datetime 2023 3 2 0 0 0 0 /\
  acontains p (left i) = false.
Proof.
  exact (ex_intro _ (Anchored TMonth (29 * us_day) (30 * us_day)) (ex_intro _ _ (ex_intro _
    (Interval (mk_datetime 2023 3 2 0 0 0 0) (mk_datetime 2023 3 3 0 0 0 0) CLeft)
    (conj eq_refl (conj eq_refl (conj eq_refl (conj eq_refl eq_refl))))))).
Qed.
Print Assumptions c07_missing_day_refuted.

(** ... the month "from 10 February" ends on 4 March, *)
Theorem c07_whole_month_rollforward_refuted : exists p t i,
  period TMonth None None = Ok p /\ t = mk_datetime 2023 2 10 0 0 0 0 /\
  arollforward 1 p t = Returns i /\ right i = mk_datetime 2023 3 4 0 0 0 0.
Proof.
  exact (ex_intro _ (Anchored TMonth 0 (31 * us_day)) (ex_intro _ _ (ex_intro _
    (Interval (mk_datetime 2023 2 10 0 0 0 0) (mk_datetime 2023 3 4 0 0 0 0) CLeft)
    (conj eq_refl (conj eq_refl (conj eq_refl eq_refl)))))).
Qed.
Print Assumptions c07_whole_month_rollforward_refuted.

(** ... and the latest past "5th till month end", asked on 2 March, ends on 4 March, in the future. *)
Theorem c07_rollback_future_refuted : exists p t i,
  period TMonth (Some (VInt 5)) None = Ok p /\ t = mk_datetime 2023 3 2 0 0 0 0 /\
  arollback p t = Ok i /\ right i = mk_datetime 2023 3 4 0 0 0 0 /\ t < right i.
Proof.
  exact (ex_intro _ (Anchored TMonth (4 * us_day) (31 * us_day)) (ex_intro _ _ (ex_intro _
    (Interval (mk_datetime 2023 2 5 0 0 0 0) (mk_datetime 2023 3 4 0 0 0 0) CLeft)
    (conj eq_refl (conj eq_refl (conj eq_refl (conj eq_refl eq_refl))))))).
Qed.
Print Assumptions c07_rollback_future_refuted.

(** C08, membership: exactly the months of the range, less the one microsecond
    [left_out] at the end of the last month. *)
Theorem c08_membership_integers : forall i j p t,
  period TYear (Some (VInt i)) (Some (VInt j)) = Ok p ->
  (acontains p t = true <-> cyc_between i j (dt_month t) /\ ~ left_out j t).
Proof. exact period_year_int. Qed.
Print Assumptions c08_membership_integers.

Theorem c08_membership_names : forall i j p t, 1 <= i <= 12 -> 1 <= j <= 12 ->
  period TYear (Some (VUnit (i - 1) None)) (Some (VUnit (j - 1) None)) = Ok p ->
  (acontains p t = true <-> cyc_between i j (dt_month t) /\ ~ left_out j t).
Proof. exact period_year_names. Qed.
Print Assumptions c08_membership_names.

Theorem c08_membership_at : forall i p t,
  period_at TYear (VInt i) = Ok p ->
  (acontains p t = true <-> dt_month t = i /\ ~ left_out i t).
Proof. exact period_at_year. Qed.
Print Assumptions c08_membership_at.

Theorem c08_months_accepted : forall i j, 1 <= i <= 12 -> 1 <= j <= 12 ->
  exists p, period TYear (Some (VInt i)) (Some (VInt j)) = Ok p.
Proof. exact period_year_int_accepted. Qed.
Print Assumptions c08_months_accepted.

Example c08_membership_nonvacuous :
  period TYear (Some (VInt 11)) (Some (VInt 2)) = Ok (Anchored TYear (305 * us_day) (60 * us_day - 1)) /\
  acontains (Anchored TYear (305 * us_day) (60 * us_day - 1)) (mk_datetime 2024 2 29 23 59 59 999998) = true /\
  acontains (Anchored TYear (305 * us_day) (60 * us_day - 1)) (mk_datetime 2024 2 29 23 59 59 999999) = false /\
  acontains (Anchored TYear (305 * us_day) (60 * us_day - 1)) (mk_datetime 2023 2 28 23 59 59 999999) = true /\
  period_at TYear (VInt 12) = Ok (Anchored TYear (335 * us_day) (366 * us_day - 1)).
Proof. repeat split; reflexivity. Qed.

(** C08, boundaries, exact up to a drift of 0-2 days caused by the leap-year
    axis.  Partial: the property asks for drift 0.  It is 0, e.g., within a
    leap year, or between moments on the same side of the end of February. *)
Theorem c08_next_start_partial : forall i en tp sg rc p t,
  mk_anchored TYear (Some (VInt i)) en tp sg rc = Ok p ->
  first_after (month_of_year_begin i) t (next_start p t - forward_drift i t * us_day).
Proof. exact year_next_start_period. Qed.
Print Assumptions c08_next_start_partial.

Theorem c08_prev_start_partial : forall i en tp sg rc p t,
  mk_anchored TYear (Some (VInt i)) en tp sg rc = Ok p ->
  last_until (month_of_year_begin i) t (prev_start p t + backward_drift i t * us_day).
Proof. exact year_prev_start_period. Qed.
Print Assumptions c08_prev_start_partial.

Example c08_boundaries_nonvacuous :
  period TYear (Some (VInt 6)) (Some (VInt 8)) = Ok (Anchored TYear (152 * us_day) (244 * us_day - 1)) /\
  forward_drift 6 (mk_datetime 2024 1 15 0 0 0 0) = 0 /\
  forward_drift 1 (mk_datetime 2023 6 15 0 0 0 0) = 0 /\
  forward_drift 3 (mk_datetime 2022 1 15 0 0 0 0) = 1 /\
  backward_drift 6 (mk_datetime 2023 8 15 0 0 0 0) = 0 /\
  backward_drift 1 (mk_datetime 2023 6 15 0 0 0 0) = 1.
Proof. repeat split; reflexivity. Qed.

(** C08 refuted: "June", asked on 15 January 2023, starts on 2 June, *)
Theorem c08_rollforward_common_year_refuted : exists p t i,
  period_at TYear (VInt 6) = Ok p /\ t = mk_datetime 2023 1 15 0 0 0 0 /\
  arollforward 1 p t = Returns i /\ left i = mk_datetime 2023 6 2 0 0 0 0.
Proof.
  exact (ex_intro _ (Anchored TYear (152 * us_day) (182 * us_day - 1)) (ex_intro _ _ (ex_intro _
    (Interval (mk_datetime 2023 6 2 0 0 0 0) (mk_datetime 2023 7 1 23 59 59 999999) CLeft)
    (conj eq_refl (conj eq_refl (conj eq_refl eq_refl)))))).
Qed.
Print Assumptions c08_rollforward_common_year_refuted.

(** ... and the year so far ("yearly"), asked on 15 June 2023, starts on 31 December 2022. *)
Theorem c08_year_to_date_refuted : exists p t i,
  period TYear None None = Ok p /\ t = mk_datetime 2023 6 15 0 0 0 0 /\
  arollback p t = Ok i /\ left i = mk_datetime 2022 12 31 0 0 0 0.
Proof.
  exact (ex_intro _ (Anchored TYear 0 (366 * us_day)) (ex_intro _ _ (ex_intro _
    (Interval (mk_datetime 2022 12 31 0 0 0 0) (mk_datetime 2023 6 15 0 0 0 0) CLeft)
    (conj eq_refl (conj eq_refl (conj eq_refl eq_refl)))))).
Qed.
Print Assumptions c08_year_to_date_refuted.
