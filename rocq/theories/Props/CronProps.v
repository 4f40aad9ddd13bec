(** C14: crontab expressions. *)
From Coq Require Import ZArith List.
From Verif Require Import Model.Base Model.Interval Model.Calendar Model.Anchored Model.Period Model.Cron
  Spec.PeriodSpec Spec.AlgebraSpec Spec.CronSpec Proofs.CronProofs Proofs.CronForwardProofs Proofs.CronMatchProofs Proofs.CronExamples.
Import ListNotations.
Open Scope Z_scope.

(** Whenever the code answers whether a moment is in the period of a line, it
    answers as crontab does.  Missing: the lines [cron_ok] leaves out, the last
    microsecond of months, and that there is an answer (below). *)
Theorem c14_membership_partial : forall e fuel t b, cron_ok e -> month_settled e t ->
  cron_contains fuel e t = Returns b -> (b = true <-> cron_match e t).
Proof. exact cron_membership. Qed.
Print Assumptions c14_membership_partial.

(** ... and it does answer, for lines that do not restrict months and name only
    days of month that every month has. *)
Theorem c14_answers_partial : forall e t, cron_ok e -> every_month e ->
  exists b, eventually (fun fuel => cron_contains fuel e t) b /\ (b = true <-> cron_match e t).
Proof. exact cron_answers. Qed.
Print Assumptions c14_answers_partial.

(** For those lines rolling forward finds the first matching moment. *)
Theorem c14_next_match_partial : forall e t, cron_ok e -> every_month e ->
  exists i, eventually (fun fuel => cron_rollforward fuel e t) i /\ forward_at (cron_match e) t i.
Proof. exact cron_forward. Qed.
Print Assumptions c14_next_match_partial.

Example c14_nonvacuous : (cron_ok ex_line /\ every_month ex_line) /\
  cron_contains 20 ex_line (mk_datetime 2024 6 15 8 30 59 0) = Returns true /\   (* a Saturday, the 15th *)
  cron_contains 20 ex_line (mk_datetime 2024 6 17 17 45 0 0) = Returns true /\   (* a Monday *)
  cron_contains 20 ex_line (mk_datetime 2024 6 16 8 30 0 0) = Returns false /\   (* a Sunday *)
  cron_contains 20 ex_line (mk_datetime 2024 6 17 17 46 0 0) = Returns false.
Proof. split; [exact ex_line_ok|vm_compute; repeat split; reflexivity]. Qed.

(** A matching moment is always recognised, and at once, whatever months the line names: unless the
    line names the 31st in a month that does not have it (refuted below). *)
Theorem c14_recognised_partial : forall e t fuel, cron_ok e -> month_settled e t -> no_31_missing e t ->
  cron_match e t -> cron_contains (S fuel) e t = Returns true.
Proof. exact cron_recognised. Qed.
Print Assumptions c14_recognised_partial.

Example c14_recognised_met : (cron_ok june_first /\ month_settled june_first (mk_datetime 2023 6 1 0 0 0 0) /\
  no_31_missing june_first (mk_datetime 2023 6 1 0 0 0 0)) /\ cron_match june_first (mk_datetime 2023 6 1 0 0 0 0).
Proof. exact (conj june_first_ok (proj1 june_first_wrong)). Qed.

(** "1-5/2" as days of the week: not on Monday, but on Tuesday. *)
Theorem c14_numeric_step_range_refuted : exists e t, e = Cron star star star star [CRange (CNum 1) (CNum 5) (Some 2)] /\
  cron_match e t /\ cron_contains 5 e t = Returns false /\
  ~ cron_match e (t + us_day) /\ cron_contains 5 e (t + us_day) = Returns true.
Proof. exact (ex_intro _ step_range (ex_intro _ monday (conj eq_refl step_range_wrong))). Qed.
Print Assumptions c14_numeric_step_range_refuted.

(** "5/15" minutes: the question has no answer at all, the call never returns. *)
Theorem c14_value_step_refuted : exists e t, e = Cron [CAt (CNum 5) (Some 15)] star star star star /\
  cron_match e t /\ forall fuel u, cron_contains fuel e u = OutOfFuel.
Proof. exact (ex_intro _ value_step (ex_intro _ _ (conj eq_refl value_step_wrong))). Qed.
Print Assumptions c14_value_step_refuted.

(** "*,5" minutes means 5 only. *)
Theorem c14_star_in_list_refuted : exists e t, e = Cron [CStar; CAt (CNum 5) None] star star star star /\
  cron_match e t /\ cron_contains 5 e t = Returns false.
Proof. exact (ex_intro _ star_in_list (ex_intro _ monday (conj eq_refl star_in_list_wrong))). Qed.
Print Assumptions c14_star_in_list_refuted.

(** "*/2" as days of the week counts from Monday, not from Sunday. *)
Theorem c14_day_of_week_step_refuted : exists e t, e = Cron star star star star [CStarStep 2] /\
  ~ cron_match e t /\ cron_contains 5 e t = Returns true.
Proof. exact (ex_intro _ dow_step (ex_intro _ monday (conj eq_refl dow_step_wrong))). Qed.
Print Assumptions c14_day_of_week_step_refuted.

(** "0-7" as days of the week means Sunday only. *)
Theorem c14_day_of_week_0_7_refuted : exists e t, e = Cron star star star star [CRange (CNum 0) (CNum 7) None] /\
  cron_match e t /\ cron_contains 5 e t = Returns false.
Proof. exact (ex_intro _ dow_0_7 (ex_intro _ monday (conj eq_refl dow_0_7_wrong))). Qed.
Print Assumptions c14_day_of_week_0_7_refuted.

(** The last microsecond of May is not in month 5. *)
Theorem c14_month_end_refuted : exists e t, e = Cron star star star [CAt (CNum 5) None] star /\
  cron_match e t /\ cron_contains 5 e t = Returns false.
Proof. exact (ex_intro _ may (ex_intro _ _ (conj eq_refl may_wrong))). Qed.
Print Assumptions c14_month_end_refuted.

(** Day 31 asked in February raises ValueError. *)
Theorem c14_day_31_refuted : exists e t, e = Cron star star [CAt (CNum 31) None] star star /\
  cron_ok e /\ forall fuel, cron_contains (S fuel) e t = Raises ValueError.
Proof. exact (ex_intro _ day31 (ex_intro _ (mk_datetime 2023 2 10 0 0 0 0) (conj eq_refl day31_wrong))). Qed.
Print Assumptions c14_day_31_refuted.

(** "0 0 1 6 *" rolled forward from 15 January 2023 skips 1 June 2023. *)
Theorem c14_next_match_month_refuted : exists e, e = june_first /\
  cron_match e (mk_datetime 2023 6 1 0 0 0 0) /\
  cron_contains 5 e (mk_datetime 2023 6 1 0 0 0 0) = Returns true /\
  exists i, cron_rollforward 20 e (mk_datetime 2023 1 15 0 0 0 0) = Returns i /\
    left i = mk_datetime 2024 6 1 0 0 0 0.
Proof. exact (ex_intro _ june_first (conj eq_refl june_first_wrong)). Qed.
Print Assumptions c14_next_match_month_refuted.
