(** C60: times written as texts. *)
From Coq Require Import List Ascii String ZArith.
From Verif Require Import Model.Base Model.Calendar Model.Anchored Model.Statement Model.AnchorText
  Spec.StatementSpec Spec.PeriodSpec Spec.AnchorTextSpec.
From Verif Require Import Proofs.AnchorTextResults Proofs.AnchorTextSentences Proofs.AnchorTextExamples.
Import ListNotations.
Local Open Scope Z_scope.
Local Open Scope list_scope.

(** From one text to another: from the beginning of what the first one spells until the end of what
    the second one spells. *)
Theorem c60_between : forall clock millis, reads_clock clock ->
  forall c a b f u f' u', c <> TYear -> spelled c a f u -> spelled c b f' u' ->
  exists p, period_text clock millis c (Some a) (Some b) false false false = Ok p /\
    forall t, acontains p t = true <-> clock_range f u' (since_start c t).
Proof. exact text_between. Qed.
Print Assumptions c60_between.

Example c60_between_nonvacuous : reads_clock ex_reader /\
  spelled TMinute (txt "07.25") (7 * us_second + 250000) (7 * us_second + 250000) /\
  spelled THour (txt "45:30") (45 * us_minute + 30 * us_second + 0) (45 * us_minute + 30 * us_second + 0) /\
  spelled TDay (txt "18:30") (18 * us_hour + 30 * us_minute) (18 * us_hour + 30 * us_minute) /\
  spelled TWeek (txt "Mon") (0 * us_day) ((0 + 1) * us_day) /\
  spelled TWeek (txt "FRIDAY 18:30") (4 * us_day + (18 * us_hour + 30 * us_minute))
    (4 * us_day + (18 * us_hour + 30 * us_minute)) /\
  spelled TMonth (txt "5th 9:05:59") ((5 - 1) * us_day + (9 * us_hour + 5 * us_minute + 59 * us_second))
    ((5 - 1) * us_day + (9 * us_hour + 5 * us_minute + 59 * us_second)) /\
  spelled TYear (txt "Feb 5th") ((31 + 5 - 1) * us_day) ((31 + 5) * us_day).
Proof. exact (conj ex_reads ex_all). Qed.

(** After a text, until the end of the cycle. *)
Theorem c60_after : forall clock millis, reads_clock clock ->
  forall c a f u, spelled c a f u ->
  exists p, period_text clock millis c (Some a) None false false false = Ok p /\
    forall t, acontains p t = true <-> f <= since_start c t.
Proof. exact text_after. Qed.
Print Assumptions c60_after.

(** From the beginning of the cycle until a text. *)
Theorem c60_before : forall clock millis, reads_clock clock ->
  forall c b f u, c <> TYear -> spelled c b f u -> 0 < u ->
  exists p, period_text clock millis c None (Some b) false false false = Ok p /\
    forall t, acontains p t = true <-> since_start c t < u.
Proof. exact text_before. Qed.
Print Assumptions c60_before.

Example c60_before_nonvacuous : spelled TWeek (txt "Mon") (0 * us_day) ((0 + 1) * us_day) /\ 0 < (0 + 1) * us_day.
Proof. exact (conj ex_week eq_refl). Qed.

(** On a text that names a day: that day. *)
Theorem c60_on_day : forall clock millis, reads_clock clock ->
  forall c a f u, c <> TYear -> spelled c a f u -> f < u ->
  exists p, period_text clock millis c (Some a) None true false false = Ok p /\
    forall t, acontains p t = true <-> f <= since_start c t < u.
Proof. exact text_on_name. Qed.
Print Assumptions c60_on_day.

Example c60_on_day_nonvacuous : spelled TWeek (txt "Mon") (0 * us_day) ((0 + 1) * us_day) /\
  0 * us_day < (0 + 1) * us_day.
Proof. exact (conj ex_week eq_refl). Qed.

(** On a text that spells a moment: for one unit of the cycle from that moment. *)
Theorem c60_on_moment : forall clock millis, reads_clock clock ->
  forall c a f, c <> TYear -> spelled c a f f ->
  exists p, period_text clock millis c (Some a) None true false false = Ok p /\
    forall t, acontains p t = true <-> clock_range f ((f + unit_length c) mod cycle_length c) (since_start c t).
Proof. exact text_on_moment. Qed.
Print Assumptions c60_on_moment.

Example c60_on_moment_nonvacuous : spelled TDay (txt "18:30") (18 * us_hour + 30 * us_minute) (18 * us_hour + 30 * us_minute).
Proof. exact (spelled_day _ _ ex_clock). Qed.

(** From month to month.  Not the whole of the second one is meant: its last microsecond is missing. *)
Theorem c60_months_partial : forall clock millis, reads_clock clock -> forall a b w w' f n f' n', In (w, (f, n)) months -> names a w ->
  In (w', (f', n')) months -> names b w' ->
  exists p, period_text clock millis TYear (Some a) (Some b) false false false = Ok p /\
    forall t, acontains p t = true <-> clock_range (f * us_day) (n' * us_day - 1) (since_start TYear t).
Proof. exact text_months. Qed.
Print Assumptions c60_months_partial.

Example c60_months_nonvacuous : names (txt "Feb") "february" /\ names (txt "december") "december".
Proof. exact (conj ex_february ex_december). Qed.

(** Quarters of an hour. *)
Theorem c60_quarters : forall clock millis d q n, digit_of d n -> 1 <= n <= 4 ->
  In q ["q"; " q"; "quarter"; " quarter"]%string ->
  exists p, period_text clock millis THour None (Some (d :: txt q)) false false false = Ok p /\
    forall t, acontains p t = true <-> since_start THour t < n * (15 * us_minute).
Proof. exact quarters. Qed.
Print Assumptions c60_quarters.

Example c60_quarters_nonvacuous : digit_of "3" 3 /\ txt "3 quarter" = "3"%char :: txt " quarter".
Proof. exact (conj ex_three eq_refl). Qed.

(** Sentences with such texts. *)
Theorem c60_time_between : forall clock millis other_call, reads_clock clock ->
  forall w c a b f u f' u', unit_word w c -> spelled c a f u -> spelled c b f' u' ->
  exists p, condition_item (make_text clock millis other_call) cond_parsers
      (txt "time of " ++ txt w ++ txt " between " ++ a ++ txt " and " ++ b) = Ok (KAtom (AIsPeriod p)) /\
    forall t, acontains p t = true <-> clock_range f u' (since_start c t).
Proof. exact time_between. Qed.
Print Assumptions c60_time_between.

Example c60_time_between_nonvacuous : unit_word "week" TWeek /\
  txt "time of week between Mon and FRIDAY 18:30" =
    txt "time of " ++ txt "week" ++ txt " between " ++ txt "Mon" ++ txt " and " ++ txt "FRIDAY 18:30".
Proof. exact (conj ex_unit_week eq_refl). Qed.

Theorem c60_time_after : forall clock millis other_call, reads_clock clock ->
  forall w c a f u, unit_word w c -> spelled c a f u ->
  exists p, condition_item (make_text clock millis other_call) cond_parsers
      (txt "time of " ++ txt w ++ txt " after " ++ a) = Ok (KAtom (AIsPeriod p)) /\
    forall t, acontains p t = true <-> f <= since_start c t.
Proof. exact time_after. Qed.
Print Assumptions c60_time_after.

Theorem c60_time_before : forall clock millis other_call, reads_clock clock ->
  forall w c b f u, unit_word w c -> spelled c b f u -> 0 < u ->
  exists p, condition_item (make_text clock millis other_call) cond_parsers
      (txt "time of " ++ txt w ++ txt " before " ++ b) = Ok (KAtom (AIsPeriod p)) /\
    forall t, acontains p t = true <-> since_start c t < u.
Proof. exact time_before. Qed.
Print Assumptions c60_time_before.

Theorem c60_cycle_between : forall clock millis other_call, reads_clock clock ->
  forall w c a b f u f' u', cycle_word w c -> spelled c a f u -> spelled c b f' u' ->
  exists p, condition_item (make_text clock millis other_call) cond_parsers
      (txt w ++ txt " between " ++ a ++ txt " and " ++ b) = Ok (KAtom (AExecutable p)) /\
    forall t, acontains p t = true <-> clock_range f u' (since_start c t).
Proof. exact cycle_between. Qed.
Print Assumptions c60_cycle_between.

Example c60_cycle_between_nonvacuous : cycle_word "weekly" TWeek /\
  txt "weekly between Mon and FRIDAY 18:30" =
    txt "weekly" ++ txt " between " ++ txt "Mon" ++ txt " and " ++ txt "FRIDAY 18:30".
Proof. exact (conj ex_cycle_week eq_refl). Qed.

Theorem c60_cycle_on : forall clock millis other_call, reads_clock clock ->
  forall w c a f u, cycle_word w c -> spelled c a f u -> f < u ->
  exists p, condition_item (make_text clock millis other_call) cond_parsers (txt w ++ txt " on " ++ a) =
      Ok (KAtom (AExecutable p)) /\
    forall t, acontains p t = true <-> f <= since_start c t < u.
Proof. exact cycle_on. Qed.
Print Assumptions c60_cycle_on.

(** Texts that name no day, no month, no time are refused, though with various exceptions. *)
Theorem c60_unknown_day : forall clock millis s w e tp sg rc, first_word s w ->
  (forall d n, In (d, n) days -> ~ names w d) -> period_text clock millis TWeek (Some s) e tp sg rc = Err ValueError.
Proof. exact unknown_day. Qed.
Print Assumptions c60_unknown_day.

Example c60_unknown_day_nonvacuous : first_word (txt "12 Foo 3") (txt "Foo") /\
  forall d n, In (d, n) days -> ~ names (txt "Foo") d.
Proof. exact (conj ex_first ex_no_day). Qed.

Theorem c60_unknown_month : forall clock millis s w e tp sg rc, first_word s w ->
  (forall m f n, In (m, (f, n)) months -> ~ names w m) ->
  period_text clock millis TYear (Some s) e tp sg rc = Err KeyError.
Proof. exact unknown_month. Qed.
Print Assumptions c60_unknown_month.

Example c60_unknown_month_nonvacuous : first_word (txt "12 Foo 3") (txt "Foo") /\
  forall m f n, In (m, (f, n)) months -> ~ names (txt "Foo") m.
Proof. exact (conj ex_first ex_no_month). Qed.

Theorem c60_no_word : forall clock millis c s e tp sg rc, c = TWeek \/ c = TYear ->
  (forall x, In x s -> ~ letter x) -> period_text clock millis c (Some s) e tp sg rc = Err AttributeError.
Proof. exact no_word. Qed.
Print Assumptions c60_no_word.

Example c60_no_word_nonvacuous : forall x, In x (txt "12") -> ~ letter x.
Proof. exact ex_digits_only. Qed.

Theorem c60_no_day : forall clock millis s e tp sg rc, (forall x, In x s -> ~ decimal x) ->
  period_text clock millis TMonth (Some s) e tp sg rc = Err AttributeError.
Proof. exact no_day. Qed.
Print Assumptions c60_no_day.

Example c60_no_day_nonvacuous : forall x, In x (txt "Foo") -> ~ decimal x.
Proof. exact ex_letters_only. Qed.

Theorem c60_no_minutes : forall clock millis s e tp sg rc, (forall x, In x s -> ~ decimal x) ->
  period_text clock millis THour (Some s) e tp sg rc = Err ValueError.
Proof. exact no_minutes. Qed.
Print Assumptions c60_no_minutes.

Theorem c60_no_seconds : forall clock millis s e tp sg rc,
  (forall pre a b post, s = pre ++ a :: b :: post -> ~ (decimal a /\ decimal b)) ->
  period_text clock millis TMinute (Some s) e tp sg rc = Err TypeError.
Proof. exact no_seconds. Qed.
Print Assumptions c60_no_seconds.

Example c60_no_seconds_nonvacuous : forall pre a b post, txt "5 s" = pre ++ a :: b :: post -> ~ (decimal a /\ decimal b).
Proof. exact ex_one_digit. Qed.

(** Before midnight, 00:00, is at no time of the day; the period covers all of it. *)
Theorem c60_midnight_refuted : forall clock millis, reads_clock clock ->
  exists p, period_text clock millis TDay None (Some (txt "00:00")) false false false = Ok p /\
    forall t, acontains p t = true.
Proof. exact before_midnight. Qed.
Print Assumptions c60_midnight_refuted.

(** A day of the year is not part of a period that ends with it, unlike days of the week or month. *)
Theorem c60_year_end_refuted : forall clock millis, reads_clock clock ->
  forall b d w f n day, In (w, (f, n)) months -> names b w -> day_text d day -> day <= n - f -> 1 < f + day ->
  exists p, period_text clock millis TYear None (Some (b ++ blank ++ d)) false false false = Ok p /\
    forall t, acontains p t = true <-> since_start TYear t < (f + day - 1) * us_day.
Proof. exact year_day_end. Qed.
Print Assumptions c60_year_end_refuted.

Example c60_year_end_nonvacuous : names (txt "Feb") "february" /\ day_text (txt "5th") 5 /\
  In ("february"%string, (31, 60)) months.
Proof. exact (conj ex_february (conj ex_day (or_intror (or_introl eq_refl)))). Qed.

(** A period of one day of the year cannot be made, unless it is the first of a month. *)
Theorem c60_year_on_refuted : forall clock millis, reads_clock clock ->
  forall a d w f n day, In (w, (f, n)) months -> names a w -> day_text d day -> 1 < day -> day <= n - f ->
  period_text clock millis TYear (Some (a ++ blank ++ d)) None true false false = Err KeyError.
Proof. exact year_day_on. Qed.
Print Assumptions c60_year_on_refuted.

(** A time written before the day of the week is dropped. *)
Theorem c60_time_first_refuted : forall clock millis, reads_clock clock ->
  forall s w n x us e tp sg rc, In (w, n) days -> names s w -> clock_text x us ->
  period_text clock millis TWeek (Some (x ++ blank ++ s)) e tp sg rc =
  period_text clock millis TWeek (Some s) e tp sg rc.
Proof. exact time_first. Qed.
Print Assumptions c60_time_first_refuted.

Example c60_time_first_nonvacuous : txt "18:30 Mon" = txt "18:30" ++ blank ++ txt "Mon" /\ names (txt "Mon") "monday" /\
  clock_text (txt "18:30") (18 * us_hour + 30 * us_minute).
Proof. exact (conj eq_refl (conj ex_monday ex_clock)). Qed.

(** The last 5th day is read as the 5th day, whatever the day; so is Dec last 5th, which the source
    lists among what is allowed. *)
Theorem c60_last_refuted : forall clock millis, reads_clock clock ->
  (forall d e tp sg rc,
    period_text clock millis TMonth (Some (txt "last " ++ d)) e tp sg rc =
    period_text clock millis TMonth (Some d) e tp sg rc) /\
  (forall a w f n d day e tp sg rc, In (w, (f, n)) months -> names a w -> day_text d day ->
    period_text clock millis TYear (Some (a ++ txt " last " ++ d)) e tp sg rc =
    period_text clock millis TYear (Some (a ++ blank ++ d)) e tp sg rc).
Proof. exact (fun clock millis C => conj (last_day clock millis) (last_day_of_month clock millis C)). Qed.
Print Assumptions c60_last_refuted.

(** The number of a month, also listed, is refused. *)
Theorem c60_number_refuted : forall clock millis n m e tp sg rc, number n m -> 1 <= m <= 12 ->
  period_text clock millis TYear (Some n) e tp sg rc = Err AttributeError.
Proof. exact month_number. Qed.
Print Assumptions c60_number_refuted.

Example c60_number_nonvacuous : number (txt "12") 12.
Proof. exact ex_twelve. Qed.

(** In an hour a time of the day is taken for minutes and seconds, its seconds are dropped. *)
Theorem c60_hour_refuted : forall clock millis h m s x hour minute e tp sg rc, two h hour -> two m minute -> two s x ->
  period_text clock millis THour (Some (h ++ colon ++ m ++ colon ++ s)) e tp sg rc =
  period_text clock millis THour (Some (h ++ colon ++ m)) e tp sg rc.
Proof. exact hour_of_day. Qed.
Print Assumptions c60_hour_refuted.

Example c60_hour_nonvacuous : two (txt "18") 18 /\ two (txt "30") 30 /\ two (txt "45") 45.
Proof. exact ex_twos. Qed.

(** Days that do not exist: February 30th is March 1st, and after the 32nd of the month is always. *)
Theorem c60_february_refuted : forall clock millis, reads_clock clock ->
  forall a d, names a "february" -> day_text d 30 ->
  exists p, period_text clock millis TYear (Some (a ++ blank ++ d)) None false false false = Ok p /\
    forall t, acontains p t = true <-> 60 * us_day <= since_start TYear t.
Proof. exact february_30. Qed.
Print Assumptions c60_february_refuted.

Example c60_february_nonvacuous : names (txt "Feb") "february" /\ day_text (txt "30.") 30.
Proof. exact (conj ex_february ex_day_30). Qed.

Theorem c60_day_32_refuted : forall clock millis n x, number n 32 -> suffix x ->
  exists p, period_text clock millis TMonth (Some (n ++ x)) None false false false = Ok p /\
    forall t, acontains p t = true.
Proof. exact day_32. Qed.
Print Assumptions c60_day_32_refuted.

Example c60_day_32_nonvacuous : number (txt "32") 32 /\ suffix (txt "nd").
Proof. exact ex_thirty_two. Qed.
