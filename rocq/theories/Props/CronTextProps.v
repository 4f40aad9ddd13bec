(** C61: crontab lines as texts. *)
From Coq Require Import List Ascii String ZArith.
From Verif Require Import Model.Base Model.Interval Model.Calendar Model.Anchored Model.Period Model.Cron
  Model.Statement Model.AnchorText Model.CronText
  Spec.PeriodSpec Spec.AlgebraSpec Spec.CronSpec Spec.StatementSpec Spec.AnchorTextSpec Spec.CronTextSpec.
From Verif Require Import Proofs.CronTextProofs Proofs.CronTextResults Proofs.CronExamples Proofs.AnchorTextExamples Proofs.CronTextExamples.
Import ListNotations.
Local Open Scope Z_scope.
Local Open Scope list_scope.

(** A text that writes a crontab line gives a period whose moments are those of the line, whenever
    there is an answer (see C14 for the lines and moments left out). *)
Theorem c61_membership_partial : forall clock millis, reads_clock clock ->
  forall s e, writes_line s e -> cron_ok e ->
  exists l, mk_cron (cron_args s) = Ok l /\
    forall fuel t b, month_settled e t -> text_contains clock millis fuel l t = Returns b -> (b = true <-> cron_match e t).
Proof. exact line_membership. Qed.
Print Assumptions c61_membership_partial.

Example c61_membership_nonvacuous : writes_line (txt "*/2 12-18 * Oct Fri") doc_line /\ cron_ok doc_line.
Proof. exact (conj doc_writes doc_ok). Qed.

(** For lines without months and with days that every month has there is an answer, and rolling
    forward finds the next match. *)
Theorem c61_answers_partial : forall clock millis, reads_clock clock ->
  forall s e, writes_line s e -> cron_ok e -> every_month e ->
  exists l, mk_cron (cron_args s) = Ok l /\
    (forall t, exists b, eventually (fun fuel => text_contains clock millis fuel l t) b /\ (b = true <-> cron_match e t)) /\
    (forall t, exists i, eventually (fun fuel => text_rollforward clock millis fuel l t) i /\ forward_at (cron_match e) t i).
Proof. exact line_answers. Qed.
Print Assumptions c61_answers_partial.

Example c61_answers_nonvacuous : writes_line (txt "*/15 8-17 1,15 * Mon-FRIDAY") ex_line /\ (cron_ok ex_line /\ every_month ex_line) /\
  exists l, mk_cron (cron_args (txt "*/15 8-17 1,15 * Mon-FRIDAY")) = Ok l /\
    text_contains ex_reader ex_reader 20 l (mk_datetime 2024 6 15 8 30 59 0) = Returns true /\
    text_contains ex_reader ex_reader 20 l (mk_datetime 2024 6 17 17 46 0 0) = Returns false.
Proof. exact (conj ex_writes (conj CronExamples.ex_line_ok ex_text_works)). Qed.

(** A matching moment is recognised, whatever months the text names, unless it names the 31st in a
    month that does not have it. *)
Theorem c61_recognised_partial : forall clock millis, reads_clock clock ->
  forall s e, writes_line s e -> cron_ok e ->
  exists l, mk_cron (cron_args s) = Ok l /\
    forall t fuel, month_settled e t -> no_31_missing e t -> cron_match e t ->
      text_contains clock millis (S fuel) l t = Returns true.
Proof. exact line_recognised. Qed.
Print Assumptions c61_recognised_partial.

Example c61_recognised_met : writes_line doc_text doc_line /\ cron_ok doc_line /\
  no_31_missing doc_line (mk_datetime 2022 10 7 12 2 0 0) /\
  exists l, mk_cron (cron_args (txt "*/2 12-18 * Oct Fri")) = Ok l /\
    text_contains ex_reader ex_reader 1 l (mk_datetime 2022 10 7 12 2 0 0) = Returns true.
Proof.
  split; [exact doc_writes|]. split; [exact doc_ok|]. split; [intros it [<-|[]] X; contradiction X; reflexivity|].
  eexists. split; [vm_compute; reflexivity|vm_compute; reflexivity].
Qed.

(** Every text that writes a line is cut into its fields: it means the line. *)
Theorem c61_same : forall clock millis, reads_clock clock ->
  forall s e, writes_line s e -> exists l, mk_cron (cron_args s) = Ok l /\
    (forall fuel t, text_contains clock millis fuel l t = cron_contains fuel e t) /\
    (forall fuel t, text_rollforward clock millis fuel l t = cron_rollforward fuel e t).
Proof. exact line_same. Qed.
Print Assumptions c61_same.

Example c61_same_nonvacuous : exists s e, writes_line s e.
Proof. exact (ex_intro _ doc_text (ex_intro _ doc_line doc_writes)). Qed.

(** In a condition sentence. *)
Theorem c61_sentence : forall other_call s, word s ->
  condition_item (make_cron other_call) cond_parsers (txt "cron " ++ s) =
  (let* l := mk_cron (cron_args s) in Ok (KAtom (ARunnable l))).
Proof. exact cron_sentence. Qed.
Print Assumptions c61_sentence.

Theorem c61_sentence_lines : forall s e, writes_line s e -> word s.
Proof. exact writes_usual. Qed.
Print Assumptions c61_sentence_lines.

Example c61_sentence_nonvacuous : word doc_text.
Proof. exact (writes_usual _ _ doc_writes). Qed.

(** More than five fields are refused. *)
Theorem c61_too_many : forall s, (4 < blanks s)%nat -> mk_cron (cron_args s) = Err TypeError.
Proof. exact too_many. Qed.
Print Assumptions c61_too_many.

Example c61_too_many_nonvacuous : (4 < blanks (txt "* * * * * *"))%nat.
Proof. exact (le_n _). Qed.

(** Numbers out of the range of their field, words that are no values of it and empty fields raise,
    when the period is asked. *)
Theorem c61_number : forall clock millis c s n, a_field c -> StatementSpec.number s n ->
  ~ (first_number c <= n <= last_number c) ->
  exists l, mk_cron (only c s) = Ok l /\ forall fuel t, text_contains clock millis fuel l t = Raises ValueError.
Proof. exact number_refused. Qed.
Print Assumptions c61_number.

Example c61_number_nonvacuous : StatementSpec.number (txt "60") 60.
Proof. exact ex_sixty. Qed.

Theorem c61_word : forall clock millis c s, In c [THour; TMonth; TYear; TWeek] -> s <> [] ->
  (forall x, In x s -> letter x) -> (forall v, ~ writes_value c s v) ->
  exists l x, mk_cron (only c s) = Ok l /\ forall fuel t, text_contains clock millis fuel l t = Raises x.
Proof. exact word_refused. Qed.
Print Assumptions c61_word.

Example c61_word_nonvacuous : (forall x, In x (txt "Foo") -> letter x) /\ forall v, ~ writes_value TWeek (txt "Foo") v.
Proof. exact ex_no_value. Qed.

Theorem c61_empty : forall clock millis c, In c [THour; TMonth; TYear; TWeek] ->
  exists l x, mk_cron (only c []) = Ok l /\ forall fuel t, text_contains clock millis fuel l t = Raises x.
Proof. exact empty_refused. Qed.
Print Assumptions c61_empty.

(** The same for every line of five fields with such a piece, one with too many slashes or dashes or one with
    a malformed step anywhere between commas. *)
Theorem c61_malformed : forall clock millis m h d mo w c s p,
  In (c, s) [(THour, m); (TDay, h); (TMonth, d); (TYear, mo); (TWeek, w)] -> piece_of s p ->
  bad_piece (first_number c) (last_number c) c p ->
  exists l x, mk_cron [m; h; d; mo; w] = Ok l /\ forall fuel t, text_contains clock millis fuel l t = Raises x.
Proof. exact malformed_refused. Qed.
Print Assumptions c61_malformed.

Example c61_malformed_nonvacuous : piece_of (txt "5,1-2-3,7") (txt "1-2-3") /\ bad_piece 0 23 TDay (txt "1-2-3") /\
  bad_piece 0 23 TDay (txt "*/2/3") /\ bad_piece 0 23 TDay (txt "*/x").
Proof. exact ex_bad. Qed.

(** But nothing is refused when the line is written, unless it has too many fields. *)
Theorem c61_accepted_refuted : forall s, (blanks s <= 4)%nat -> exists l, mk_cron (cron_args s) = Ok l.
Proof. exact at_most_five. Qed.
Print Assumptions c61_accepted_refuted.

Example c61_accepted_nonvacuous : (blanks (txt "this is no crontab line") <= 4)%nat.
Proof. exact (le_n _). Qed.

(** A single field is no line, yet taken as the minutes of one. *)
Theorem c61_short_refuted : forall m ms, writes_field THour m ms ->
  (forall e, ~ writes_line m e) /\ mk_cron (cron_args m) = mk_cron (cron_args (m ++ txt " * * * *")).
Proof. exact short_line. Qed.
Print Assumptions c61_short_refuted.

Example c61_short_nonvacuous : exists ms, writes_field THour (txt "*") ms.
Proof. exact (ex_intro _ [CStar] (write_one THour (txt "*") CStar (write_star THour))). Qed.

(** A time in the field of hours is taken as the hour that begins at it. *)
Theorem c61_hour_refuted : forall clock millis, reads_clock clock ->
  forall x us, clock_text x us -> exists p, field_text clock millis TDay x = Ok (PAnch p) /\
  forall t, acontains p t = true <-> clock_range us ((us + us_hour) mod us_day) (since_start TDay t).
Proof. exact hour_time. Qed.
Print Assumptions c61_hour_refuted.

(** Ranges with a step may go beyond the last minute. *)
Theorem c61_beyond_refuted : forall clock millis, reads_clock clock ->
  forall a na b nb x n, StatementSpec.number a na -> StatementSpec.number b nb -> StatementSpec.number x n -> 59 < nb ->
  item_text clock millis THour (a ++ dash ++ b ++ slash ++ x) =
  item_text clock millis THour (a ++ dash ++ txt "59" ++ slash ++ x).
Proof. exact beyond. Qed.
Print Assumptions c61_beyond_refuted.

Example c61_beyond_nonvacuous : StatementSpec.number (txt "60") 60 /\ 59 < 60.
Proof. exact (conj ex_sixty eq_refl). Qed.
