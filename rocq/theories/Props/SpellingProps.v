(** C79: durations written as text.  [seen us] is what the code's floats make of
    [us] microseconds, [oi] and [ofl] what int and float make of strings that
    are not made of digits. *)
From Coq Require Import Ascii String.
From Verif Require Import Model.Base Model.Duration Model.Spelling Spec.DurationSpec Spec.SpellingSpec Proofs.SpellingProofs.
Open Scope Z_scope.

(** The parts of a duration are together the duration, whichever units are used,
    when the floats hold it, *)
Theorem c79_parts : forall seen larger us, seen us = us -> together (timedelta_to_dict seen (larger ++ [Microseconds])%list us) = us.
Proof. exact dict_sum. Qed.
Print Assumptions c79_parts.

Example c79_parts_met :
  let us := 400 * 86400 * 10 ^ 6 + 500000 in
  float_seen us = us /\ all_units = ([Years; Months; Weeks; Days; Hours; Minutes; Seconds; Milliseconds] ++ [Microseconds])%list /\
  timedelta_to_dict float_seen all_units us =
    [(Years, 1); (Months, 1); (Weeks, 0); (Days, 5); (Hours, 0); (Minutes, 0); (Seconds, 0); (Milliseconds, 500); (Microseconds, 0)].
Proof. split; [vm_compute; reflexivity|]. split; [reflexivity|]. vm_compute. reflexivity. Qed.

(** and by default they are days, hours, minutes and so on, each less than one of
    the unit above it. *)
Theorem c79_fixed : forall seen us, seen us = us -> exists d h m s ms mus,
  timedelta_to_dict seen fixed_units us =
    [(Days, d); (Hours, h); (Minutes, m); (Seconds, s); (Milliseconds, ms); (Microseconds, mus)] /\
  0 <= h < 24 /\ 0 <= m < 60 /\ 0 <= s < 60 /\ 0 <= ms < 1000 /\ 0 <= mus < 1000 /\
  us = d * 86400000000 + h * 3600000000 + m * 60000000 + s * 1000000 + ms * 1000 + mus.
Proof. exact dict_parts. Qed.
Print Assumptions c79_fixed.

Example c79_fixed_met :
  float_seen 90061000000 = 90061000000 /\ float_seen (-3600000000) = -3600000000 /\
  timedelta_to_dict float_seen fixed_units (-3600000000) =
    [(Days, -1); (Hours, 23); (Minutes, 0); (Seconds, 0); (Milliseconds, 0); (Microseconds, 0)].
Proof. split; [vm_compute; reflexivity|]. split; vm_compute; reflexivity. Qed.

(** The floats do not hold every duration: 249 microseconds have parts of 248. *)
Theorem c79_float_refuted : exists us, 0 < us /\ together (timedelta_to_dict float_seen fixed_units us) <> us.
Proof. exact float_parts. Qed.
Print Assumptions c79_float_refuted.

(** The text of a duration above zero is read as the duration when it is made of
    whole seconds, or of whole milliseconds in the shorter formats, *)
Theorem c79_read_partial : forall oi ofl seen f us, seen us = us -> 0 < us -> holdable us -> in_known_units f us ->
  string_to_timedelta oi ofl (timedelta_to_str seen f fixed_units us) = Returns us.
Proof. exact text_read. Qed.
Print Assumptions c79_read_partial.

Example c79_read_met :
  float_seen 90005000000 = 90005000000 /\ holdable 90005000000 /\ in_known_units Full 90005000000 /\
  timedelta_to_str float_seen Full fixed_units 90005000000 = list_ascii_of_string "1 days, 1 hours, 0 minutes, 5 seconds" /\
  float_seen 1500000 = 1500000 /\ in_known_units Short 1500000 /\
  timedelta_to_str float_seen Short fixed_units 1500000 = list_ascii_of_string "1s, 500ms".
Proof.
  split; [vm_compute; reflexivity|]. split; [split; vm_compute; congruence|]. split; [reflexivity|]. split; [vm_compute; reflexivity|].
  split; [vm_compute; reflexivity|]. split; [reflexivity|]. vm_compute. reflexivity.
Qed.

(** any other duration above zero has a text that cannot be read, *)
Theorem c79_read_refuted : forall oi ofl seen f us, seen us = us -> 0 < us -> ~ in_known_units f us ->
  string_to_timedelta oi ofl (timedelta_to_str seen f fixed_units us) = Raises KeyError.
Proof. exact text_unread. Qed.
Print Assumptions c79_read_refuted.

Example c79_read_refuted_met :
  float_seen 1500000 = 1500000 /\ ~ in_known_units Full 1500000 /\
  timedelta_to_str float_seen Full fixed_units 1500000 = list_ascii_of_string "1 seconds, 500 milliseconds".
Proof. split; [vm_compute; reflexivity|]. split; [discriminate|]. vm_compute. reflexivity. Qed.

(** nor can that of no time at all, *)
Theorem c79_zero_refuted : forall oi ofl seen f, seen 0 = 0 ->
  string_to_timedelta oi ofl (timedelta_to_str seen f fixed_units 0) = Raises KeyError.
Proof. exact text_zero. Qed.
Print Assumptions c79_zero_refuted.

Example c79_zero_met : float_seen 0 = 0 /\ timedelta_to_str float_seen Full fixed_units 0 = list_ascii_of_string "0 microseconds".
Proof. split; vm_compute; reflexivity. Qed.

(** and one below zero is read as another: an hour less than none is written
    -1 days, 23 hours. *)
Theorem c79_negative_refuted : exists us us', us < 0 /\ us mod 1000000 = 0 /\ us' <> us /\
  forall oi ofl, string_to_timedelta oi ofl (timedelta_to_str float_seen Full fixed_units us) = Returns us'.
Proof. exact text_negative. Qed.
Print Assumptions c79_negative_refuted.
