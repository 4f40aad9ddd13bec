(** C45, C51: durations and timeouts.  [oi] and [ofl] stand for what int and float
    make of strings that are not made of digits. *)
From Coq Require Import Ascii String QArith.
From Verif Require Import Model.Base Model.Duration Spec.DurationSpec Proofs.DurationProofs.
Open Scope Z_scope.

(** * C45 *)

(** Numbers with units: their sum, each minus in front negating, whatever the
    separators are. *)
Theorem c45_sum : forall oi ofl sg es, Forall sign_char sg -> Forall element_ok es -> es <> [] ->
  gives (string_to_timedelta oi ofl (sg ++ text es)) (signed sg (total es)).
Proof. exact parse_sum. Qed.
Print Assumptions c45_sum.

(** - 1 h,30min .5 s *)
Example c45_met :
  let none {A} := fun _ : list ascii => @Err A ValueError in
  let es := [Element [" "%char] (Whole ["1"%char]) [" "%char] "h" (3600 * 10 ^ 6);
             Element [","%char] (Whole ["3"%char; "0"%char]) [] "min" (60 * 10 ^ 6);
             Element [" "%char] (Decimal [] ["5"%char]) [" "%char] "s" (10 ^ 6)] in
  Forall sign_char ["-"%char] /\ Forall element_ok es /\
  ["-"%char] ++ text es = list_ascii_of_string "- 1 h,30min .5 s" /\
  string_to_timedelta none none (["-"%char] ++ text es) = Returns (- 5400500000).
Proof.
  split; [chars_ok|]. split; [repeat (apply Forall_cons; [element_here|]); apply Forall_nil|]. split; vm_compute; reflexivity.
Qed.

(** Hours, minutes and seconds may follow. *)
Theorem c45_clock : forall oi ofl sg es k, Forall sign_char sg -> Forall element_ok es -> clock_ok k ->
  gives (string_to_timedelta oi ofl (sg ++ text es ++ clock_text k)) (signed sg (total es + clock_value k)%Q).
Proof. exact parse_clock. Qed.
Print Assumptions c45_clock.

Example c45_clock_met :
  let none {A} := fun _ : list ascii => @Err A ValueError in
  let k := Clock [","%char; " "%char] ["1"%char; "0"%char] ["2"%char; "0"%char] (Decimal ["3"%char] ["2"%char; "5"%char]) in
  clock_ok k /\ clock_text k = list_ascii_of_string ", 10:20:3.25" /\
  string_to_timedelta none none (list_ascii_of_string "1 day, 10:20:3.25") = Returns (86400000000 + 37203250000).
Proof.
  split; [|split; vm_compute; reflexivity]. unfold clock_ok. cbn [k_before k_hours k_minutes k_seconds].
  split; [chars_ok|]. split; [discriminate|]. split; [chars_ok|]. split; [discriminate|]. split; [chars_ok|]. split; [discriminate|chars_ok].
Qed.

(** A minus in front of any string negates what it means. *)
Theorem c45_negated : forall oi ofl s us, string_to_timedelta oi ofl s = Returns us -> Z.abs us <= 999999999 * 86400 * 10 ^ 6 ->
  string_to_timedelta oi ofl ("-"%char :: s) = Returns (- us).
Proof. exact negated. Qed.
Print Assumptions c45_negated.

Example c45_negated_met :
  let none {A} := fun _ : list ascii => @Err A ValueError in
  string_to_timedelta none none (list_ascii_of_string "+-2 days") = Returns (- 172800000000) /\
  string_to_timedelta none none (list_ascii_of_string "-+-2 days") = Returns 172800000000.
Proof. split; vm_compute; reflexivity. Qed.

(** Reading any string comes to an end. *)
Theorem c45_terminates : forall oi ofl s, string_to_timedelta oi ofl s <> OutOfFuel.
Proof. exact terminates. Qed.
Print Assumptions c45_terminates.

(** A unit that is none of the names is an error, *)
Theorem c45_unknown_unit : forall oi ofl sg es seps n gap u rest,
  Forall sign_char sg -> Forall element_ok es -> Forall separator seps -> number_ok n ->
  Forall separator gap -> hd " "%char gap <> ":"%char ->
  u <> EmptyString -> Forall letter (list_ascii_of_string u) -> unit_ends rest -> (forall us, ~ worth u us) ->
  string_to_timedelta oi ofl (sg ++ text es ++ seps ++ number_text n ++ gap ++ list_ascii_of_string u ++ rest) = Raises KeyError.
Proof. exact unknown_unit_raises. Qed.
Print Assumptions c45_unknown_unit.

(** as for the plural of the millisecond, and weeks: *)
Example c45_unknown_met :
  let none {A} := fun _ : list ascii => @Err A ValueError in
  Forall letter (list_ascii_of_string "milliseconds") /\ (forall us, ~ worth "milliseconds" us) /\
  string_to_timedelta none none (list_ascii_of_string "5 milliseconds") = Raises KeyError /\
  string_to_timedelta none none (list_ascii_of_string "2 weeks") = Raises KeyError.
Proof.
  split; [repeat (apply Forall_cons; [repeat split; [cbn; intuition discriminate|discriminate|cbn; intuition discriminate]|]); constructor|].
  split; [|split; vm_compute; reflexivity]. intros us (names & H & I). cbn in H.
  repeat (destruct H as [H|H]; [injection H as <- <-; cbn in I; intuition discriminate|]). exact H.
Qed.

(** and so is a number without a unit. *)
Theorem c45_no_unit : forall oi ofl sg es seps n,
  Forall sign_char sg -> Forall element_ok es -> Forall separator seps -> number_ok n ->
  string_to_timedelta oi ofl (sg ++ text es ++ seps ++ number_text n) = Raises KeyError.
Proof. exact no_unit. Qed.
Print Assumptions c45_no_unit.

Example c45_no_unit_met :
  let none {A} := fun _ : list ascii => @Err A ValueError in
  number_ok (Whole ["1"%char; "0"%char]) /\ string_to_timedelta none none (list_ascii_of_string "1 min 10") = Raises KeyError.
Proof. split; [split; [discriminate|chars_ok]|vm_compute; reflexivity]. Qed.

(** Separators after the last unit are an error, *)
Theorem c45_trailing : forall oi ofl sg es seps,
  Forall sign_char sg -> Forall element_ok es -> Forall separator seps -> seps <> [] ->
  exists e, (e = KeyError \/ e = ValueError) /\ string_to_timedelta oi ofl (sg ++ text es ++ seps) = Raises e.
Proof. exact trailing. Qed.
Print Assumptions c45_trailing.

Example c45_trailing_met :
  Forall element_ok ex_ten /\ Forall separator [" "%char] /\ [" "%char] <> [] /\ text ex_ten = list_ascii_of_string "10 sec".
Proof. split; [exact ex_ten_ok|]. split; [chars_ok|]. split; [discriminate|reflexivity]. Qed.

(** so the separators do matter there, *)
Theorem c45_trailing_refuted : exists oi ofl es seps us e, Forall element_ok es /\ Forall separator seps /\
  string_to_timedelta oi ofl (text es) = Returns us /\ string_to_timedelta oi ofl (text es ++ seps) = Raises e.
Proof. exact trailing_refused. Qed.
Print Assumptions c45_trailing_refuted.

(** and they do right after a number, where a colon is taken for a clock time. *)
Theorem c45_colon_refuted : exists oi ofl number seps seps' unit us e, number_ok number /\ worth unit us /\
  Forall separator seps /\ Forall separator seps' /\
  string_to_timedelta oi ofl (number_text number ++ seps ++ list_ascii_of_string unit) = Returns (10 * us) /\
  string_to_timedelta oi ofl (number_text number ++ seps' ++ list_ascii_of_string unit) = Raises e.
Proof. exact colon_refused. Qed.
Print Assumptions c45_colon_refuted.

(** * C51 *)

(** A number is a number of seconds for a task and for the session, *)
Theorem c51_number : forall oi ofl q, exists r, gives r (inject_Z (10 ^ 6) * q) /\ config_timeout oi ofl (TNumber q) = Some r /\
  task_timeout oi ofl (TNumber q) = own r.
Proof. exact timeout_number. Qed.
Print Assumptions c51_number.

(** a string is the duration it reads as (C45), *)
Theorem c51_string : forall oi ofl s, s <> list_ascii_of_string "never" ->
  config_timeout oi ofl (TString s) = Some (string_to_timedelta oi ofl s) /\
  task_timeout oi ofl (TString s) = own (string_to_timedelta oi ofl s).
Proof. exact timeout_string. Qed.
Print Assumptions c51_string.

(** and a timedelta is itself. *)
Theorem c51_timedelta : forall oi ofl us,
  config_timeout oi ofl (TDelta us) = Some (Returns us) /\ task_timeout oi ofl (TDelta us) = own (Returns us).
Proof. exact timeout_delta. Qed.
Print Assumptions c51_timedelta.

Example c51_met :
  let none {A} := fun _ : list ascii => @Err A ValueError in
  task_timeout none none (TNumber (1 # 10)) = Returns (Some 100000) /\
  task_timeout none none (TString (list_ascii_of_string "1 hour")) = Returns (Some 3600000000).
Proof. split; vm_compute; reflexivity. Qed.

(** The longest timeout, accepted for a task, is an error for the session. *)
Theorem c51_never_refuted : forall oi ofl,
  (exists us, task_timeout oi ofl (TString (list_ascii_of_string "never")) = Returns (Some us) /\ holdable us /\ ~ holdable (us + 1)) /\
  config_timeout oi ofl (TString (list_ascii_of_string "never")) = Some (Raises KeyError).
Proof. exact never_task_only. Qed.
Print Assumptions c51_never_refuted.
