(** Concrete crontab lines. *)
From Coq Require Import List Bool Arith Ascii String ZArith Lia.
From Verif Require Import Model.Base Model.Interval Model.Calendar Model.Anchored Model.Period Model.Cron
  Model.Statement Model.AnchorText Model.CronText
  Spec.PeriodSpec Spec.AlgebraSpec Spec.CronSpec Spec.StatementSpec Spec.AnchorTextSpec Spec.CronTextSpec.
From Verif Require Import Proofs.CronExamples Proofs.AnchorTextProofs Proofs.AnchorTextExamples Proofs.CronTextProofs.
Import ListNotations.
Local Open Scope Z_scope.
Local Open Scope list_scope.

Lemma one_ok : forall d, 0 <= d <= 9 -> StatementSpec.number [ascii_of_nat (48 + Z.to_nat d)] d.
Proof. intros d R. apply number_one. now split. Qed.
Lemma two_number : forall a b, 0 <= a <= 9 -> 0 <= b <= 9 ->
  StatementSpec.number [ascii_of_nat (48 + Z.to_nat a); ascii_of_nat (48 + Z.to_nat b)] (10 * a + b).
Proof. intros a b A B. exact (proj1 (two_ok a b A B)). Qed.

Definition ex_text : list ascii := txt "*/15 8-17 1,15 * Mon-FRIDAY".
Lemma ex_monday' : names (txt "Mon") "monday".
Proof. exact ex_monday. Qed.
Lemma ex_writes : writes_line ex_text ex_line.
Proof.
  apply (write_line (txt "*/15") (txt "8-17") (txt "1,15") (txt "*") (txt "Mon-FRIDAY")).
  - apply write_one. apply (write_star_step THour (txt "15") 15). exact (two_number 1 5 ltac:(lia) ltac:(lia)).
  - apply write_one. apply (write_range TDay (txt "8") (CNum 8) (txt "17") (CNum 17)); apply write_number.
    + exact (one_ok 8 ltac:(lia)).
    + exact (two_number 1 7 ltac:(lia) ltac:(lia)).
  - apply (write_more TMonth (txt "1") (CAt (CNum 1) None) (txt "15")); [|apply write_one]; apply write_at; apply write_number.
    + exact (one_ok 1 ltac:(lia)).
    + exact (two_number 1 5 ltac:(lia) ltac:(lia)).
  - apply write_one. apply write_star.
  - apply write_one. apply (write_range TWeek (txt "Mon") (CName 0) (txt "FRIDAY") (CName 4)).
    + apply (write_day _ "monday"); [cbn; tauto|apply ex_monday].
    + apply (write_day _ "friday"); [cbn; tauto|apply ex_friday].
Qed.
(** The line of the documentation *)
Definition doc_text : list ascii := txt "*/2 12-18 * Oct Fri".
Definition doc_line : Cron.cron :=
  Cron [CStarStep 2] [CRange (CNum 12) (CNum 18) None] star [CAt (CName 9) None] [CAt (CName 4) None].
Lemma ex_october : names (txt "Oct") "october".
Proof. right. unfold same_word. cbn. letters. Qed.
Lemma ex_fri : names (txt "Fri") "friday".
Proof. right. unfold same_word. cbn. letters. Qed.
Lemma doc_writes : writes_line doc_text doc_line.
Proof.
  apply (write_line (txt "*/2") (txt "12-18") (txt "*") (txt "Oct") (txt "Fri")).
  - apply write_one. apply (write_star_step THour (txt "2") 2). exact (one_ok 2 ltac:(lia)).
  - apply write_one. apply (write_range TDay (txt "12") (CNum 12) (txt "18") (CNum 18)); apply write_number.
    + exact (two_number 1 2 ltac:(lia) ltac:(lia)).
    + exact (two_number 1 8 ltac:(lia) ltac:(lia)).
  - apply write_one. apply write_star.
  - apply write_one. apply write_at. apply (write_month _ 9 "october" (274, 305)); [reflexivity|apply ex_october].
  - apply write_one. apply write_at. apply (write_day _ "friday"); [cbn; tauto|apply ex_fri].
Qed.
Lemma doc_ok : cron_ok doc_line.
Proof.
  unfold cron_ok, doc_line, star, field_ok. cbn [c_minute c_hour c_dom c_month c_dow].
  repeat (split; [split; [discriminate|split; [intros it [<- |[]]; cbn; unfold value_ok, CronSpec.number, first_number, last_number;
    try tauto; repeat split; try lia; try tauto; try (left; discriminate); intros (X & _); discriminate X|]]; first [right; intros it [<- |[]]; discriminate|left; intros it [<- |[]]; reflexivity]|]).
  split; [discriminate|split; [intros it [<- |[]]; cbn; unfold value_ok, CronSpec.number, first_number, last_number; repeat split; try lia; tauto|
    right; intros it [<- |[]]; discriminate]].
Qed.
Lemma ex_text_works : exists l, mk_cron (cron_args ex_text) = Ok l /\
  text_contains ex_reader ex_reader 20 l (mk_datetime 2024 6 15 8 30 59 0) = Returns true /\
  text_contains ex_reader ex_reader 20 l (mk_datetime 2024 6 17 17 46 0 0) = Returns false.
Proof. eexists. split; [reflexivity|]. split; vm_compute; reflexivity. Qed.
Lemma ex_sixty : StatementSpec.number (txt "60") 60.
Proof. exact (two_number 6 0 ltac:(lia) ltac:(lia)). Qed.
Lemma ex_no_value : (forall x, In x (txt "Foo") -> letter x) /\ forall v, ~ writes_value TWeek (txt "Foo") v.
Proof.
  split.
  - intros c I. apply letter_is. repeat (destruct I as [<- |I]; [reflexivity|]). destruct I.
  - intros v H. remember (txt "Foo") as s eqn:E. remember TWeek as c eqn:K. destruct H as [c x n N|x w k I N|x k w r I N].
    + apply number_plain in N. subst x. destruct N as (_ & _ & D & _). discriminate D.
    + subst x. exact (ex_no_day w k I N).
    + discriminate K.
Qed.
Lemma ex_bad : piece_of (txt "5,1-2-3,7") (txt "1-2-3") /\ bad_piece 0 23 TDay (txt "1-2-3") /\
  bad_piece 0 23 TDay (txt "*/2/3") /\ bad_piece 0 23 TDay (txt "*/x").
Proof.
  split; [|split; [|split]].
  - split.
    + intros I. repeat (destruct I as [I|I]; [discriminate I|]). destruct I.
    + exists (txt "5,"), (txt ",7"). split; [reflexivity|]. split; right; [exists (txt "5")|exists (txt "7")]; reflexivity.
  - apply bad_dashes; [reflexivity|]. cbn. lia.
  - apply bad_slashes. cbn. lia.
  - apply (bad_step 0 23 TDay (txt "*") (txt "x")); [reflexivity|]. intros y [<- |[]] D. apply decimal_is in D. discriminate D.
Qed.
