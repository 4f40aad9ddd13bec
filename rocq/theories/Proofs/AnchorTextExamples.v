(** Texts that are misread, and concrete ones. *)
From Coq Require Import List Bool Arith Ascii String ZArith NArith Lia ZifyBool.
From Verif Require Import Model.Base Model.Calendar Model.Anchored Model.Statement Model.AnchorText
  Spec.StatementSpec Spec.PeriodSpec Spec.AnchorTextSpec.
From Verif Require Model.Duration.
From Verif Require Import Proofs.StatementResults Proofs.AnchorTextProofs Proofs.AnchorTextResults.
Import ListNotations.
Local Open Scope Z_scope.
Local Open Scope list_scope.

Section Misread.
  Variable clock millis : list ascii -> result Z.
  Hypothesis C : reads_clock clock.
  Local Notation period_text := (period_text clock millis).

  (** ** Texts without a time *)
  Theorem no_seconds : forall s e tp sg rc,
    (forall pre a b post, s = pre ++ a :: b :: post -> ~ (decimal a /\ decimal b)) ->
    period_text TMinute (Some s) e tp sg rc = Err TypeError.
  Proof using.
    intros s e tp sg rc H.
    assert (R : read_minute s = Err TypeError).
    { induction s as [|a s IH]; [reflexivity|]. cbn [read_minute]. destruct s as [|b s]; [reflexivity|].
      destruct (is_digit a && is_digit b)%bool eqn:D.
      - exfalso. apply andb_prop in D. apply (H [] a b s eq_refl). rewrite !decimal_is. exact D.
      - apply IH. intros pre x y post E. apply (H (a :: pre) x y post). cbn [app]. now f_equal. }
    unfold AnchorText.period_text, set_start_text, anchor_text. cbn [read_text]. rewrite R. now destruct e.
  Qed.
  Theorem no_minutes : forall s e tp sg rc, (forall x, In x s -> ~ decimal x) ->
    period_text THour (Some s) e tp sg rc = Err ValueError.
  Proof using.
    intros s e tp sg rc H.
    assert (N : forall x, In x s -> is_digit x = false).
    { intros x I. destruct (is_digit x) eqn:D; [|reflexivity]. exfalso. apply (H x I). now apply decimal_is. }
    assert (R : search_hour s = None).
    { clear H. induction s as [|a s IH]; [reflexivity|]. cbn [search_hour].
      assert (M : minute_second (a :: s) = None).
      { unfold minute_second. destruct s as [|b [|x [|y [|z s]]]]; try reflexivity.
        now rewrite (N a (or_introl eq_refl)). }
      rewrite M. apply IH. intros x I. apply N. now right. }
    assert (Q : read_quarter s = Err ValueError).
    { clear H R. induction s as [|a s IH]; [reflexivity|]. cbn [read_quarter]. rewrite (N a (or_introl eq_refl)).
      cbn [andb]. apply IH. intros x I. apply N. now right. }
    unfold AnchorText.period_text, set_start_text, anchor_text. cbn [read_text]. unfold read_hour. rewrite R, Q.
    now destruct e.
  Qed.

  (** ** Quarters of an hour *)
  Theorem quarters : forall d q n, digit_of d n -> 1 <= n <= 4 -> In q ["q"; " q"; "quarter"; " quarter"]%string ->
    exists p, period_text THour None (Some (d :: txt q)) false false false = Ok p /\
      forall t, acontains p t = true <-> since_start THour t < n * (15 * us_minute).
  Proof using.
    intros d q n [-> _] R Q. exists (Anchored THour 0 (n * (15 * us_minute))). split.
    - assert (K : n = 1 \/ n = 2 \/ n = 3 \/ n = 4) by lia.
      destruct K as [-> |[-> |[-> | ->]]]; repeat (destruct Q as [<- |Q]; [reflexivity|]); destruct Q.
    - intros t. rewrite member. pose proof (since_scope THour t) as B. unfold clock_range. cbn [cycle_length] in B.
      unfold us_hour, us_minute in *. lia.
  Qed.

  (** ** Texts of which a part is dropped *)
  Theorem time_first : forall s w n x us e tp sg rc, In (w, n) days -> names s w -> clock_text x us ->
    period_text TWeek (Some (x ++ blank ++ s)) e tp sg rc = period_text TWeek (Some s) e tp sg rc.
  Proof using C.
    intros s w n x us e tp sg rc I N T. destruct (day_name w n s I N) as (L & X & E & _).
    assert (NL : forallb (fun c => negb (is_letter c)) (x ++ blank) = true).
    { assert (DN : forall z, forallb is_digit z = true -> forallb (fun c => negb (is_letter c)) z = true).
      { intros z. rewrite !forallb_forall. intros H c K. specialize (H c K). unfold is_letter.
        unfold is_digit, Duration.is_digit in H. lia. }
      destruct T as [h m hour minute Hh L1 B1 [Hm _] B2|h m z hour minute second Hh L1 B1 [Hm _] B2 [Hs _] B3];
        apply number_digits in Hh, Hm; destruct Hh as (_ & D & _); destruct Hm as (_ & D' & _);
        rewrite !forallb_app, !(DN _ D), !(DN _ D'); [reflexivity|].
      apply number_digits in Hs. destruct Hs as (_ & D'' & _). now rewrite (DN _ D''). }
    assert (S : search_word (x ++ blank ++ s) = search_word s).
    { rewrite app_assoc. unfold search_word. now rewrite skip_over by exact NL. }
    assert (R : read_text clock millis TWeek (x ++ blank ++ s) = read_text clock millis TWeek s).
    { cbn [read_text]. unfold read_week. now rewrite S. }
    unfold AnchorText.period_text, set_start_text, anchor_text. rewrite R. reflexivity.
  Qed.
  Theorem last_day : forall d e tp sg rc,
    period_text TMonth (Some (txt "last " ++ d)) e tp sg rc = period_text TMonth (Some d) e tp sg rc.
  Proof using. reflexivity. Qed.
  Theorem last_day_of_month : forall a w f n d day e tp sg rc, In (w, (f, n)) months -> names a w -> day_text d day ->
    period_text TYear (Some (a ++ txt " last " ++ d)) e tp sg rc = period_text TYear (Some (a ++ blank ++ d)) e tp sg rc.
  Proof using C.
    intros a w f n d day e tp sg rc I N D. destruct (month_name w f n a I N) as (L & X & k & E & _).
    apply day_shape in D. destruct D as (Nd & Dd & _).
    assert (R : read_text clock millis TYear (a ++ txt " last " ++ d) = read_text clock millis TYear (a ++ blank ++ d)).
    { cbn [read_text]. unfold read_year.
      rewrite (word_found a (blank ++ d) L X (or_intror (ex_intro _ d eq_refl))).
      change (txt " last " ++ d) with (blank ++ (txt "last " ++ d)).
      rewrite (word_found a (blank ++ (txt "last " ++ d)) L X (or_intror (ex_intro _ (txt "last " ++ d) eq_refl))).
      rewrite E. change (opt_blank (blank ++ d)) with d. change (opt_blank (blank ++ txt "last " ++ d)) with (txt "last " ++ d).
      rewrite !dots_all by (rewrite ?forallb_app; rewrite Dd; reflexivity).
      destruct d as [|c d]; [now destruct Nd|]. reflexivity. }
    unfold AnchorText.period_text, set_start_text, anchor_text. rewrite R. reflexivity.
  Qed.
  Theorem hour_of_day : forall h m s x hour minute e tp sg rc, two h hour -> two m minute -> two s x ->
    period_text THour (Some (h ++ colon ++ m ++ colon ++ s)) e tp sg rc =
    period_text THour (Some (h ++ colon ++ m)) e tp sg rc.
  Proof using.
    intros h m s x hour minute e tp sg rc H M _.
    destruct (two_is h hour H) as (a & b & -> & Da & Db & _). destruct (two_is m minute M) as (c & d & -> & Dc & Dd & _).
    assert (R : read_text clock millis THour ([a; b] ++ colon ++ [c; d] ++ colon ++ s) =
                read_text clock millis THour ([a; b] ++ colon ++ [c; d])).
    { cbn [read_text]. unfold read_hour. cbn [app colon search_hour minute_second]. rewrite Da, Db, Dc, Dd. reflexivity. }
    unfold AnchorText.period_text, set_start_text, anchor_text. rewrite R. reflexivity.
  Qed.

  (** ** Days that do not exist *)
  Theorem february_30 : forall a d, names a "february" -> day_text d 30 ->
    exists p, period_text TYear (Some (a ++ blank ++ d)) None false false false = Ok p /\
      forall t, acontains p t = true <-> 60 * us_day <= since_start TYear t.
  Proof using C.
    intros a d N D. exists (Anchored TYear (60 * us_day) (366 * us_day)). split.
    - assert (I : In ("february"%string, (31, 60)) months) by (cbn; tauto).
      destruct (month_name _ _ _ a I N) as (L & X & k & E & S & S' & R). pose proof (month_read clock C d 30 D) as M.
      apply day_shape in D. destruct D as (Nd & Dd & _).
      unfold AnchorText.period_text, set_start_text, anchor_text. cbn [read_text]. unfold read_year.
      rewrite (word_found a (blank ++ d) L X (or_intror (ex_intro _ d eq_refl))), E.
      change (opt_blank (blank ++ d)) with d. rewrite dots_all by exact Dd. rewrite M.
      destruct d as [|c d]; [now destruct Nd|]. cbn [bind anchor anchor_str]. rewrite S. cbn [bind]. reflexivity.
    - intros t. rewrite member. pose proof (since_scope TYear t) as B. unfold clock_range. cbn [cycle_length] in B.
      unfold us_day in *. lia.
  Qed.
  Theorem day_32 : forall n x, number n 32 -> suffix x ->
    exists p, period_text TMonth (Some (n ++ x)) None false false false = Ok p /\ forall t, acontains p t = true.
  Proof using.
    intros n x N X. exists (Anchored TMonth (31 * us_day) (31 * us_day)). split.
    - apply number_digits in N. destruct N as (N & D & E).
      assert (F : search_day (n ++ x) = Some (n, [])).
      { unfold search_day. rewrite skip_here by assumption. rewrite span_app; [|exact D|intros c r; now apply suffix_head].
        pose proof (suffix_off x [] X (or_introl eq_refl)) as O. rewrite app_nil_r in O. rewrite O.
        destruct n as [|c n]; [now destruct N|reflexivity]. }
      unfold AnchorText.period_text, set_start_text, anchor_text. cbn [read_text]. unfold read_month. rewrite F, E. reflexivity.
    - intros t. apply member. now left.
  Qed.
End Misread.

(** ** Concrete texts *)

Lemma two_ok : forall a b, 0 <= a <= 9 -> 0 <= b <= 9 ->
  two [ascii_of_nat (48 + Z.to_nat a); ascii_of_nat (48 + Z.to_nat b)] (10 * a + b).
Proof.
  intros a b A B. split; [|reflexivity].
  apply (number_more [ascii_of_nat (48 + Z.to_nat a)] a); [apply number_one|]; split; (reflexivity || assumption).
Qed.
Lemma ex_clock : clock_text (txt "18:30") (18 * us_hour + 30 * us_minute).
Proof.
  apply (clock_hm (txt "18") (txt "30") 18 30); [exact (proj1 (two_ok 1 8 ltac:(lia) ltac:(lia)))|cbn; lia|lia|
    exact (two_ok 3 0 ltac:(lia) ltac:(lia))|lia].
Qed.
Lemma ex_clock_seconds : clock_text (txt "9:05:59") (9 * us_hour + 5 * us_minute + 59 * us_second).
Proof.
  apply (clock_hms (txt "9") (txt "05") (txt "59") 9 5 59); try lia.
  - apply number_one. split; [reflexivity|lia].
  - cbn. lia.
  - exact (two_ok 0 5 ltac:(lia) ltac:(lia)).
  - exact (two_ok 5 9 ltac:(lia) ltac:(lia)).
Qed.
Ltac letter_ok :=
  match goal with
  | |- same_letter ?a ?a => now left
  | |- same_letter ?a ?b => right;
      first [ exists (nat_of_ascii a - 65)%nat; split; [cbn; lia|]; left; split; reflexivity
            | exists (nat_of_ascii b - 65)%nat; split; [cbn; lia|]; right; split; reflexivity ]
  end.
Ltac letters := repeat (apply Forall2_cons; [letter_ok|]); apply Forall2_nil.
Lemma ex_monday : names (txt "Mon") "monday".
Proof. right. unfold same_word. cbn. letters. Qed.
Lemma ex_friday : names (txt "FRIDAY") "friday".
Proof. left. unfold same_word. cbn. letters. Qed.
Lemma ex_february : names (txt "Feb") "february".
Proof. right. unfold same_word. cbn. letters. Qed.
Lemma ex_december : names (txt "december") "december".
Proof. left. unfold same_word. cbn. letters. Qed.
Lemma ex_week : spelled TWeek (txt "Mon") (0 * us_day) ((0 + 1) * us_day).
Proof. apply (spelled_weekday _ "monday"); [cbn; tauto|apply ex_monday]. Qed.
Lemma ex_week_time : spelled TWeek (txt "FRIDAY 18:30") (4 * us_day + (18 * us_hour + 30 * us_minute))
  (4 * us_day + (18 * us_hour + 30 * us_minute)).
Proof. apply (spelled_week_time (txt "FRIDAY") "friday" 4 (txt "18:30")); [cbn; tauto|apply ex_friday|apply ex_clock]. Qed.
Lemma ex_day : day_text (txt "5th") 5.
Proof.
  apply (day_number (txt "5") (txt "th") 5); [apply number_one; split; [reflexivity|lia]|lia|].
  right. right. exists "th"%string. split; [cbn; tauto|]. unfold same_word. cbn. letters.
Qed.
Lemma ex_day_30 : day_text (txt "30.") 30.
Proof.
  apply (day_number (txt "30") (txt ".") 30); [exact (proj1 (two_ok 3 0 ltac:(lia) ltac:(lia)))|lia|]. right. now left.
Qed.
Lemma ex_month_time : spelled TMonth (txt "5th 9:05:59") ((5 - 1) * us_day + (9 * us_hour + 5 * us_minute + 59 * us_second))
  ((5 - 1) * us_day + (9 * us_hour + 5 * us_minute + 59 * us_second)).
Proof. apply (spelled_month_time (txt "5th") 5 (txt "9:05:59")); [apply ex_day|apply ex_clock_seconds]. Qed.
Lemma ex_minute : spelled TMinute (txt "07.25") (7 * us_second + 250000) (7 * us_second + 250000).
Proof.
  apply (spelled_minute (txt "07") (txt ".25") 7 250000); [exact (two_ok 0 7 ltac:(lia) ltac:(lia))|lia|].
  apply (fraction_some (txt "25") 25); [exact (proj1 (two_ok 2 5 ltac:(lia) ltac:(lia)))|cbn; lia].
Qed.
Lemma ex_hour : spelled THour (txt "45:30") (45 * us_minute + 30 * us_second + 0) (45 * us_minute + 30 * us_second + 0).
Proof.
  apply (spelled_hour (txt "45") (txt "30") [] 45 30 0); [exact (two_ok 4 5 ltac:(lia) ltac:(lia))|lia|
    exact (two_ok 3 0 ltac:(lia) ltac:(lia))|lia|constructor].
Qed.
Lemma ex_year : spelled TYear (txt "Feb 5th") ((31 + 5 - 1) * us_day) ((31 + 5) * us_day).
Proof.
  apply (spelled_year_day (txt "Feb") "february" 31 60 (txt "5th") 5); [cbn; tauto|apply ex_february|apply ex_day|lia].
Qed.
Lemma ex_all :
  spelled TMinute (txt "07.25") (7 * us_second + 250000) (7 * us_second + 250000) /\
  spelled THour (txt "45:30") (45 * us_minute + 30 * us_second + 0) (45 * us_minute + 30 * us_second + 0) /\
  spelled TDay (txt "18:30") (18 * us_hour + 30 * us_minute) (18 * us_hour + 30 * us_minute) /\
  spelled TWeek (txt "Mon") (0 * us_day) ((0 + 1) * us_day) /\
  spelled TWeek (txt "FRIDAY 18:30") (4 * us_day + (18 * us_hour + 30 * us_minute))
    (4 * us_day + (18 * us_hour + 30 * us_minute)) /\
  spelled TMonth (txt "5th 9:05:59") ((5 - 1) * us_day + (9 * us_hour + 5 * us_minute + 59 * us_second))
    ((5 - 1) * us_day + (9 * us_hour + 5 * us_minute + 59 * us_second)) /\
  spelled TYear (txt "Feb 5th") ((31 + 5 - 1) * us_day) ((31 + 5) * us_day).
Proof.
  exact (conj ex_minute (conj ex_hour (conj (spelled_day _ _ ex_clock) (conj ex_week (conj ex_week_time
    (conj ex_month_time ex_year)))))).
Qed.

(** A clock that reads times of the day: there is one. *)
Definition ex_reader (s : list ascii) : result Z :=
  let (h, r) := span is_digit s in
  match r with
  | _ :: r =>
      let (m, r) := span is_digit r in
      match r with
      | _ :: r => Ok (to_int h * us_hour + to_int m * us_minute + to_int r * us_second)
      | [] => Ok (to_int h * us_hour + to_int m * us_minute)
      end
  | [] => Err ParserError
  end.
Lemma ex_reads : reads_clock ex_reader.
Proof.
  intros x us H.
  destruct H as [h m hour minute Hh L1 B1 [Hm _] B2|h m s hour minute second Hh L1 B1 [Hm _] B2 [Hs _] B3];
    apply number_digits in Hh, Hm; destruct Hh as (_ & D & E); destruct Hm as (_ & D' & E'); unfold ex_reader.
  - rewrite span_app; [|exact D|intros c r [=<- _]; reflexivity]. cbn [colon app]. rewrite span_all by exact D'.
    now rewrite E, E'.
  - apply number_digits in Hs. destruct Hs as (_ & D'' & E'').
    rewrite span_app; [|exact D|intros c r [=<- _]; reflexivity]. cbn [colon app].
    rewrite span_app; [|exact D'|intros c r [=<- _]; reflexivity]. now rewrite E, E', E''.
Qed.
Lemma ex_no_day : forall d n, In (d, n) days -> ~ names (txt "Foo") d.
Proof.
  intros d n I [H|H]; repeat (destruct I as [I|I]; [injection I as <- _; apply same_word_lower in H; [|reflexivity];
    destruct H as (H & _); discriminate H|]); destruct I.
Qed.
Lemma ex_first : first_word (txt "12 Foo 3") (txt "Foo").
Proof.
  exists (txt "12 "), (txt " 3"). split; [reflexivity|]. split; [|split; [discriminate|split]].
  - intros c I L. apply letter_is in L. repeat (destruct I as [<- |I]; [discriminate L|]). destruct I.
  - intros c I. apply letter_is. repeat (destruct I as [<- |I]; [reflexivity|]). destruct I.
  - intros c r [=<- _] L. apply letter_is in L. discriminate L.
Qed.
Lemma ex_no_month : forall m f n, In (m, (f, n)) months -> ~ names (txt "Foo") m.
Proof.
  intros m f n I [H|H]; repeat (destruct I as [I|I]; [injection I as <- _ _; apply same_word_lower in H; [|reflexivity];
    destruct H as (H & _); discriminate H|]); destruct I.
Qed.
Lemma ex_digits_only : forall x, In x (txt "12") -> ~ letter x.
Proof. intros c I L. apply letter_is in L. repeat (destruct I as [<- |I]; [discriminate L|]). destruct I. Qed.
Lemma ex_letters_only : forall x, In x (txt "Foo") -> ~ decimal x.
Proof. intros c I L. apply decimal_is in L. repeat (destruct I as [<- |I]; [discriminate L|]). destruct I. Qed.
Lemma ex_one_digit : forall pre a b post, txt "5 s" = pre ++ a :: b :: post -> ~ (decimal a /\ decimal b).
Proof.
  intros pre a b post E [_ D]. apply decimal_is in D. destruct pre as [|? [|? [|? [|? ?]]]]; injection E; intros; subst; discriminate.
Qed.
Lemma ex_unit_week : unit_word "week" TWeek.
Proof. unfold unit_word. cbn. tauto. Qed.
Lemma ex_cycle_week : cycle_word "weekly" TWeek.
Proof. unfold cycle_word. cbn. tauto. Qed.
Lemma ex_twelve : number (txt "12") 12.
Proof. exact (proj1 (two_ok 1 2 ltac:(lia) ltac:(lia))). Qed.
Theorem month_number : forall clock millis n m e tp sg rc, number n m -> 1 <= m <= 12 ->
  period_text clock millis TYear (Some n) e tp sg rc = Err AttributeError.
Proof.
  intros clock millis n m e tp sg rc N _. apply no_word; [now right|]. intros c I L. apply letter_is in L.
  apply number_digits in N. destruct N as (_ & D & _). rewrite forallb_forall in D. specialize (D c I).
  unfold is_digit, Duration.is_digit in D. unfold is_letter in L. lia.
Qed.
Lemma ex_three : digit_of "3" 3.
Proof. split; [reflexivity|lia]. Qed.
Lemma ex_twos : two (txt "18") 18 /\ two (txt "30") 30 /\ two (txt "45") 45.
Proof.
  exact (conj (two_ok 1 8 ltac:(lia) ltac:(lia)) (conj (two_ok 3 0 ltac:(lia) ltac:(lia)) (two_ok 4 5 ltac:(lia) ltac:(lia)))).
Qed.
Lemma ex_thirty_two : number (txt "32") 32 /\ suffix (txt "nd").
Proof.
  split; [exact (proj1 (two_ok 3 2 ltac:(lia) ltac:(lia)))|]. right. right. exists "nd"%string. split; [cbn; tauto|].
  unfold same_word. cbn. letters.
Qed.
