(** Reading crontab lines. *)
From Coq Require Import List Bool Arith Ascii String ZArith NArith Lia ZifyBool.
From Verif Require Import Model.Base Model.Interval Model.Calendar Model.Anchored Model.Period Model.Cron
  Model.Statement Model.AnchorText Model.CronText
  Spec.StatementSpec Spec.AnchorTextSpec Spec.CronTextSpec.
From Verif Require Model.Duration.
From Verif Require Import Proofs.StatementResults Proofs.AnchorTextProofs Proofs.AnchorTextExamples.
Import ListNotations.
Local Open Scope Z_scope.
Local Open Scope list_scope.

(** ** Splitting *)

Lemma split_none : forall d s, has d s = false -> split_at d s = [s].
Proof.
  intros d s. unfold has. induction s as [|c s IH]; intros H; [reflexivity|]. cbn [existsb] in H.
  apply orb_false_iff in H. destruct H as [H H']. cbn [split_at]. rewrite Ascii.eqb_sym, H. now rewrite IH.
Qed.
Lemma split_app : forall d a b, has d a = false -> split_at d (a ++ [d] ++ b) = a :: split_at d b.
Proof.
  intros d a b. unfold has. induction a as [|c a IH]; intros H.
  - cbn [app split_at]. now rewrite Ascii.eqb_refl.
  - cbn [existsb] in H. apply orb_false_iff in H. destruct H as [H H']. cbn [app split_at].
    rewrite Ascii.eqb_sym, H. cbn [app] in IH. now rewrite IH.
Qed.
Lemma has_app : forall d a b, has d (a ++ b) = has d a || has d b.
Proof. intros. apply existsb_app. Qed.
Lemma split_blank_is : forall s, split_blank s = split_at " " s.
Proof. induction s as [|c s IH]; [reflexivity|]. cbn [split_blank split_at]. now rewrite IH. Qed.

(** ** Values *)

Definition plain_text (s : list ascii) : bool := forallb (fun c => is_letter c || is_digit c) s.
Lemma plain_has : forall d s, plain_text s = true -> is_letter d || is_digit d = false -> has d s = false.
Proof.
  intros d s P D. destruct (has d s) eqn:H; [|reflexivity]. unfold has in H. apply existsb_exists in H.
  destruct H as (c & I & E). apply Ascii.eqb_eq in E. subst c. unfold plain_text in P. rewrite forallb_forall in P.
  rewrite (P d I) in D. discriminate D.
Qed.
Lemma letters_plain : forall s, forallb is_letter s = true -> plain_text s = true.
Proof. intros s. unfold plain_text. rewrite !forallb_forall. intros H c I. now rewrite (H c I). Qed.
Lemma digits_plain : forall s, forallb is_digit s = true -> plain_text s = true.
Proof. intros s. unfold plain_text. rewrite !forallb_forall. intros H c I. rewrite (H c I). apply orb_true_r. Qed.
Lemma number_plain : forall s n, number s n -> plain_text s = true /\ s <> [] /\ isdigit s = true /\ to_int s = n.
Proof.
  intros s n H. apply number_digits in H. destruct H as (N & D & E). split; [now apply digits_plain|].
  split; [exact N|]. split; [|exact E]. unfold isdigit. destruct s; [now destruct N|exact D].
Qed.
Lemma letters_isdigit : forall s, forallb is_letter s = true -> isdigit s = false.
Proof.
  intros [|c s] L; [reflexivity|]. cbn [forallb] in L. apply andb_prop in L. destruct L as [L _].
  unfold isdigit. cbn [forallb]. unfold is_letter in L. unfold is_digit, Duration.is_digit. apply andb_false_intro1. lia.
Qed.
Lemma months_name : forall k w range s, nth_error months k = Some (w, range) -> names s w ->
  forallb is_letter s = true /\ s <> [] /\ year_mapping (lower s) = Some (Z.of_nat k).
Proof.
  intros k w range s E N. do 12 (destruct k as [|k]; [injection E as <- <-;
    (destruct N as [N|N]; (apply same_word_lower in N; [|reflexivity]);
     destruct N as (N & L & X); rewrite N; (split; [exact L|]); (split; [apply X; discriminate|reflexivity]))|]).
  destruct k; discriminate E.
Qed.

Lemma value_plain : forall c s v, writes_value c s v -> plain_text s = true /\ s <> [].
Proof.
  intros c s v [c' x n H|x w k I N|x k w range I N].
  - apply number_plain in H. tauto.
  - destruct (day_name w k x I N) as (L & X & _). split; [now apply letters_plain|exact X].
  - destruct (months_name k w range x I N) as (L & X & _). split; [now apply letters_plain|exact X].
Qed.
Lemma value_not_star : forall c s v, writes_value c s v -> is_star s = false.
Proof.
  intros c s v H. apply value_plain in H. destruct H as [P _]. unfold is_star.
  destruct (list_eq_dec ascii_dec s _) as [->|_]; [discriminate P|reflexivity].
Qed.

Section Lines.
  Variable clock millis : list ascii -> result Z.
  Hypothesis C : reads_clock clock.

  Lemma value_read : forall c s v, writes_value c s v ->
    arg_value clock millis c (read_arg c s) = Ok (cval_arg c v) /\ mapped c (read_arg c s) = cval_index c v.
  Proof using.
    intros c s v [c' x n H|x w k I N|x k w range I N]; unfold read_arg.
    - apply number_plain in H. destruct H as (_ & _ & -> & ->). now split.
    - destruct (day_name w k x I N) as (L & X & E & _). rewrite (letters_isdigit x L).
      assert (F : search_word x = Some (x, [])).
      { rewrite <- (app_nil_r x) at 1. now rewrite (word_found x [] L X (or_introl eq_refl)). }
      split; cbn [arg_value read_text mapped cval_arg cval_index unit_name unit_mapping].
      + unfold read_week. rewrite F, E. reflexivity.
      + now rewrite E.
    - destruct (months_name k w range x I N) as (L & X & E). rewrite (letters_isdigit x L).
      assert (F : search_word x = Some (x, [])).
      { rewrite <- (app_nil_r x) at 1. now rewrite (word_found x [] L X (or_introl eq_refl)). }
      split; cbn [arg_value read_text mapped cval_arg cval_index unit_name unit_mapping].
      + unfold read_year. rewrite F, E. reflexivity.
      + now rewrite E.
  Qed.
  Lemma at_value : forall c a v, arg_value clock millis c a = Ok v -> at_arg clock millis c a = period_at c v.
  Proof using. intros c a v E. unfold at_arg. now rewrite E. Qed.
  Lemma range_value : forall c a b v w, arg_value clock millis c a = Ok v -> arg_value clock millis c b = Ok w ->
    range_arg clock millis c a b = period c (Some v) (Some w).
  Proof using.
    intros c a b v w E F. unfold range_arg. rewrite E, F. cbn [bind]. unfold period, mk_anchored.
    destruct (set_start c (Some v)); reflexivity.
  Qed.

  (** ** The names of the units *)
  Definition cron_class (c : acls) : Prop := c = THour \/ c = TDay \/ c = TMonth \/ c = TYear \/ c = TWeek.
  Lemma two_digits_ok : forall n, 0 <= n < 100 -> two (two_digits n) n.
  Proof using.
    intros n R. unfold two_digits, digit_char. replace n with (10 * (n / 10) + n mod 10) at 3 by (pose proof (Z.div_mod n 10); lia).
    apply two_ok; [pose proof (Z.div_pos n 10); pose proof (Z.div_lt_upper_bound n 10 10)|pose proof (Z.mod_pos_bound n 10)]; lia.
  Qed.
  Lemma units_read : forall c i, cron_class c -> 0 <= i < units c ->
    read_text clock millis c (unit_text c i) = Ok (unit_name c i).
  Proof using C.
    intros c i K R. destruct K as [-> |[-> |[-> |[-> | ->]]]]; cbn [units] in R.
    - assert (S : spelled THour (two_digits i ++ colon ++ txt "00" ++ []) (i * us_minute + 0 * us_second + 0)
                  (i * us_minute + 0 * us_second + 0)).
      { apply spelled_hour; [apply two_digits_ok; lia|lia|exact (two_ok 0 0 ltac:(lia) ltac:(lia))|lia|constructor]. }
      destruct (spelled_read clock millis C _ _ _ _ S) as (v & E & F & _).
      change (two_digits i ++ colon ++ txt "00" ++ []) with (unit_text THour i) in E. rewrite E. f_equal.
      cbn [unit_name]. cbn [read_text] in E. unfold read_hour in E.
      destruct (search_hour _) as [us|] eqn:Q.
      + injection E as <-. f_equal. cbn [anchor anchor_str] in F. injection F as F. lia.
      + exfalso. cbn [unit_text] in Q. unfold two_digits in Q. cbn [app txt list_ascii_of_string search_hour minute_second] in Q.
        destruct (two_is _ _ (two_digits_ok i ltac:(lia))) as (a & b & X & Da & Db & _).
        unfold two_digits in X. injection X as <- <-. rewrite Da, Db in Q. discriminate Q.
    - cbn [read_text unit_text unit_name].
      assert (S : clock_text (two_digits i ++ colon ++ txt "00") (i * us_hour + 0 * us_minute)).
      { destruct (two_digits_ok i ltac:(lia)) as [N L]. apply clock_hm; [exact N|rewrite L; lia|lia|exact (two_ok 0 0 ltac:(lia) ltac:(lia))|lia]. }
      change (two_digits i ++ txt ":00") with (two_digits i ++ colon ++ txt "00"). rewrite (C _ _ S). cbn [bind].
      do 2 f_equal. lia.
    - assert (I : In i (map Z.of_nat (seq 0 31))).
      { apply in_map_iff. exists (Z.to_nat i). split; [lia|apply in_seq; lia]. }
      clear R. cbn in I. repeat (destruct I as [<- |I]; [reflexivity|]). destruct I.
    - assert (I : In i (map Z.of_nat (seq 0 12))).
      { apply in_map_iff. exists (Z.to_nat i). split; [lia|apply in_seq; lia]. }
      clear R. cbn in I. repeat (destruct I as [<- |I]; [reflexivity|]). destruct I.
    - assert (I : In i (map Z.of_nat (seq 0 7))).
      { apply in_map_iff. exists (Z.to_nat i). split; [lia|apply in_seq; lia]. }
      clear R. cbn in I. repeat (destruct I as [<- |I]; [reflexivity|]). destruct I.
  Qed.
  Lemma map_result_ext : forall {A B} (f g : A -> result B) l, (forall x, In x l -> f x = g x) ->
    map_result f l = map_result g l.
  Proof using.
    intros A B f g l. induction l as [|x l IH]; intros H; [reflexivity|]. cbn [map_result].
    rewrite (H x (or_introl eq_refl)), IH; [reflexivity|]. intros y I. apply H. now right.
  Qed.
  Lemma range_read : forall c start stop step, cron_class c ->
    create_range_text clock millis c start stop step = create_range c start stop step.
  Proof using C.
    intros c start stop step K. unfold create_range_text, create_range. destruct (step =? 0); [reflexivity|].
    rewrite (map_result_ext _ (fun i => let* p := period_at c (unit_name c i) in Ok (PAnch p))); [reflexivity|].
    intros i I. unfold slice in I. apply filter_In in I. destruct I as [I _]. apply in_map_iff in I.
    destruct I as (n & <- & I). apply in_seq in I.
    rewrite (at_value c (CText (unit_text c (Z.of_nat n))) (unit_name c (Z.of_nat n))); [reflexivity|].
    cbn [arg_value]. apply units_read; [exact K|lia].
  Qed.

  (** ** Items *)
  Lemma no_char : forall d s, plain_text s = true -> In d ["*"; "/"; "-"; ","; " "]%char -> has d s = false.
  Proof using.
    intros d s P I. apply plain_has; [exact P|].
    repeat (destruct I as [<- |I]; [reflexivity|]). destruct I.
  Qed.
  Ltac none := apply no_char; [eassumption|cbn; tauto].

  Lemma not_star_app : forall a b, a <> [] -> b <> [] -> is_star (a ++ b) = false.
  Proof using.
    intros a b A B. unfold is_star. destruct (list_eq_dec ascii_dec _ _) as [E|_]; [|reflexivity].
    destruct a as [|x [|y a]]; [now destruct A| |discriminate E]. destruct b; [now destruct B|discriminate E].
  Qed.
  Lemma number_step : forall x n, number x n -> int_text x = Ok n.
  Proof using. intros x n H. apply number_plain in H. destruct H as (_ & _ & D & E). unfold int_text. now rewrite D, E. Qed.

  Lemma item_read : forall c s it, cron_class c -> writes_item c s it ->
    item_text clock millis c s = item_period c it.
  Proof using C.
    intros c s it K H.
    destruct H as [c|c x n N|c s v V|c s v x n V N|c s v s' v' V W|c s v s' v' x n V W N].
    - reflexivity.
    - destruct (number_plain x n N) as (P & X & _). unfold item_text.
      rewrite not_star_app by (discriminate). cbn [slash star_of app].
      replace (has "/" ("*"%char :: "/"%char :: x)) with true by reflexivity.
      change ("*"%char :: "/"%char :: x) with (["*"%char] ++ ["/"%char] ++ x). rewrite split_app by reflexivity.
      rewrite split_none by none. rewrite (number_step x n N). cbn [bind]. rewrite range_read by exact K.
      cbn [item_period]. destruct (create_range c 0 (units c) n) as [p|y] eqn:Q; [|reflexivity]. cbn [bind].
      change (has "-" ["*"%char]) with false. cbn [bind]. rewrite range_read, Q by exact K. reflexivity.
    - destruct (value_plain c s v V) as [P X]. unfold item_text. rewrite (value_not_star c s v V).
      rewrite (no_char "/" s P) by (cbn; tauto). cbn [bind]. rewrite (no_char "-" s P) by (cbn; tauto). cbn [bind].
      rewrite (value_not_star c s v V). destruct (value_read c s v V) as [A _]. rewrite (at_value _ _ _ A). reflexivity.
    - destruct (value_plain c s v V) as [P X]. destruct (number_plain x n N) as (P' & X' & _). unfold item_text.
      rewrite not_star_app by (exact X || discriminate). rewrite !has_app. change (has "/" slash) with true.
      rewrite (no_char "/" s P) by (cbn; tauto). cbn [orb]. unfold slash.
      rewrite split_app by none. rewrite split_none by none.
      rewrite (number_step x n N). cbn [bind]. rewrite range_read by exact K. cbn [item_period].
      destruct (create_range c 0 (units c) n) as [p|y] eqn:Q; [|reflexivity]. cbn [bind].
      rewrite (no_char "-" s P) by (cbn; tauto). rewrite range_read, Q by exact K. cbn [bind].
      rewrite (value_not_star c s v V). destruct (value_read c s v V) as [A _]. rewrite (at_value _ _ _ A). reflexivity.
    - destruct (value_plain c s v V) as [P X]. destruct (value_plain c s' v' W) as [P' X']. unfold item_text.
      rewrite not_star_app by (exact X || discriminate).
      rewrite !has_app. rewrite (no_char "/" s P), (no_char "/" s' P') by (cbn; tauto).
      change (has "/" dash) with false. cbn [orb bind]. rewrite !has_app. change (has "-" dash) with true.
      cbn [orb]. rewrite orb_true_r. unfold dash. rewrite split_app by none. rewrite split_none by none.
      destruct (value_read c s v V) as [A _]. destruct (value_read c s' v' W) as [B _].
      rewrite (range_value c _ _ _ _ A B). reflexivity.
    - destruct (value_plain c s v V) as [P X]. destruct (value_plain c s' v' W) as [P' X'].
      destruct (number_plain x n N) as (P'' & X'' & _). unfold item_text.
      rewrite not_star_app by (exact X || discriminate).
      assert (E : s ++ dash ++ s' ++ slash ++ x = (s ++ dash ++ s') ++ slash ++ x) by (now rewrite <- !app_assoc).
      rewrite E. assert (NS : has "/" (s ++ dash ++ s') = false).
      { rewrite !has_app. rewrite (no_char "/" s P), (no_char "/" s' P') by (cbn; tauto). reflexivity. }
      rewrite !(has_app "/" (s ++ dash ++ s')), (has_app "/" slash), NS. change (has "/" slash) with true. cbn [orb].
      unfold slash.
      rewrite (split_app "/" (s ++ dash ++ s') x NS). rewrite split_none by none.
      rewrite (number_step x n N). cbn [bind]. rewrite range_read by exact K. cbn [item_period].
      destruct (create_range c 0 (units c) n) as [p|y] eqn:Q; [|reflexivity]. cbn [bind].
      rewrite !has_app. change (has "-" dash) with true. rewrite (no_char "-" s P) by (cbn; tauto). cbn [orb].
      unfold dash. rewrite split_app by none. rewrite split_none by none.
      destruct (value_read c s v V) as [_ A]. destruct (value_read c s' v' W) as [_ B]. rewrite A, B.
      destruct (cval_index c v') as [stop|]; [|reflexivity]. cbn [bind].
      destruct (cval_index c v) as [start|]; [|reflexivity]. cbn [bind]. now rewrite range_read by exact K.
  Qed.

  (** ** Fields *)
  Lemma item_no : forall c s it d, writes_item c s it -> In d [","; " "]%char -> has d s = false.
  Proof using.
    clear C clock millis. intros c s it d H I. assert (I' : In d ["*"; "/"; "-"; ","; " "]%char) by (cbn in I |- *; tauto).
    assert (Z0 : forall y, In y [star_of; slash; dash] -> has d y = false).
    { intros y Y. repeat (destruct I as [<- |I]; [repeat (destruct Y as [<- |Y]; [reflexivity|]); destruct Y|]). destruct I. }
    assert (Zs : has d star_of = false) by (apply Z0; cbn; tauto).
    assert (Zl : has d slash = false) by (apply Z0; cbn; tauto).
    assert (Zd : has d dash = false) by (apply Z0; cbn; tauto).
    assert (NV : forall c s v, writes_value c s v -> has d s = false).
    { intros c0 y v V. apply value_plain in V. now apply no_char. }
    assert (NN : forall s n, number s n -> has d s = false).
    { intros y n V. apply number_plain in V. now apply no_char. }
    destruct H as [c|c x n N|c s v V|c s v x n V N|c s v s' v' V W|c s v s' v' x n V W N]; rewrite ?has_app, ?Zs, ?Zl, ?Zd;
      repeat match goal with
             | V : writes_value _ ?s _ |- context [has d ?s] => rewrite (NV _ _ _ V)
             | N : number ?x _ |- context [has d ?x] => rewrite (NN _ _ N)
             end; reflexivity.
  Qed.
  Lemma pieces_read : forall c s its full, cron_class c -> writes_field c s its ->
    pieces_period clock millis c full (split_at "," s) = field_period c full its.
  Proof using C.
    intros c s its full K H. revert full. induction H as [c s it I|c s it s' its I H IH]; intros full.
    - rewrite split_none by (apply (item_no c s it); [exact I|cbn; tauto]). cbn [pieces_period field_period].
      now rewrite (item_read c s it K I).
    - unfold comma. rewrite split_app by (apply (item_no c s it); [exact I|cbn; tauto]).
      cbn [pieces_period field_period]. rewrite (item_read c s it K I). destruct (item_period c it); [|reflexivity].
      cbn [bind]. now apply IH.
  Qed.
  Lemma field_read : forall c s its, cron_class c -> writes_field c s its ->
    field_text clock millis c s = get_field c its.
  Proof using C. intros c s its K H. unfold field_text, get_field. now rewrite (pieces_read c s its None K H). Qed.

  (** ** Lines *)
  Lemma field_no_blank : forall c s its, writes_field c s its -> has " " s = false.
  Proof using.
    clear C clock millis. intros c s its H. induction H as [c s it I|c s it s' its I H IH].
    - apply (item_no c s it); [exact I|cbn; tauto].
    - rewrite !has_app, IH, (item_no c s it " "%char I) by (cbn; tauto). reflexivity.
  Qed.
  Lemma field_some : forall c s its, writes_field c s its -> s <> [].
  Proof using.
    clear C clock millis. assert (X : forall c s it, writes_item c s it -> s <> []).
    { intros c s it [c'|c' x n N|c' y v V|c' y v x n V N|c' y v s' v' V W|c' y v s' v' x n V W N]; try discriminate;
        apply value_plain in V; destruct V as [_ V]; try exact V; intros E; apply app_eq_nil in E; now apply V. }
    intros c s its [c' y it I|c' y it s' its' I H]; apply X in I; [exact I|]. intros E. apply app_eq_nil in E. now apply I.
  Qed.
  Theorem line_read : forall s e, writes_line s e -> exists l, mk_cron (cron_args s) = Ok l /\
    text_subperiod clock millis l = get_subperiod e.
  Proof using C.
    intros s e [m h d mo w ms hs ds mos ws M H D Mo W].
    assert (A : cron_args (m ++ blank ++ h ++ blank ++ d ++ blank ++ mo ++ blank ++ w) = [m; h; d; mo; w]).
    { pose proof (field_some _ _ _ M) as X. destruct m as [|x m]; [now destruct X|].
      unfold cron_args. cbn [app]. rewrite split_blank_is. rewrite app_comm_cons. unfold blank.
      rewrite split_app by (now apply (field_no_blank THour _ ms)). rewrite split_app by (now apply (field_no_blank TDay _ hs)).
      rewrite split_app by (now apply (field_no_blank TMonth _ ds)). rewrite split_app by (now apply (field_no_blank TYear _ mos)).
      rewrite split_none by (now apply (field_no_blank TWeek _ ws)). reflexivity. }
    rewrite A. exists (CronText m h d mo w). split; [reflexivity|]. unfold text_subperiod, get_subperiod.
    cbn [t_minute t_hour t_dom t_month t_dow c_minute c_hour c_dom c_month c_dow].
    rewrite (field_read TMonth d ds), (field_read TWeek w ws), (field_read THour m ms), (field_read TDay h hs),
      (field_read TYear mo mos) by (assumption || (unfold cron_class; tauto)). reflexivity.
  Qed.
End Lines.
