(** Periods and conditions made from texts. *)
From Coq Require Import List Bool Arith Ascii String ZArith NArith Lia ZifyBool.
From Verif Require Import Model.Base Model.Calendar Model.Anchored Model.Statement Model.AnchorText
  Spec.StatementSpec Spec.PeriodSpec Spec.AnchorTextSpec.
From Verif Require Model.Duration.
From Verif Require Import Proofs.FixedCycleProofs Proofs.ClockProofs Proofs.CalendarProofs Proofs.MonthProofs Proofs.YearProofs
  Proofs.StatementResults Proofs.AnchorTextProofs.
Import ListNotations.
Local Open Scope Z_scope.
Local Open Scope list_scope.

(** ** Moments *)

Lemma cycle_is : forall c, cycle_length c = scope_max c.
Proof. now intros []. Qed.
Ltac Zify.zify_post_hook ::= Z.div_mod_to_equations.
Lemma since_is : forall c t, anchor_dt c t = since_start c t.
Proof.
  intros c t. destruct c; cbn [since_start].
  - rewrite (anchor_dt_fixed TSecond _ t fc_second). reflexivity.
  - rewrite (anchor_dt_fixed TMinute _ t fc_minute). reflexivity.
  - rewrite (anchor_dt_fixed THour _ t fc_hour). reflexivity.
  - rewrite (anchor_dt_fixed TDay _ t fc_day). reflexivity.
  - rewrite (anchor_dt_fixed TWeek _ t fc_week). reflexivity.
  - unfold anchor_dt, to_microseconds, dt_hour, dt_minute, dt_second, dt_microsecond.
    unfold us_day, us_hour, us_minute, us_second, us_millisecond.
    pose proof (Z.mod_pos_bound t 86400000000 eq_refl).
    lia.
  - rewrite year_anchor_dt. unfold leap_days_before. destruct (dt_ymd_valid t) as [[Hm _] _].
    assert (E : ystart (dt_month t) = match nth_error months (Z.to_nat (dt_month t - 1)) with
                                      | Some (_, (first, _)) => first | None => 0 end).
    { generalize Hm. generalize (dt_month t). intros m C. mcases C; reflexivity. }
    rewrite E. lia.
Qed.
Ltac Zify.zify_post_hook ::= idtac.
Lemma since_scope : forall c t, 0 <= since_start c t < cycle_length c.
Proof.
  intros c t. rewrite <- since_is, cycle_is. destruct c; try (apply anchor_dt_scope; discriminate).
  apply year_anchor_scope.
Qed.
Lemma member : forall c s e t, acontains (Anchored c s e) t = true <-> clock_range s e (since_start c t).
Proof.
  intros c s e t. rewrite <- since_is. apply (acontains_clock (Anchored c s e) t). cbn [a_cls].
  rewrite since_is, <- cycle_is. apply since_scope.
Qed.

Lemma spelled_range : forall c s f u, spelled c s f u -> 0 <= f < cycle_length c /\ f <= u <= cycle_length c /\
  (f < u -> c <> TYear -> u = f + unit_length c).
Proof.
  intros c s f u H.
  destruct H as [s x second us S B F|m s x minute second us M B S B' F|s us H|s w n I N|s w n x us I N T|s day D
                |s day x us D T|s w first next I N|s w first next d day I N D B|s w first next d day x us I N D B T];
    cbn [cycle_length unit_length].
  - apply two_is in S. destruct S as (_ & _ & _ & _ & _ & _ & P). apply fraction_is in F.
    change (10 ^ 6) with 1000000 in F. unfold us_minute, us_second. (split; [lia|]); (split; [lia|]); intros; lia || congruence.
  - apply two_is in S. destruct S as (_ & _ & _ & _ & _ & _ & P). apply two_is in M. destruct M as (_ & _ & _ & _ & _ & _ & Q).
    apply fraction_is in F. change (10 ^ 6) with 1000000 in F. unfold us_hour, us_minute, us_second. (split; [lia|]); (split; [lia|]); intros; lia || congruence.
  - apply clock_shape in H. (split; [lia|]); (split; [lia|]); intros; lia || congruence.
  - apply (day_name w n s I) in N. unfold us_day. (split; [lia|]); (split; [lia|]); intros; lia || congruence.
  - apply (day_name w n s I) in N. apply clock_shape in T. unfold us_day in *. (split; [lia|]); (split; [lia|]); intros; lia || congruence.
  - apply day_shape in D. unfold us_day. (split; [lia|]); (split; [lia|]); intros; lia || congruence.
  - apply day_shape in D. apply clock_shape in T. unfold us_day in *. (split; [lia|]); (split; [lia|]); intros; lia || congruence.
  - apply (month_name w first next s I) in N. destruct N as (_ & _ & n & N). unfold us_day. (split; [lia|]); (split; [lia|]); intros; lia || congruence.
  - apply (month_name w first next s I) in N. destruct N as (_ & _ & n & N). apply day_shape in D. unfold us_day. (split; [lia|]); (split; [lia|]); intros; lia || congruence.
  - apply (month_name w first next s I) in N. destruct N as (_ & _ & n & N). apply day_shape in D.
    apply clock_shape in T. unfold us_day in *. (split; [lia|]); (split; [lia|]); intros; lia || congruence.
Qed.

Lemma validates : forall c n, 0 <= n <= cycle_length c -> validate c n = Ok n.
Proof.
  intros c n R. rewrite cycle_is in R. unfold validate. destruct (Z.ltb_spec n 0); [lia|].
  destruct (Z.ltb_spec (scope_max c) n); [lia|]. reflexivity.
Qed.

(** ** Periods *)

Section Periods.
  Variable clock millis : list ascii -> result Z.
  Hypothesis C : reads_clock clock.
  Local Notation period_text := (period_text clock millis).

  Lemma start_read : forall c s f u, spelled c s f u -> set_start_text clock millis c (Some s) = Ok f.
  Proof using C.
    intros c s f u H. destruct (spelled_read clock millis C c s f u H) as (v & R & S & _).
    unfold set_start_text, anchor_text. rewrite R. cbn [bind]. rewrite S. cbn [bind]. apply validates.
    apply spelled_range in H. lia.
  Qed.
  Lemma end_read : forall c s f u st, spelled c s f u -> c <> TYear ->
    set_end_text clock millis c st (Some s) false false false = Ok u.
  Proof using C.
    intros c s f u st H N. destruct (spelled_read clock millis C c s f u H) as (v & R & _ & E).
    assert (E' : anchor c v SEnd = Ok u) by (destruct c; try exact E; now destruct N).
    unfold set_end_text, anchor_text. rewrite R. cbn [bind]. rewrite E'. cbn [bind]. apply validates.
    apply spelled_range in H. lia.
  Qed.

  Theorem text_between : forall c a b f u f' u', c <> TYear -> spelled c a f u -> spelled c b f' u' ->
    exists p, period_text c (Some a) (Some b) false false false = Ok p /\
      forall t, acontains p t = true <-> clock_range f u' (since_start c t).
  Proof using C.
    intros c a b f u f' u' N A B. exists (Anchored c f u'). split; [|apply member].
    unfold AnchorText.period_text. rewrite (start_read c a f u A). cbn [bind].
    rewrite (end_read c b f' u' f B N). reflexivity.
  Qed.
  Theorem text_after : forall c a f u, spelled c a f u ->
    exists p, period_text c (Some a) None false false false = Ok p /\
      forall t, acontains p t = true <-> f <= since_start c t.
  Proof using C.
    intros c a f u A. exists (Anchored c f (cycle_length c)). apply spelled_range in A as R. split.
    - unfold AnchorText.period_text. rewrite (start_read c a f u A). cbn [bind].
      unfold set_end_text. cbn [bind]. rewrite <- cycle_is, validates by lia. reflexivity.
    - intros t. rewrite member. pose proof (since_scope c t). unfold clock_range. lia.
  Qed.
  Theorem text_before : forall c b f u, c <> TYear -> spelled c b f u -> 0 < u ->
    exists p, period_text c None (Some b) false false false = Ok p /\
      forall t, acontains p t = true <-> since_start c t < u.
  Proof using C.
    intros c b f u N B P. exists (Anchored c 0 u). split.
    - unfold AnchorText.period_text. unfold set_start_text. cbn [bind]. apply spelled_range in B as R.
      rewrite validates by lia. cbn [bind]. rewrite (end_read c b f u 0 B N). reflexivity.
    - intros t. rewrite member. pose proof (since_scope c t). unfold clock_range. lia.
  Qed.
  Theorem before_midnight : exists p, period_text TDay None (Some (txt "00:00")) false false false = Ok p /\
    forall t, acontains p t = true.
  Proof using C.
    assert (S : clock_text (txt "00:00") 0).
    { apply (clock_hm (txt "00") (txt "00") 0 0); [|cbn; lia|lia| |lia].
      - apply (number_more ["0"%char] 0 "0"%char 0); [apply number_one|]; now split.
      - split; [|reflexivity]. apply (number_more ["0"%char] 0 "0"%char 0); [apply number_one|]; now split. }
    exists (Anchored TDay 0 0). split.
    - unfold AnchorText.period_text. unfold set_start_text. cbn [bind]. rewrite validates by (cbn [cycle_length]; unfold us_day; lia). cbn [bind].
      rewrite (end_read TDay _ 0 0 0 (spelled_day _ _ S) ltac:(discriminate)). reflexivity.
    - intros t. apply member. now left.
  Qed.
  Lemma timepoint : forall c f, c <> TYear -> 0 <= f < cycle_length c ->
    to_timepoint c f = Ok ((f + unit_length c) mod cycle_length c).
  Proof using.
    intros c f N R. rewrite cycle_is in *. assert (U : unit_resolution c = unit_length c) by (destruct c; easy).
    assert (W : 0 < unit_length c < scope_max c) by (destruct c; cbv; now split).
    assert (G : to_timepoint c f = let end_ms := f + unit_resolution c in
                  Ok (if scope_max c <=? end_ms then end_ms - scope_max c else end_ms))
      by (destruct c; try reflexivity; now destruct N).
    rewrite G, U. cbv zeta. f_equal. clear G U. set (m := scope_max c) in *. set (l := unit_length c) in *.
    destruct (Z.leb_spec m (f + l)) as [L|L]; [|symmetry; apply Z.mod_small; lia].
    apply (Z.mod_unique (f + l) m 1); [left; lia|lia].
  Qed.
  Lemma on_read : forall c a f u, c <> TYear -> spelled c a f u ->
    period_text c (Some a) None true false false = Ok (Anchored c f ((f + unit_length c) mod cycle_length c)).
  Proof using C.
    intros c a f u N A. apply spelled_range in A as R. unfold AnchorText.period_text.
    rewrite (start_read c a f u A). cbn [bind]. unfold set_end_text. rewrite timepoint by (assumption || lia). cbn [bind].
    rewrite validates; [reflexivity|]. pose proof (Z.mod_pos_bound (f + unit_length c) (cycle_length c) ltac:(lia)). lia.
  Qed.
  Theorem text_on_name : forall c a f u, c <> TYear -> spelled c a f u -> f < u ->
    exists p, period_text c (Some a) None true false false = Ok p /\
      forall t, acontains p t = true <-> f <= since_start c t < u.
  Proof using C.
    intros c a f u N A L. eexists. split; [now apply (on_read c a f u)|]. intros t. rewrite member.
    apply spelled_range in A. destruct A as (R & R' & E). rewrite <- (E L N). pose proof (since_scope c t).
    assert (D : u < cycle_length c \/ u = cycle_length c) by lia. unfold clock_range. destruct D as [D| ->].
    - rewrite Z.mod_small by lia. lia.
    - rewrite Z.mod_same by lia. destruct (Z.eq_dec f 0) as [->|]; [lia|]. lia.
  Qed.
  Theorem text_on_moment : forall c a f, c <> TYear -> spelled c a f f ->
    exists p, period_text c (Some a) None true false false = Ok p /\
      forall t, acontains p t = true <-> clock_range f ((f + unit_length c) mod cycle_length c) (since_start c t).
  Proof using C. intros c a f N A. eexists. split; [now apply (on_read c a f f)|]. intros t. apply member. Qed.

  (** Months of the year *)
  Theorem text_months : forall a b w w' f n f' n', In (w, (f, n)) months -> names a w ->
    In (w', (f', n')) months -> names b w' ->
    exists p, period_text TYear (Some a) (Some b) false false false = Ok p /\
      forall t, acontains p t = true <-> clock_range (f * us_day) (n' * us_day - 1) (since_start TYear t).
  Proof using C.
    intros a b w w' f n f' n' I N I' N'. exists (Anchored TYear (f * us_day) (n' * us_day - 1)). split; [|apply member].
    unfold AnchorText.period_text. rewrite (start_read TYear a _ _ (spelled_month a w f n I N)). cbn [bind].
    destruct (month_name w' f' n' b I' N') as (L & X & k & E & S & S' & R).
    unfold set_end_text, anchor_text. cbn [read_text]. unfold read_year.
    rewrite <- (app_nil_r b), (word_found b [] L X (or_introl eq_refl)), E.
    change (dots (opt_blank [])) with (@nil ascii). cbn [bind anchor anchor_str is_end]. rewrite S'. cbn [bind].
    rewrite validates; [reflexivity|]. cbn [cycle_length]. unfold us_day. lia.
  Qed.
  Theorem text_year_after : forall a f u, spelled TYear a f u ->
    exists p, period_text TYear (Some a) None false false false = Ok p /\
      forall t, acontains p t = true <-> f <= since_start TYear t.
  Proof using C. intros a f u. apply text_after. Qed.
  (** As an end a day is not included. *)
  Theorem year_day_end : forall b d w f n day, In (w, (f, n)) months -> names b w -> day_text d day -> day <= n - f ->
    1 < f + day ->
    exists p, period_text TYear None (Some (b ++ blank ++ d)) false false false = Ok p /\
      forall t, acontains p t = true <-> since_start TYear t < (f + day - 1) * us_day.
  Proof using C.
    intros b d w f n day I N D B P. exists (Anchored TYear 0 ((f + day - 1) * us_day)).
    destruct (month_name w f n b I N) as (L & X & k & E & S & S' & R). pose proof (month_read clock C d day D) as M.
    apply day_shape in D. destruct D as (Nd & Dd & Rd). split.
    - unfold AnchorText.period_text. unfold set_start_text. cbn [bind]. rewrite validates by (cbn [cycle_length]; unfold us_day; lia). cbn [bind].
      unfold set_end_text, anchor_text. cbn [read_text]. unfold read_year.
      rewrite (word_found b (blank ++ d) L X (or_intror (ex_intro _ d eq_refl))), E.
      change (opt_blank (blank ++ d)) with d. rewrite dots_all by exact Dd. rewrite M.
      destruct d as [|c d]; [now destruct Nd|]. cbn [bind anchor anchor_str]. rewrite S. cbn [bind].
      unfold month_anchor_str. cbn [is_end].
      replace (f * us_day + (us_day * (day - 1) + 0)) with ((f + day - 1) * us_day) by lia.
      rewrite validates; [reflexivity|]. cbn [cycle_length]. unfold us_day. lia.
    - intros t. rewrite member. pose proof (since_scope TYear t). unfold clock_range. cbn [cycle_length] in *.
      unfold us_day in *. lia.
  Qed.
  (** Something on a day of the year cannot be asked for. *)
  Theorem year_day_on : forall a d w f n day, In (w, (f, n)) months -> names a w -> day_text d day -> 1 < day ->
    day <= n - f -> period_text TYear (Some (a ++ blank ++ d)) None true false false = Err KeyError.
  Proof using C.
    intros a d w f n day I N D B B'. unfold AnchorText.period_text.
    rewrite (start_read TYear _ _ _ (spelled_year_day a w f n d day I N D B')). cbn [bind].
    unfold set_end_text, to_timepoint. assert (Y : year_start_mapping ((f + day - 1) * us_day) = Err KeyError); [|now rewrite Y].
    unfold year_start_mapping.
    assert (F : find (fun k => match month_start_mapping k with Ok v => v =? (f + day - 1) * us_day | Err _ => false end)
                  [0; 1; 2; 3; 4; 5; 6; 7; 8; 9; 10; 11; 12] = None); [|now rewrite F].
    assert (G : forall k, In k [0; 1; 2; 3; 4; 5; 6; 7; 8; 9; 10; 11; 12] ->
                match month_start_mapping k with Ok v => v =? (f + day - 1) * us_day | Err _ => false end = false).
    { intros k K. repeat (destruct I as [I|I]; [injection I as <- <- <-;
        (repeat (destruct K as [K|K]; [subst k; cbn [month_start_mapping]; apply Z.eqb_neq; unfold us_day; lia|])); destruct K|]).
      destruct I. }
    revert G. generalize [0; 1; 2; 3; 4; 5; 6; 7; 8; 9; 10; 11; 12]. induction l as [|k l IH]; intros G; [reflexivity|].
    cbn [find]. rewrite (G k (or_introl eq_refl)). apply IH. intros x X. apply G. now right.
  Qed.

  (** ** Other texts *)

  Lemma first_found : forall s w, first_word s w -> exists rest, search_word s = Some (w, rest).
  Proof using.
    intros s w (pre & post & -> & P & N & L & Q). unfold search_word.
    rewrite skip_over.
    2: { rewrite forallb_forall. intros c I. destruct (is_letter c) eqn:E; [|reflexivity].
         apply letter_is in E. now destruct (P c I). }
    assert (F : forallb is_letter w = true).
    { rewrite forallb_forall. intros c I. apply letter_is. now apply L. }
    rewrite skip_here, span_app by (assumption || (intros c r E; destruct (is_letter c) eqn:K; [|reflexivity];
      apply letter_is in K; now destruct (Q c r E))).
    destruct w as [|c w]; [now destruct N|]. now eexists.
  Qed.
  Lemma none_found : forall f s, (forall c, In c s -> f c = false) -> skip_to f s = [].
  Proof using.
    intros f s. induction s as [|c s IH]; intros H; [reflexivity|]. cbn [skip_to]. rewrite (H c (or_introl eq_refl)).
    apply IH. intros x X. apply H. now right.
  Qed.
  Lemma same_back : forall a b, lower_char a = b -> same_letter a b.
  Proof using.
    intros a b E. unfold lower_char in E.
    destruct (N.leb_spec 65 (N_of_ascii a)) as [A|A]; cbn [andb] in E; [|now left].
    destruct (N.leb_spec (N_of_ascii a) 90) as [B|B]; [|now left].
    right. exists (N.to_nat (N_of_ascii a) - 65)%nat. split; [lia|]. left. split.
    - rewrite <- (ascii_nat_embedding a) at 1. unfold nat_of_ascii. f_equal. lia.
    - rewrite <- E. unfold ascii_of_nat. f_equal. lia.
  Qed.
  Lemma word_back : forall s w, lower s = txt w -> same_word s w.
  Proof using.
    intros s w E. unfold same_word. rewrite <- E. clear E. induction s as [|c s IH]; [constructor|].
    constructor; [now apply same_back|exact IH].
  Qed.
  Lemma position_back : forall s l n, position s l = Some n -> exists w, In w l /\ s = txt w.
  Proof using.
    intros s l. induction l as [|w l IH]; intros n H; [discriminate H|]. cbn [position] in H.
    destruct (list_eq_dec ascii_dec (txt w) s) as [E|_].
    - exists w. split; [now left|now symmetry].
    - destruct (position s l) as [m|]; [|discriminate H]. destruct (IH m eq_refl) as (x & I & E).
      exists x. split; [now right|exact E].
  Qed.
  Theorem unknown_day : forall s w e tp sg rc, first_word s w -> (forall d n, In (d, n) days -> ~ names w d) ->
    period_text TWeek (Some s) e tp sg rc = Err ValueError.
  Proof using.
    intros s w e tp sg rc F U. destruct (first_found s w F) as (rest & E).
    assert (M : week_mapping (lower w) = None).
    { unfold week_mapping, either.
      destruct (position (lower w) _) as [n|] eqn:P.
      - exfalso. destruct (position_back _ _ _ P) as (x & I & L). apply word_back in L.
        repeat (destruct I as [I|I]; [subst x; first
          [ apply (U "monday"%string 0); [cbn; tauto|now right] | apply (U "tuesday"%string 1); [cbn; tauto|now right]
          | apply (U "wednesday"%string 2); [cbn; tauto|now right] | apply (U "thursday"%string 3); [cbn; tauto|now right]
          | apply (U "friday"%string 4); [cbn; tauto|now right] | apply (U "saturday"%string 5); [cbn; tauto|now right]
          | apply (U "sunday"%string 6); [cbn; tauto|now right] ]|]). destruct I.
      - clear P. destruct (position (lower w) _) as [n|] eqn:P; [|reflexivity].
        exfalso. destruct (position_back _ _ _ P) as (x & I & L). apply word_back in L.
        repeat (destruct I as [I|I]; [subst x; eapply U; [|left; exact L]; cbn; tauto|]). destruct I. }
    assert (R : set_start_text clock millis TWeek (Some s) = Err ValueError).
    { unfold set_start_text, anchor_text. cbn [read_text]. unfold read_week. rewrite E, M. reflexivity. }
    unfold AnchorText.period_text. rewrite R. now destruct e.
  Qed.
  Theorem unknown_month : forall s w e tp sg rc, first_word s w ->
    (forall m f n, In (m, (f, n)) months -> ~ names w m) -> period_text TYear (Some s) e tp sg rc = Err KeyError.
  Proof using.
    intros s w e tp sg rc F U. destruct (first_found s w F) as (rest & E).
    assert (M : year_mapping (lower w) = None).
    { unfold year_mapping, either.
      destruct (position (lower w) _) as [n|] eqn:P.
      - exfalso. destruct (position_back _ _ _ P) as (x & I & L). apply word_back in L.
        repeat (destruct I as [I|I]; [subst x; eapply U; [|left; exact L]; cbn; tauto|]). destruct I.
      - clear P. destruct (position (lower w) _) as [n|] eqn:P; [|reflexivity].
        exfalso. destruct (position_back _ _ _ P) as (x & I & L). apply word_back in L.
        assert (K : exists m f n, In (m, (f, n)) months /\ substring 0 3 m = x).
        { repeat (destruct I as [I|I]; [subst x|]); try (destruct I);
            (eexists _, _, _; split; [|reflexivity]; cbn; tauto) || idtac.
          all: cbn; eauto 20. }
        destruct K as (m & f & k & K & <-). apply (U m f k K). now right. }
    assert (R : set_start_text clock millis TYear (Some s) = Err KeyError).
    { unfold set_start_text, anchor_text. cbn [read_text]. unfold read_year. rewrite E, M. reflexivity. }
    unfold AnchorText.period_text. rewrite R. now destruct e.
  Qed.
  Theorem no_word : forall c s e tp sg rc, c = TWeek \/ c = TYear -> (forall x, In x s -> ~ letter x) ->
    period_text c (Some s) e tp sg rc = Err AttributeError.
  Proof using.
    intros c s e tp sg rc K L.
    assert (F : search_word s = None).
    { unfold search_word. rewrite none_found; [reflexivity|]. intros x X. destruct (is_letter x) eqn:E; [|reflexivity].
      apply letter_is in E. now destruct (L x X). }
    assert (R : set_start_text clock millis c (Some s) = Err AttributeError).
    { unfold set_start_text, anchor_text. destruct K as [-> | ->]; cbn [read_text]; unfold read_week, read_year; now rewrite F. }
    unfold AnchorText.period_text. rewrite R. now destruct e.
  Qed.
  Theorem no_day : forall s e tp sg rc, (forall x, In x s -> ~ decimal x) ->
    period_text TMonth (Some s) e tp sg rc = Err AttributeError.
  Proof using.
    intros s e tp sg rc L.
    assert (F : search_day s = None).
    { unfold search_day. rewrite none_found; [reflexivity|]. intros x X. destruct (is_digit x) eqn:E; [|reflexivity].
      apply decimal_is in E. now destruct (L x X). }
    assert (R : set_start_text clock millis TMonth (Some s) = Err AttributeError).
    { unfold set_start_text, anchor_text. cbn [read_text]. unfold read_month. now rewrite F. }
    unfold AnchorText.period_text. rewrite R. now destruct e.
  Qed.
End Periods.
