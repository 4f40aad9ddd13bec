(** Crontab lines as texts: what they mean, and which are refused. *)
From Coq Require Import List Bool Arith Ascii String ZArith NArith Lia ZifyBool.
From Verif Require Import Model.Base Model.Interval Model.Calendar Model.Anchored Model.Period Model.Cron
  Model.Statement Model.AnchorText Model.CronText
  Spec.PeriodSpec Spec.AlgebraSpec Spec.CronSpec Spec.StatementSpec Spec.AnchorTextSpec Spec.CronTextSpec.
From Verif Require Model.Duration.
From Verif Require Import Proofs.StatementResults Proofs.CronProofs Proofs.CronForwardProofs Proofs.CronMatchProofs Proofs.AnchorTextProofs
  Proofs.AnchorTextResults Proofs.AnchorTextSentences Proofs.AnchorTextExamples Proofs.CronTextProofs.
Import ListNotations.
Local Open Scope Z_scope.
Local Open Scope list_scope.

Section Lines.
  Variable clock millis : list ascii -> result Z.
  Hypothesis C : reads_clock clock.
  Local Notation text_contains := (text_contains clock millis).
  Local Notation text_rollforward := (text_rollforward clock millis).

  Lemma line_same : forall s e, writes_line s e -> exists l, mk_cron (cron_args s) = Ok l /\
    (forall fuel t, text_contains fuel l t = cron_contains fuel e t) /\
    (forall fuel t, text_rollforward fuel l t = cron_rollforward fuel e t).
  Proof using C.
    intros s e H. destruct (line_read clock millis C s e H) as (l & A & E). exists l. split; [exact A|].
    unfold CronText.text_contains, CronText.text_rollforward, cron_contains, cron_rollforward. rewrite E. now split.
  Qed.
  Theorem line_membership : forall s e, writes_line s e -> cron_ok e ->
    exists l, mk_cron (cron_args s) = Ok l /\
      forall fuel t b, month_settled e t -> text_contains fuel l t = Returns b -> (b = true <-> cron_match e t).
  Proof using C.
    intros s e H K. destruct (line_same s e H) as (l & A & E & _). exists l. split; [exact A|].
    intros fuel t b M R. rewrite E in R. exact (cron_membership e fuel t b K M R).
  Qed.
  Theorem line_answers : forall s e, writes_line s e -> cron_ok e -> every_month e ->
    exists l, mk_cron (cron_args s) = Ok l /\
      (forall t, exists b, eventually (fun fuel => text_contains fuel l t) b /\ (b = true <-> cron_match e t)) /\
      (forall t, exists i, eventually (fun fuel => text_rollforward fuel l t) i /\ forward_at (cron_match e) t i).
  Proof using C.
    intros s e H K M. destruct (line_same s e H) as (l & A & E & F). exists l. split; [exact A|]. split; intros t.
    - destruct (cron_answers e t K M) as (b & Q & B). exists b. split; [|exact B].
      destruct Q as (n & Q). exists n. intros m L. rewrite E. now apply Q.
    - destruct (cron_forward e t K M) as (i & Q & B). exists i. split; [|exact B].
      destruct Q as (n & Q). exists n. intros m L. rewrite F. now apply Q.
  Qed.

  Theorem line_recognised : forall s e, writes_line s e -> cron_ok e ->
    exists l, mk_cron (cron_args s) = Ok l /\
      forall t fuel, month_settled e t -> no_31_missing e t -> cron_match e t -> text_contains (Datatypes.S fuel) l t = Returns true.
  Proof using C.
    intros s e H K. destruct (line_same s e H) as (l & A & E & F). exists l. split; [exact A|]. intros t fuel Ht H31 M.
    rewrite E. now apply cron_recognised.
  Qed.

  (** ** Sentences *)
  Lemma count_split : forall s, List.length (split_at " " s) = Datatypes.S (blanks s).
  Proof using.
    clear C clock millis. induction s as [|c s IH]; [reflexivity|]. cbn [split_at]. unfold blanks in *. cbn [count_occ].
    destruct (ascii_dec c " "%char) as [->|N].
    - cbn [Ascii.eqb Bool.eqb]. cbn [List.length]. now rewrite IH.
    - destruct (Ascii.eqb_spec c " "%char) as [->|_]; [now destruct N|]. destruct (split_at " " s); [discriminate IH|].
      exact IH.
  Qed.
  Theorem too_many : forall s, (4 < blanks s)%nat -> mk_cron (cron_args s) = Err TypeError.
  Proof using.
    clear C clock millis. intros s L. assert (N : s <> []) by (intros ->; cbn in L; lia).
    unfold cron_args. destruct s as [|c s]; [now destruct N|]. rewrite split_blank_is. unfold mk_cron.
    rewrite count_split. replace (5 <? Datatypes.S (blanks (c :: s)))%nat with true by (symmetry; apply Nat.ltb_lt; lia).
    reflexivity.
  Qed.
  Theorem at_most_five : forall s, (blanks s <= 4)%nat -> exists l, mk_cron (cron_args s) = Ok l.
  Proof using.
    clear C clock millis. intros s L. unfold mk_cron.
    destruct (Nat.ltb_spec 5 (List.length (cron_args s))) as [K|K]; [|eexists; reflexivity].
    exfalso. unfold cron_args in K. destruct s as [|c s]; [cbn in K; lia|]. rewrite split_blank_is, count_split in K. lia.
  Qed.
  Theorem cron_sentence : forall other_call s, word s ->
    condition_item (make_cron other_call) cond_parsers (txt "cron " ++ s) =
    (let* l := mk_cron (cron_args s) in Ok (KAtom (ARunnable l))).
  Proof using.
    intros other_call s W. rewrite (sentences _ (make_cron other_call) _ _ (say_cron (make_cron other_call) s W)).
    reflexivity.
  Qed.
  Lemma writes_usual : forall s e, writes_line s e -> word s.
  Proof using.
    clear C clock millis.
    assert (B : forall d, In d [quote; line_feed] -> is_letter d || is_digit d = false).
    { intros d I. repeat (destruct I as [<- |I]; [reflexivity|]). destruct I. }
    assert (S0 : forall d y, In d [quote; line_feed] -> In y [star_of; slash; dash; comma; blank] -> has d y = false).
    { intros d y I Y. repeat (destruct I as [<- |I]; [repeat (destruct Y as [<- |Y]; [reflexivity|]); destruct Y|]). destruct I. }
    assert (V : forall d c s v, In d [quote; line_feed] -> writes_value c s v -> has d s = false).
    { intros d c s v I H. apply value_plain in H. apply plain_has; [apply H|now apply B]. }
    assert (N : forall d s n, In d [quote; line_feed] -> StatementSpec.number s n -> has d s = false).
    { intros d s n I H. apply number_plain in H. apply plain_has; [apply H|now apply B]. }
    assert (I1 : forall d c s it, In d [quote; line_feed] -> writes_item c s it -> has d s = false).
    { intros d c s it I H.
      assert (Zs : has d star_of = false) by (apply S0; [exact I|cbn; tauto]).
      assert (Zl : has d slash = false) by (apply S0; [exact I|cbn; tauto]).
      assert (Zd : has d dash = false) by (apply S0; [exact I|cbn; tauto]).
      destruct H as [c|c x n M|c s v W|c s v x n W M|c s v s' v' W W'|c s v s' v' x n W W' M]; rewrite ?has_app, ?Zs, ?Zl, ?Zd;
      repeat match goal with
             | H : writes_value _ ?s _ |- context [has d ?s] => rewrite (V d _ _ _ I H)
             | H : StatementSpec.number ?x _ |- context [has d ?x] => rewrite (N d _ _ I H)
             end; reflexivity. }
    assert (F1 : forall d c s its, In d [quote; line_feed] -> writes_field c s its -> has d s = false).
    { intros d c s its I H. induction H as [c s it J|c s it s' its J H IH]; [now apply (I1 d c s it)|].
      rewrite !has_app, IH, (I1 d c s it I J), (S0 d comma I) by (cbn; tauto). reflexivity. }
    intros s e H.
    assert (L : forall d, In d [quote; line_feed] -> has d s = false).
    { intros d I. destruct H as [m h dd mo w ms hs ds mos ws M H D Mo W]. rewrite !has_app.
      rewrite (F1 d _ _ _ I M), (F1 d _ _ _ I H), (F1 d _ _ _ I D), (F1 d _ _ _ I Mo), (F1 d _ _ _ I W).
      rewrite (S0 d blank I) by (cbn; tauto). reflexivity. }
    split.
    - destruct H as [m h dd mo w ms hs ds mos ws M _ _ _ _]. apply field_some in M. intros E. apply app_eq_nil in E. now apply M.
    - assert (Q : forall d, has d s = false -> ~ In d s).
      { intros d Hd I. unfold has in Hd. rewrite <- not_true_iff_false in Hd. apply Hd. apply existsb_exists. exists d.
        split; [exact I|apply Ascii.eqb_refl]. }
      split; apply Q, L; cbn; tauto.
  Qed.

  (** ** Fields that are refused *)
  Lemma only_raises : forall c s x, a_field c -> field_text clock millis c s = Err x ->
    exists l, mk_cron (only c s) = Ok l /\ forall fuel t, text_contains fuel l t = Raises x.
  Proof using.
    intros c s x K E. repeat (destruct K as [<- |K];
      [eexists; split; [reflexivity|]; intros fuel t; unfold CronText.text_contains, CronText.text_rollforward, text_subperiod;
       cbn [t_minute t_hour t_dom t_month t_dow nth mk_cron only List.length]; rewrite E; reflexivity|]). destruct K.
  Qed.
  Lemma field_item : forall c s x, has "," s = false -> item_text clock millis c s = Err x ->
    field_text clock millis c s = Err x.
  Proof using. intros c s x N E. unfold field_text. rewrite split_none by exact N. cbn [pieces_period]. now rewrite E. Qed.
  Lemma plain_item : forall c s, plain_text s = true -> s <> [] ->
    item_text clock millis c s = (let* p := at_arg clock millis c (read_arg c s) in Ok (Some (p_and (PAnch p) PAlways))).
  Proof using.
    intros c s P X. assert (S : is_star s = false).
    { unfold is_star. destruct (list_eq_dec ascii_dec s _) as [->|_]; [discriminate P|reflexivity]. }
    unfold item_text. rewrite S. rewrite (no_char "/" s P) by (cbn; tauto). cbn [bind].
    rewrite (no_char "-" s P) by (cbn; tauto). cbn [bind]. now rewrite S.
  Qed.
  Lemma number_refused_item : forall c s n, a_field c -> StatementSpec.number s n -> ~ (first_number c <= n <= last_number c) ->
    item_text clock millis c s = Err ValueError.
  Proof using.
    intros c s n K N R. pose proof (number_bound s n N) as B.
    destruct (number_plain s n N) as (P & X & D & E). rewrite plain_item by assumption.
    unfold read_arg. rewrite D, E. unfold at_arg. cbn [arg_value bind].
    assert (A : anchor_int c (conv c n) SStart = Err ValueError).
    { repeat (destruct K as [<- |K]; [unfold conv, anchor_int, first_number, last_number in *;
        try (destruct (Z.eqb_spec n 0) as [->|Z0]; [exfalso; lia|]);
        match goal with |- (if ?b then _ else _) = _ => replace b with false by (symmetry; lia) end; reflexivity|]). destruct K. }
    unfold period_at, mk_anchored, set_start. cbn [anchor]. rewrite A. reflexivity.
  Qed.
  Theorem number_refused : forall c s n, a_field c -> StatementSpec.number s n -> ~ (first_number c <= n <= last_number c) ->
    exists l, mk_cron (only c s) = Ok l /\ forall fuel t, text_contains fuel l t = Raises ValueError.
  Proof using.
    intros c s n K N R. apply only_raises; [exact K|]. destruct (number_plain s n N) as (P & _).
    apply field_item; [now apply no_char; [|cbn; tauto]|]. now apply (number_refused_item c s n).
  Qed.
  Lemma word_refused_item : forall c s, In c [THour; TMonth; TYear; TWeek] -> s <> [] -> (forall x, In x s -> letter x) ->
    (forall v, ~ writes_value c s v) ->
    exists x, item_text clock millis c s = Err x.
  Proof using.
    intros c s K X L V.
    assert (L' : forallb is_letter s = true) by (apply forallb_forall; intros y I; now apply letter_is, L).
    assert (ND : forall y, In y s -> ~ decimal y).
    { intros y I D. apply decimal_is in D. specialize (L y I). apply letter_is in L. unfold is_letter in L.
      unfold is_digit, Duration.is_digit in D. lia. }
    assert (FW : first_word s s).
    { exists [], []. rewrite app_nil_r. split; [reflexivity|]. split; [intros y []|]. split; [exact X|]. split; [exact L|discriminate]. }
    assert (A : exists x, period_text clock millis c (Some s) None true false false = Err x).
    { destruct K as [<- |[<- |[<- |[<- |[]]]]].
      - eexists. now apply no_minutes.
      - eexists. now apply no_day.
      - eexists. apply (unknown_month clock millis s s); [exact FW|]. intros m f n I N. apply In_nth_error in I. destruct I as (k & I).
        apply (V (CName (Z.of_nat k))). now apply (write_month s k m (f, n)).
      - eexists. apply (unknown_day clock millis s s); [exact FW|]. intros d n I N. apply (V (CName n)). now apply (write_day s d n). }
    destruct A as (x & A).
    assert (B : at_arg clock millis c (CText s) = Err x).
    { unfold at_arg, period_at, mk_anchored. cbn [arg_value]. unfold period_text, set_start_text, anchor_text in A.
      unfold set_start. destruct (read_text clock millis c s); exact A. }
    exists x. rewrite plain_item by (assumption || now apply letters_plain). unfold read_arg. rewrite (letters_isdigit s L').
    now rewrite B.
  Qed.
  Theorem word_refused : forall c s, In c [THour; TMonth; TYear; TWeek] -> s <> [] -> (forall x, In x s -> letter x) ->
    (forall v, ~ writes_value c s v) ->
    exists l x, mk_cron (only c s) = Ok l /\ forall fuel t, text_contains fuel l t = Raises x.
  Proof using.
    intros c s K X L V. destruct (word_refused_item c s K X L V) as (x & E).
    assert (L' : forallb is_letter s = true) by (apply forallb_forall; intros y I; now apply letter_is, L).
    destruct (only_raises c s x) as (l & E' & R); [cbn in K |- *; tauto| |now exists l, x].
    apply field_item; [apply no_char; [now apply letters_plain|cbn; tauto]|exact E].
  Qed.
  Theorem empty_refused : forall c, In c [THour; TMonth; TYear; TWeek] ->
    exists l x, mk_cron (only c []) = Ok l /\ forall fuel t, text_contains fuel l t = Raises x.
  Proof using.
    intros c K. assert (E : exists x, field_text clock millis c [] = Err x).
    { destruct K as [<- |[<- |[<- |[<- |[]]]]]; eexists; reflexivity. }
    destruct E as (x & E). destruct (only_raises c [] x) as (l & A & R); [cbn in K |- *; tauto|exact E|]. now exists l, x.
  Qed.

  (** ** What crontab would not read *)
  Theorem short_line : forall m ms, writes_field THour m ms ->
    (forall e, ~ writes_line m e) /\ mk_cron (cron_args m) = mk_cron (cron_args (m ++ txt " * * * *")).
  Proof using.
    clear C clock millis. intros m ms H. pose proof (field_no_blank THour m ms H) as B. pose proof (field_some THour m ms H) as X. split.
    - intros e W. clear H X. revert B. destruct W as [m' h d mo w ? ? ? ? ? _ _ _ _ _]. intros B. rewrite !has_app in B. change (has " " blank) with true in B.
      now rewrite !orb_true_r in B.
    - destruct m as [|c m]; [now destruct X|]. unfold cron_args. cbn [app]. rewrite !split_blank_is.
      rewrite (split_none " " (c :: m) B). rewrite app_comm_cons.
      change (txt " * * * *") with ([" "%char] ++ txt "* * * *"). rewrite (split_app " " (c :: m) _ B). reflexivity.
  Qed.
  Theorem hour_time : forall x us, clock_text x us -> exists p,
    field_text clock millis TDay x = Ok (PAnch p) /\
    forall t, acontains p t = true <-> clock_range us ((us + us_hour) mod us_day) (since_start TDay t).
  Proof using C.
    intros x us T. destruct (text_on_moment clock millis C TDay x us ltac:(discriminate) (spelled_day x us T)) as (p & A & M).
    exists p. split; [|exact M].
    assert (D : read_arg TDay x = CText x /\ has "," x = false /\ has "/" x = false /\ has "-" x = false /\ is_star x = false).
    { assert (Dg : forall d n s, StatementSpec.number s n -> In d ["*"; "/"; "-"; ","; " "]%char -> has d s = false).
      { intros d n s N. apply number_plain in N. intros I. now apply no_char. }
      assert (CC : forall d, In d ["*"; "/"; "-"; ","]%char -> has d x = false).
      { intros d I. assert (I' : In d ["*"; "/"; "-"; ","; " "]%char) by (cbn in I |- *; tauto).
        assert (Cl : has d colon = false) by (repeat (destruct I as [<- |I]; [reflexivity|]); destruct I).
        destruct T as [h m hour minute Hh L1 B1 [Hm _] B2|h m s hour minute second Hh L1 B1 [Hm _] B2 [Hs _] B3];
          rewrite !has_app, Cl, (Dg d _ h Hh I'), (Dg d _ m Hm I'); [reflexivity|]. now rewrite (Dg d _ s Hs I'). }
      assert (Dx : isdigit x = false).
      { unfold isdigit. destruct x as [|c x]; [reflexivity|].
        destruct (forallb is_digit (c :: x)) eqn:F; [|reflexivity]. exfalso. rewrite forallb_forall in F.
        assert (I : In ":"%char (c :: x)).
        { remember (c :: x) as y eqn:Ey. clear - T. destruct T; rewrite !in_app_iff; cbn; tauto. }
        specialize (F _ I). discriminate F. }
      split; [unfold read_arg; now rewrite Dx|]. split; [apply CC; cbn; tauto|]. split; [apply CC; cbn; tauto|].
      split; [apply CC; cbn; tauto|]. unfold is_star. destruct (list_eq_dec ascii_dec x _) as [->|_]; [|reflexivity].
      specialize (CC "*"%char (or_introl eq_refl)). discriminate CC. }
    destruct D as (R & N1 & N2 & N3 & N4). unfold field_text. rewrite split_none by exact N1. cbn [pieces_period].
    unfold item_text. rewrite N4, N2. cbn [bind]. rewrite N3. cbn [bind]. rewrite N4, R.
    assert (B : at_arg clock millis TDay (CText x) = Ok p).
    { unfold at_arg, period_at, mk_anchored. cbn [arg_value]. unfold period_text, set_start_text, anchor_text in A.
      unfold set_start. destruct (read_text clock millis TDay x); exact A. }
    rewrite B. reflexivity.
  Qed.
  Lemma slice_end : forall len start stop step, len <= stop -> slice len start stop step = slice len start len step.
  Proof using.
    clear C clock millis. intros len start stop step L. unfold slice. apply filter_ext_in. intros i I. apply in_map_iff in I.
    destruct I as (n & <- & I). apply in_seq in I. replace (Z.of_nat n <? stop) with true by (symmetry; lia).
    replace (Z.of_nat n <? len) with true by (symmetry; lia). reflexivity.
  Qed.
  Theorem beyond : forall a na b nb x n, StatementSpec.number a na -> StatementSpec.number b nb -> StatementSpec.number x n ->
    59 < nb -> item_text clock millis THour (a ++ dash ++ b ++ slash ++ x) =
               item_text clock millis THour (a ++ dash ++ txt "59" ++ slash ++ x).
  Proof using C.
    intros a na b nb x n A B X L. assert (K : cron_class THour) by (unfold cron_class; tauto).
    assert (N59 : StatementSpec.number (txt "59") 59) by exact (proj1 (two_ok 5 9 ltac:(lia) ltac:(lia))).
    rewrite (item_read clock millis C THour _ _ K (write_range_step THour a (CNum na) b (CNum nb) x n
      (write_number THour a na A) (write_number THour b nb B) X)).
    rewrite (item_read clock millis C THour _ _ K (write_range_step THour a (CNum na) (txt "59") (CNum 59) x n
      (write_number THour a na A) (write_number THour (txt "59") 59 N59) X)).
    cbn [item_period cval_index conv bind]. unfold create_range. destruct (n =? 0); [reflexivity|].
    cbn [units]. rewrite !(slice_end 60 na (nb + 1)) by lia. reflexivity.
  Qed.

  (** ** Malformed lines *)
  Lemma count_pieces : forall d s, List.length (split_at d s) = Datatypes.S (count d s).
  Proof using.
    clear C clock millis. intros d s. induction s as [|c s IH]; [reflexivity|]. cbn [split_at]. unfold count in *. cbn [count_occ].
    destruct (ascii_dec c d) as [->|N].
    - rewrite Ascii.eqb_refl. cbn [List.length]. now rewrite IH.
    - destruct (Ascii.eqb_spec c d) as [->|_]; [now destruct N|]. destruct (split_at d s); [discriminate IH|]. exact IH.
  Qed.
  Lemma count_has : forall d s, has d s = negb (count d s =? 0)%nat.
  Proof using.
    clear C clock millis. intros d s. unfold has, count. induction s as [|c s IH]; [reflexivity|]. cbn [existsb count_occ].
    destruct (ascii_dec c d) as [->|N]; [now rewrite Ascii.eqb_refl|].
    destruct (Ascii.eqb_spec d c) as [->|_]; [now destruct N|]. exact IH.
  Qed.
  Lemma piece_split : forall s p, piece_of s p -> In p (split_at "," s).
  Proof using.
    clear C clock millis. intros s p (N & a & b & -> & A & B).
    assert (Np : has "," p = false).
    { destruct (has "," p) eqn:H; [|reflexivity]. unfold has in H. apply existsb_exists in H. destruct H as (c & I & E).
      apply Ascii.eqb_eq in E. subst c. now destruct (N I). }
    assert (R : In p (split_at "," (p ++ b))).
    { destruct B as [-> |(b' & ->)]; [rewrite app_nil_r, split_none by exact Np; now left|].
      unfold comma. rewrite split_app by exact Np. now left. }
    destruct A as [-> |(a' & ->)]; [exact R|]. rewrite <- app_assoc. unfold comma.
    assert (Q : forall r, In p (split_at "," r) -> In p (tl (split_at "," (a' ++ [","%char] ++ r)))).
    { clear R. intros r R. induction a' as [|c a' IH]; [exact R|]. cbn [app split_at] in *.
      destruct (Ascii.eqb c ","%char).
      - cbn [tl]. destruct (split_at "," (a' ++ ","%char :: r)); [destruct IH|now right].
      - destruct (split_at "," (a' ++ ","%char :: r)); [destruct IH|exact IH]. }
    specialize (Q _ R). destruct (split_at "," (a' ++ _)) as [|q l]; [destruct Q|right; exact Q].
  Qed.
  Lemma star_count : forall d s, is_star s = true -> d <> "*"%char -> count d s = 0%nat.
  Proof using.
    clear C clock millis. intros d s H N. unfold is_star in H. destruct (list_eq_dec ascii_dec s _) as [->|_]; [|discriminate H].
    unfold count. cbn [count_occ]. destruct (ascii_dec "*" d) as [<- |_]; [now destruct N|reflexivity].
  Qed.
  Lemma count_more : forall d a b, count d (a ++ b) = (count d a + count d b)%nat.
  Proof using. clear C clock millis. intros d a b. unfold count. apply count_occ_app. Qed.
  Lemma bad_item : forall c s, a_field c -> bad_piece (first_number c) (last_number c) c s ->
    exists x, item_text clock millis c s = Err x.
  Proof using.
    intros c s K B.
    assert (ST : forall d, (0 < count d s)%nat -> d <> "*"%char -> is_star s = false).
    { intros d P N. destruct (is_star s) eqn:E; [|reflexivity]. rewrite (star_count d s E N) in P. lia. }
    assert (SL : forall a x, count "/" a = 0%nat -> is_star (a ++ slash ++ x) = false /\ has "/" (a ++ slash ++ x) = true /\
                             split_at "/" (a ++ slash ++ x) = a :: split_at "/" x).
    { clear. intros a x Z. split; [|split].
      - destruct (is_star (a ++ slash ++ x)) eqn:E; [|reflexivity].
        pose proof (star_count "/" _ E ltac:(discriminate)) as Q. rewrite !count_more in Q. cbn in Q. lia.
      - rewrite !has_app. change (has "/" slash) with true. cbn [orb]. apply orb_true_r.
      - apply split_app. rewrite count_has, Z. reflexivity. }
    revert K ST. remember (first_number c) as fst eqn:Ef. remember (last_number c) as lst eqn:El. revert Ef El.
    destruct B as [c s N|c s Z N|c s x Z N|c s x Z N|c s x Z N|c s n N R|c s TD L V]; intros -> -> K ST.
    - assert (Sr : is_star s = false) by (apply (ST "/"%char); [lia|discriminate]).
      unfold item_text. rewrite Sr, count_has. pose proof (count_pieces "/" s) as P.
      destruct (count "/" s =? 0)%nat eqn:E; [lia|]. cbn [negb].
      destruct (split_at "/" s) as [|u [|v [|w l]]]; cbn [List.length] in P; try lia. eexists. reflexivity.
    - assert (Sr : is_star s = false) by (apply (ST "-"%char); [lia|discriminate]).
      unfold item_text. rewrite Sr, count_has, Z. cbn [Nat.eqb negb bind]. rewrite count_has.
      destruct (count "-" s =? 0)%nat eqn:E; [lia|]. cbn [negb]. pose proof (count_pieces "-" s) as P.
      destruct (split_at "-" s) as [|u [|v [|w l]]]; cbn [List.length] in P; try lia. eexists. reflexivity.
    - destruct (SL s x Z) as (S1 & S2 & S3). unfold item_text. rewrite S1, S2, S3.
      destruct (split_at "/" x) as [|y [|? ?]]; try (eexists; reflexivity).
      destruct (int_text y); [|eexists; reflexivity]. cbn [bind].
      destruct (create_range_text clock millis c 0 (units c) _); [|eexists; reflexivity]. cbn [bind].
      rewrite count_has. destruct (count "-" s =? 0)%nat eqn:E; [lia|]. cbn [negb]. pose proof (count_pieces "-" s) as P.
      destruct (split_at "-" s) as [|u [|v [|w l]]]; cbn [List.length] in P; try lia. eexists. reflexivity.
    - destruct (SL s x Z) as (S1 & S2 & S3). unfold item_text. rewrite S1, S2, S3.
      destruct (has "/" x) eqn:Hx.
      + rewrite count_has in Hx. pose proof (count_pieces "/" x) as P. destruct (count "/" x =? 0)%nat eqn:E; [discriminate Hx|].
        destruct (split_at "/" x) as [|u [|v l]]; cbn [List.length] in P; try lia. eexists. reflexivity.
      + rewrite split_none by exact Hx. unfold int_text.
        assert (D : isdigit x = false).
        { destruct x as [|y x]; [reflexivity|]. unfold isdigit. cbn [forallb]. apply andb_false_intro1.
          destruct (is_digit y) eqn:Q; [|reflexivity]. destruct (N y (or_introl eq_refl)). now apply decimal_is. }
        rewrite D. eexists. reflexivity.
    - destruct (SL s x Z) as (S1 & S2 & S3). unfold item_text. rewrite S1, S2, S3.
      destruct (number_plain x 0 N) as (P & X & D & E). rewrite split_none by (apply no_char; [exact P|cbn; tauto]).
      unfold int_text. rewrite D, E. cbn [bind]. unfold create_range_text. cbn [Z.eqb]. eexists. reflexivity.
    - exists ValueError. now apply (number_refused_item c s n).
    - destruct s as [|y s].
      + assert (K' : In c [THour; TMonth; TYear; TWeek]) by (cbn in K |- *; intuition congruence).
        destruct K' as [<- |[<- |[<- |[<- |[]]]]]; eexists; reflexivity.
      + apply word_refused_item; try assumption; [cbn in K |- *; intuition congruence|discriminate].
  Qed.
  Lemma bad_field : forall c s p, a_field c -> piece_of s p -> bad_piece (first_number c) (last_number c) c p ->
    exists x, field_text clock millis c s = Err x.
  Proof using.
    intros c s p K I B. apply piece_split in I. destruct (bad_item c p K B) as (x & E). unfold field_text.
    assert (Q : forall full, exists y, pieces_period clock millis c full (split_at "," s) = Err y).
    { induction (split_at "," s) as [|q l IH]; [destruct I|]. intros full. cbn [pieces_period]. destruct I as [-> |I].
      - rewrite E. eexists. reflexivity.
      - destruct (item_text clock millis c q); [|eexists; reflexivity]. cbn [bind]. now apply IH. }
    destruct (Q None) as (y & ->). eexists. reflexivity.
  Qed.
  Theorem malformed_refused : forall m h d mo w c s p,
    In (c, s) [(THour, m); (TDay, h); (TMonth, d); (TYear, mo); (TWeek, w)] -> piece_of s p ->
    bad_piece (first_number c) (last_number c) c p ->
    exists l x, mk_cron [m; h; d; mo; w] = Ok l /\ forall fuel t, text_contains fuel l t = Raises x.
  Proof using.
    intros m h d mo w c s p I P B. assert (K : a_field c).
    { unfold a_field. cbn in I |- *. intuition congruence. }
    destruct (bad_field c s p K P B) as (x & E). eexists.
    assert (Q : exists y, text_subperiod clock millis (CronText m h d mo w) = Err y).
    { unfold text_subperiod. cbn [t_minute t_hour t_dom t_month t_dow].
      cbn in I. destruct I as [I|[I|[I|[I|[I|[]]]]]]; injection I as <- <-; rewrite ?E;
      repeat (first [eexists; reflexivity | match goal with |- context [let* _ := ?f in _] =>
         destruct f; [cbn [bind]|eexists; reflexivity] end; rewrite ?E]). }
    destruct Q as (y & Q). exists y. split; [reflexivity|]. intros fuel t.
    unfold CronText.text_contains, CronText.text_rollforward. change (nth 0 [m; h; d; mo; w] star_text) with m.
    cbn [nth]. now rewrite Q.
  Qed.
End Lines.
