(** Texts that spell a time are read as that time. *)
From Coq Require Import List Bool Arith Ascii String ZArith NArith Lia ZifyBool.
From Verif Require Import Model.Base Model.Calendar Model.Anchored Model.Statement Model.AnchorText
  Spec.StatementSpec Spec.PeriodSpec Spec.AnchorTextSpec.
From Verif Require Model.Duration.
From Verif Require Import Proofs.ClockProofs Proofs.StatementResults.
Import ListNotations.
Local Open Scope Z_scope.
Local Open Scope list_scope.

(** ** Characters *)

Ltac each_letter i :=
  do 26 (destruct i as [|i]; [|]); [..|exfalso; lia].

Definition lowercase (c : ascii) : bool := (N.leb 97 (N_of_ascii c) && N.leb (N_of_ascii c) 122)%bool.
Lemma same_lower : forall a b, same_letter a b -> lowercase b = true -> lower_char a = b /\ is_letter a = true.
Proof.
  intros a b [->|(i & L & [[-> ->]|[-> ->]])] B.
  - split.
    + unfold lower_char. unfold lowercase in B. destruct (N.leb_spec 97 (N_of_ascii b)); [|discriminate B].
      destruct (N.leb_spec 65 (N_of_ascii b)); [|reflexivity].
      destruct (N.leb_spec (N_of_ascii b) 90); [exfalso; lia|reflexivity].
    + unfold is_letter. unfold lowercase in B. rewrite B. apply orb_true_r.
  - do 26 (destruct i as [|i]; [now split|]). exfalso; lia.
  - do 26 (destruct i as [|i]; [discriminate B|]). exfalso; lia.
Qed.
Lemma same_word_lower : forall s w, same_word s w -> forallb lowercase (txt w) = true ->
  lower s = txt w /\ forallb is_letter s = true /\ (txt w <> [] -> s <> []).
Proof.
  unfold same_word. intros s w H. induction H as [|a b s t L H IH]; intros B.
  - now repeat split.
  - cbn [forallb] in B. apply andb_prop in B. destruct B as [B B']. destruct (IH B') as (E & F & _).
    destruct (same_lower a b L B) as [X Y]. unfold lower in *. cbn [map forallb]. rewrite X, Y, E, F.
    split; [reflexivity|]. split; [reflexivity|]. discriminate.
Qed.

Lemma letter_is : forall c, letter c <-> is_letter c = true.
Proof.
  intros c. split.
  - intros (i & L & [-> | ->]); do 26 (destruct i as [|i]; [reflexivity|]); exfalso; lia.
  - unfold is_letter. intros H. apply orb_prop in H. unfold letter.
    rewrite <- (ascii_nat_embedding c). unfold nat_of_ascii.
    destruct H as [H|H]; apply andb_prop in H; destruct H as [A B]; apply N.leb_le in A, B.
    + exists (N.to_nat (N_of_ascii c) - 65)%nat. split; [lia|]. left. f_equal. lia.
    + exists (N.to_nat (N_of_ascii c) - 97)%nat. split; [lia|]. right. f_equal. lia.
Qed.
Lemma decimal_is : forall c, decimal c <-> is_digit c = true.
Proof.
  intros c. split.
  - intros [n D]. now apply digit_is in D.
  - unfold is_digit, Duration.is_digit. intros H. apply andb_prop in H. destruct H as [A B]. apply N.leb_le in A, B.
    exists (Z.of_N (N_of_ascii c) - 48). split; [|lia].
    rewrite <- (ascii_nat_embedding c) at 1. unfold nat_of_ascii. f_equal. lia.
Qed.

(** ** Beginnings of texts *)

Lemma span_app : forall f a b, forallb f a = true -> (forall c r, b = c :: r -> f c = false) -> span f (a ++ b) = (a, b).
Proof.
  intros f a b. induction a as [|c a IH]; intros A B.
  - cbn [app]. destruct b as [|c r]; [reflexivity|]. cbn [span]. now rewrite (B c r eq_refl).
  - cbn [forallb] in A. apply andb_prop in A. destruct A as [A A']. cbn [app span]. rewrite A, (IH A' B). reflexivity.
Qed.
Lemma span_all : forall f a, forallb f a = true -> span f a = (a, []).
Proof. intros f a A. rewrite <- (app_nil_r a) at 1. apply span_app; [exact A|discriminate]. Qed.
Lemma skip_here : forall f a b, a <> [] -> forallb f a = true -> skip_to f (a ++ b) = a ++ b.
Proof.
  intros f [|c a] b N A; [now destruct N|]. cbn [forallb] in A. apply andb_prop in A. cbn [app skip_to].
  now rewrite (proj1 A).
Qed.
Lemma skip_over : forall f a b, forallb (fun c => negb (f c)) a = true -> skip_to f (a ++ b) = skip_to f b.
Proof.
  intros f a b. induction a as [|c a IH]; intros A; [reflexivity|]. cbn [forallb] in A. apply andb_prop in A.
  destruct A as [A A']. cbn [app skip_to]. destruct (f c); [discriminate A|]. now apply IH.
Qed.
Lemma dots_all : forall s, forallb dot s = true -> dots s = s.
Proof. intros s H. unfold dots. now rewrite span_all. Qed.
Lemma dot_not : forall c, c <> line_feed -> dot c = true.
Proof.
  intros c N. unfold dot. destruct (Ascii.eqb_spec c (ascii_of_nat 10)) as [E|_]; [now destruct N|reflexivity].
Qed.
Lemma letter_dot : forall c, is_letter c = true -> dot c = true.
Proof. intros c H. apply dot_not. intros ->. discriminate H. Qed.

(** ** Numbers *)

Lemma number_digits : forall s n, number s n -> s <> [] /\ forallb is_digit s = true /\ to_int s = n.
Proof. exact number_is. Qed.
Lemma number_bound : forall s n, number s n -> 0 <= n < 10 ^ Z.of_nat (List.length s).
Proof.
  intros s n H. induction H as [c n [_ R]|s m c n H IH [_ R]].
  - cbn [List.length]. change (10 ^ Z.of_nat 1) with 10. lia.
  - rewrite app_length. cbn [List.length]. rewrite Nat2Z.inj_add, Z.pow_add_r by lia.
    change (10 ^ Z.of_nat 1) with 10. lia.
Qed.
Lemma two_is : forall s n, two s n -> exists a b, s = [a; b] /\ is_digit a = true /\ is_digit b = true /\
  to_int [a; b] = n /\ 0 <= n.
Proof.
  intros s n [H L]. pose proof (number_bound s n H) as B. apply number_digits in H. destruct H as (_ & D & E).
  destruct s as [|a [|b [|c s]]]; try discriminate L. exists a, b. cbn [forallb] in D.
  apply andb_prop in D. destruct D as [D D']. apply andb_prop in D'. repeat split; tauto.
Qed.
Lemma digits_zeros : forall k s, to_int (s ++ repeat "0"%char k) = to_int s * 10 ^ Z.of_nat k.
Proof.
  induction k as [|k IH]; intros s.
  - cbn [repeat]. rewrite app_nil_r. change (10 ^ Z.of_nat 0) with 1. lia.
  - change (repeat "0"%char (Datatypes.S k)) with (["0"%char] ++ repeat "0"%char k).
    rewrite app_assoc, IH. unfold to_int, Duration.digits. rewrite fold_left_app. cbn [fold_left].
    change (Duration.digit "0") with 0. rewrite Nat2Z.inj_succ, Z.pow_succ_r by lia. lia.
Qed.
Lemma take_all : forall n s, forallb is_digit s = true -> (List.length s <= n)%nat -> take_digits n s = s.
Proof.
  induction n as [|n IH]; intros [|c s] D L; cbn [take_digits List.length] in *; try reflexivity; try (exfalso; lia).
  cbn [forallb] in D. apply andb_prop in D. destruct D as [D D']. rewrite D. f_equal. apply IH; [exact D'|lia].
Qed.
Lemma fraction_is : forall x us, fraction x us -> opt_fraction x = us /\ 0 <= us < 10 ^ 6.
Proof.
  intros x us [|s n H L].
  - split; [reflexivity|lia].
  - pose proof (number_bound s n H) as B. apply number_digits in H. destruct H as (_ & D & E). split.
    + cbn [opt_fraction]. rewrite Ascii.eqb_refl. rewrite take_all by assumption. unfold ljust6.
      rewrite digits_zeros, E. f_equal. f_equal. lia.
    + assert (P : 10 ^ 6 = 10 ^ Z.of_nat (List.length s) * 10 ^ (6 - Z.of_nat (List.length s))).
      { rewrite <- Z.pow_add_r by lia. f_equal. lia. }
      rewrite P. pose proof (Z.pow_pos_nonneg 10 (6 - Z.of_nat (List.length s))). nia.
Qed.

(** ** Times of the day *)

Lemma clock_shape : forall s us, clock_text s us ->
  (exists c r, s = c :: r /\ is_digit c = true) /\ forallb dot s = true /\ 0 <= us < us_day.
Proof.
  assert (DD : forall s, forallb is_digit s = true -> forallb dot s = true).
  { intros s. rewrite !forallb_forall. intros H c I. apply digit_dot. now apply H. }
  intros s us H.
  destruct H as [h m hour minute Hh L1 B1 Hm B2|h m s hour minute second Hh L1 B1 Hm B2 Hs B3].
  - pose proof (number_bound h hour Hh) as X. apply number_digits in Hh. destruct Hh as (N & D & _).
    destruct (two_is m minute Hm) as (a & b & -> & Da & Db & _ & M). split; [|split].
    + destruct h as [|c r]; [now destruct N|]. exists c, (r ++ colon ++ [a; b]). split; [reflexivity|].
      cbn [forallb] in D. now apply andb_prop in D.
    + rewrite !forallb_app, (DD h D). cbn [forallb colon andb]. rewrite (digit_dot a Da), (digit_dot b Db). reflexivity.
    + unfold us_hour, us_minute, us_day, us_second, us_millisecond. lia.
  - pose proof (number_bound h hour Hh) as X. apply number_digits in Hh. destruct Hh as (N & D & _).
    destruct (two_is m minute Hm) as (a & b & -> & Da & Db & _ & M).
    destruct (two_is s second Hs) as (c & d & -> & Dc & Dd & _ & S). split; [|split].
    + destruct h as [|x r]; [now destruct N|]. eexists x, _. split; [reflexivity|].
      cbn [forallb] in D. now apply andb_prop in D.
    + rewrite !forallb_app, (DD h D). cbn [forallb colon andb].
      rewrite (digit_dot a Da), (digit_dot b Db), (digit_dot c Dc), (digit_dot d Dd). reflexivity.
    + unfold us_hour, us_minute, us_day, us_second, us_millisecond. lia.
Qed.

(** ** Names *)

Lemma day_name : forall w n s, In (w, n) days -> names s w ->
  forallb is_letter s = true /\ s <> [] /\ week_mapping (lower s) = Some n /\ 0 <= n <= 6.
Proof.
  intros w n s I [H|H];
    (repeat (destruct I as [I|I]; [injection I as <- <-;
       destruct (same_word_lower s _ H eq_refl) as (E & L & X); rewrite E;
       (split; [exact L|]); (split; [apply X; discriminate|]); (split; [reflexivity|lia])|]); destruct I).
Qed.
Lemma month_name : forall w first next s, In (w, (first, next)) months -> names s w ->
  forallb is_letter s = true /\ s <> [] /\
  exists n, year_mapping (lower s) = Some n /\ month_start_mapping n = Ok (first * us_day) /\
    month_start_mapping (n + 1) = Ok (next * us_day) /\ 0 <= first < next /\ next <= 366.
Proof.
  intros w first next s I [H|H];
    (repeat (destruct I as [I|I]; [injection I as <- <- <-;
       destruct (same_word_lower s _ H eq_refl) as (E & L & X); rewrite E;
       (split; [exact L|]); (split; [apply X; discriminate|]); eexists; (split; [reflexivity|]);
       (split; [reflexivity|]); (split; [reflexivity|lia])|]); destruct I).
Qed.

(** ** Days of the month *)

Lemma suffix_off : forall x r, suffix x -> (r = [] \/ exists y, r = " "%char :: y) ->
  opt_suffix (x ++ r) = r.
Proof.
  intros x r [->|[->|(w & I & H)]] R.
  - destruct R as [->|[y ->]]; [reflexivity|]. destruct y as [|b y]; reflexivity.
  - destruct R as [->|[y ->]]; reflexivity.
  - assert (T : exists a b, x = [a; b] /\ is_suffix [a; b] = true).
    { assert (G : lower x = txt w).
      { repeat (destruct I as [I|I]; [subst w; now apply same_word_lower in H|]). destruct I. }
      assert (LX : List.length x = 2%nat).
      { rewrite <- (map_length lower_char x). fold (lower x). rewrite G.
        repeat (destruct I as [I|I]; [subst w; reflexivity|]). destruct I. }
      destruct x as [|a [|b [|c x]]]; try discriminate LX. exists a, b. split; [reflexivity|].
      unfold is_suffix. rewrite G. repeat (destruct I as [I|I]; [subst w; reflexivity|]). destruct I. }
    destruct T as (a & b & -> & T). cbn [app opt_suffix]. now rewrite T.
Qed.
Lemma suffix_head : forall x c r, suffix x -> x = c :: r -> is_digit c = false.
Proof.
  intros x c r [->|[->|(w & I & H)]] E; [discriminate E|injection E as <- <-; reflexivity|]. subst x.
  assert (L : forallb is_letter (c :: r) = true).
  { repeat (destruct I as [I|I]; [subst w; now apply same_word_lower in H|]). destruct I. }
  cbn [forallb] in L. apply andb_prop in L. destruct L as [L _]. unfold is_letter in L. unfold is_digit, Duration.is_digit.
  apply orb_prop in L. destruct L as [L|L]; apply andb_prop in L; destruct L as [A B]; apply N.leb_le in A, B;
    apply andb_false_iff; right; apply N.leb_gt; lia.
Qed.
Lemma suffix_dot : forall x, suffix x -> forallb dot x = true.
Proof.
  intros x [->|[->|(w & I & H)]]; [reflexivity|reflexivity|].
  assert (L : forallb is_letter x = true).
  { repeat (destruct I as [I|I]; [subst w; now apply same_word_lower in H|]). destruct I. }
  rewrite forallb_forall in *. intros c C. apply letter_dot. now apply L.
Qed.
Lemma day_found : forall s day r, day_text s day -> (r = [] \/ exists y, r = " "%char :: y) ->
  search_day (s ++ r) <> None /\ exists n, search_day (s ++ r) = Some (n, dots (opt_blank r)) /\ to_int n = day.
Proof.
  intros s day r [n x d H B X] R. apply number_digits in H. destruct H as (N & D & E).
  assert (F : search_day ((n ++ x) ++ r) = Some (n, dots (opt_blank r))).
  { unfold search_day. rewrite <- app_assoc. rewrite skip_here by assumption. rewrite span_app; [|exact D|].
    - destruct n as [|c n]; [now destruct N|]. rewrite suffix_off by assumption. reflexivity.
    - intros c q Q. destruct x as [|c' x].
      + cbn [app] in Q. destruct R as [->|[y ->]]; [discriminate Q|]. injection Q as <- _. reflexivity.
      + cbn [app] in Q. injection Q as -> _. eapply suffix_head; [exact X|reflexivity]. }
  rewrite F. split; [discriminate|]. now exists n.
Qed.
Lemma day_shape : forall s day, day_text s day -> s <> [] /\ forallb dot s = true /\ 1 <= day <= 31.
Proof.
  intros s day [n x d H B X]. apply number_digits in H. destruct H as (N & D & _). split; [|split; [|exact B]].
  - intros E. apply app_eq_nil in E. now apply N.
  - rewrite forallb_app, (suffix_dot x X), andb_true_r. rewrite forallb_forall in *. intros c I. apply digit_dot. now apply D.
Qed.

(** ** Anchors *)

Section Anchors.
  Variable clock millis : list ascii -> result Z.
  Hypothesis C : reads_clock clock.

  Lemma time_of : forall x us, clock_text x us -> time_part clock x = Ok (Some us).
  Proof using C.
    intros x us H. pose proof (C x us H) as E. apply clock_shape in H. destruct H as ((c & r & -> & _) & _).
    unfold time_part. now rewrite E.
  Qed.
  Lemma word_found : forall s r, forallb is_letter s = true -> s <> [] -> (r = [] \/ exists y, r = " "%char :: y) ->
    search_word (s ++ r) = Some (s, dots (opt_blank r)).
  Proof using.
    intros s r L N R. unfold search_word. rewrite skip_here by assumption. rewrite span_app; [|exact L|].
    - destruct s as [|c s]; [now destruct N|reflexivity].
    - intros c q Q. destruct R as [->|[y ->]]; [discriminate Q|]. injection Q as <- _. reflexivity.
  Qed.

  Lemma month_read : forall s day, day_text s day -> read_month clock s = Ok (day, None).
  Proof using C.
    intros s day H. unfold read_month. rewrite <- (app_nil_r s).
    destruct (proj2 (day_found s day [] H (or_introl eq_refl))) as (n & -> & ->). reflexivity.
  Qed.
  Lemma month_time_read : forall s day x us, day_text s day -> clock_text x us ->
    read_month clock (s ++ blank ++ x) = Ok (day, Some us).
  Proof using C.
    intros s day x us H T. unfold read_month.
    destruct (proj2 (day_found s day (blank ++ x) H (or_intror (ex_intro _ x eq_refl)))) as (n & -> & ->).
    change (opt_blank (blank ++ x)) with x. rewrite dots_all by (now apply clock_shape in T).
    now rewrite (time_of x us T).
  Qed.

  (** What a text is read as *)
  Definition as_value (c : acls) (s : list ascii) (f u : Z) (v : aval) : Prop :=
    read_text clock millis c s = Ok v /\ anchor c v SStart = Ok f /\
    match c with TYear => True | _ => anchor c v SEnd = Ok u end.

  Theorem spelled_read : forall c s f u, spelled c s f u -> exists v, as_value c s f u v.
  Proof using C.
    intros c s f u H. unfold as_value.
    destruct H as [s x second us S B F|m s x minute second us M B S B' F|s us H|s w n I N|s w n x us I N T|s day D
                  |s day x us D T|s w first next I N|s w first next d day I N D B|s w first next d day x us I N D B T];
      cbn [read_text].
    - destruct (two_is s second S) as (a & b & -> & Da & Db & E & _). apply fraction_is in F. destruct F as [F _].
      eexists. cbn [app read_minute]. rewrite Da, Db, E, F. split; [reflexivity|].
      split; cbn [anchor anchor_str]; f_equal; unfold to_microseconds; lia.
    - destruct (two_is m minute M) as (a & b & -> & Da & Db & E & _).
      destruct (two_is s second S) as (d & e & -> & Dd & De & E' & _).
      apply fraction_is in F. destruct F as [F _].
      eexists. unfold read_hour. cbn [app colon search_hour minute_second]. rewrite Da, Db, Dd, De, E, E', F.
      split; [reflexivity|]. split; cbn [anchor anchor_str]; f_equal; unfold to_microseconds; lia.
    - exists (VClock us). rewrite (C s us H). now repeat split.
    - destruct (day_name w n s I N) as (L & X & E & R). exists (VUnit n None). unfold read_week.
      rewrite <- (app_nil_r s), (word_found s [] L X (or_introl eq_refl)), E.
      split; [reflexivity|]. cbn [anchor anchor_str is_end].
      destruct (Z.leb_spec 0 n); [|lia]. destruct (Z.leb_spec n 6); [|lia].
      split; cbn [andb]; f_equal; lia.
    - destruct (day_name w n s I N) as (L & X & E & R). exists (VUnit n (Some us)). unfold read_week.
      rewrite (word_found s (blank ++ x) L X (or_intror (ex_intro _ x eq_refl))), E.
      change (opt_blank (blank ++ x)) with x. rewrite dots_all by (now apply clock_shape in T).
      rewrite (time_of x us T). split; [reflexivity|]. cbn [anchor anchor_str is_end].
      destruct (Z.leb_spec 0 n); [|lia]. destruct (Z.leb_spec n 6); [|lia].
      split; cbn [andb]; f_equal; lia.
    - rewrite (month_read s day D). exists (VUnit day None). split; [reflexivity|].
      split; cbn [anchor anchor_str]; unfold month_anchor_str; cbn [is_end]; f_equal; lia.
    - rewrite (month_time_read s day x us D T). exists (VUnit day (Some us)). split; [reflexivity|].
      split; cbn [anchor anchor_str]; unfold month_anchor_str; f_equal; lia.
    - destruct (month_name w first next s I N) as (L & X & n & E & S & S' & _). exists (VUnit n None). unfold read_year.
      rewrite <- (app_nil_r s), (word_found s [] L X (or_introl eq_refl)), E. split; [reflexivity|].
      cbn [anchor anchor_str is_end]. now split.
    - destruct (month_name w first next s I N) as (L & X & n & E & S & S' & _). exists (VMonthDay n day None).
      unfold read_year. rewrite (word_found s (blank ++ d) L X (or_intror (ex_intro _ d eq_refl))), E.
      change (opt_blank (blank ++ d)) with d. pose proof (month_read d day D) as R. apply day_shape in D.
      destruct D as (Nd & Dd & _). rewrite dots_all by exact Dd. rewrite R.
      split; [destruct d; [now destruct Nd|reflexivity]|].
      cbn [anchor anchor_str]. rewrite S. split; [|exact Logic.I]. cbn [bind]. unfold month_anchor_str. cbn [is_end]. f_equal. lia.
    - destruct (month_name w first next s I N) as (L & X & n & E & S & S' & _). exists (VMonthDay n day (Some us)).
      unfold read_year. rewrite (word_found s (blank ++ d ++ blank ++ x) L X (or_intror (ex_intro _ _ eq_refl))), E.
      change (opt_blank (blank ++ d ++ blank ++ x)) with (d ++ blank ++ x).
      pose proof (month_time_read d day x us D T) as R. apply day_shape in D. destruct D as (Nd & Dd & _).
      rewrite dots_all.
      2: { rewrite !forallb_app, Dd. cbn [forallb blank andb]. now apply clock_shape in T. }
      rewrite R. split; [destruct d; [now destruct Nd|reflexivity]|].
      cbn [anchor anchor_str]. rewrite S. split; [|exact Logic.I]. cbn [bind]. unfold month_anchor_str. f_equal. lia.
  Qed.
End Anchors.
