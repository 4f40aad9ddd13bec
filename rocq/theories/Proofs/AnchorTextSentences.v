(** Sentences with times in them. *)
From Coq Require Import List Bool Arith Ascii String ZArith NArith Lia ZifyBool.
From Verif Require Import Model.Base Model.Calendar Model.Anchored Model.Statement Model.AnchorText
  Spec.StatementSpec Spec.PeriodSpec Spec.AnchorTextSpec.
From Verif Require Model.Duration.
From Verif Require Import Proofs.StatementResults Proofs.AnchorTextProofs Proofs.AnchorTextResults.
Import ListNotations.
Local Open Scope Z_scope.
Local Open Scope list_scope.

(** ** Texts that spell a time may stand in a sentence *)

Fixpoint blank_a (s : list ascii) : bool :=
  match s with
  | c :: r => (Ascii.eqb c " "%char && match r with d :: _ => Ascii.eqb d "a"%char | [] => false end) || blank_a r
  | [] => false
  end.
Lemma blank_a_in : forall pre r, blank_a (pre ++ " "%char :: "a"%char :: r) = true.
Proof. induction pre as [|c pre IH]; intros r; [reflexivity|]. cbn [app blank_a]. now rewrite IH, orb_true_r. Qed.
Definition no_blank (s : list ascii) : bool := forallb (fun c => negb (Ascii.eqb c " "%char)) s.
Lemma blank_a_skip : forall x y, no_blank x = true -> blank_a (x ++ y) = blank_a y.
Proof.
  unfold no_blank. induction x as [|c x IH]; intros y H; [reflexivity|]. cbn [forallb] in H. apply andb_prop in H.
  destruct H as [H H']. cbn [app blank_a]. destruct (Ascii.eqb c " "); [discriminate H|]. now apply IH.
Qed.
Lemma blank_a_none : forall x, no_blank x = true -> blank_a x = false.
Proof. intros x H. rewrite <- (app_nil_r x). now rewrite blank_a_skip. Qed.
Lemma blank_a_one : forall c r, Ascii.eqb c "a"%char = false -> blank_a (" "%char :: c :: r) = blank_a (c :: r).
Proof. intros c r H. cbn [blank_a]. now rewrite H. Qed.

(** Characters of such texts *)
Definition usual (c : ascii) : bool := is_letter c || is_digit c || Ascii.eqb c ":"%char || Ascii.eqb c "."%char.
Lemma usual_not : forall c, usual c = true -> c <> quote /\ c <> line_feed /\ Ascii.eqb c " "%char = false.
Proof.
  intros c H. split; [intros ->; discriminate H|]. split; [intros ->; discriminate H|].
  destruct (Ascii.eqb_spec c " "%char) as [->|_]; [discriminate H|reflexivity].
Qed.
Lemma usual_no_blank : forall s, forallb usual s = true -> no_blank s = true.
Proof.
  intros s. unfold no_blank. rewrite !forallb_forall. intros H c I.
  destruct (usual_not c (H c I)) as (_ & _ & ->). reflexivity.
Qed.
Lemma digits_usual : forall s, forallb is_digit s = true -> forallb usual s = true.
Proof.
  intros s. rewrite !forallb_forall. intros H c I. unfold usual. rewrite (H c I). now destruct (is_letter c).
Qed.
Lemma letters_usual : forall s, forallb is_letter s = true -> forallb usual s = true.
Proof. intros s. rewrite !forallb_forall. intros H c I. unfold usual. now rewrite (H c I). Qed.
Lemma clock_usual : forall s us, clock_text s us -> forallb usual s = true.
Proof.
  intros s us H.
  destruct H as [h m hour minute Hh L1 B1 [Hm _] B2|h m s hour minute second Hh L1 B1 [Hm _] B2 [Hs _] B3];
    apply number_digits in Hh, Hm; destruct Hh as (_ & D & _); destruct Hm as (_ & D' & _);
    rewrite !forallb_app, !(digits_usual _ D), !(digits_usual _ D'); [reflexivity|].
  apply number_digits in Hs. destruct Hs as (_ & D'' & _). now rewrite (digits_usual _ D'').
Qed.
Lemma suffix_usual : forall x, suffix x -> forallb usual x = true.
Proof.
  intros x [->|[->|(w & I & H)]]; [reflexivity|reflexivity|]. apply letters_usual.
  repeat (destruct I as [I|I]; [subst w; now apply same_word_lower in H|]). destruct I.
Qed.
Lemma day_usual : forall s day, day_text s day -> forallb usual s = true /\ exists c r, s = c :: r /\ is_digit c = true.
Proof.
  intros s day [n x d H B X]. apply number_digits in H. destruct H as (N & D & _). split.
  - now rewrite forallb_app, (digits_usual n D), (suffix_usual x X).
  - destruct n as [|c n]; [now destruct N|]. eexists c, _. split; [reflexivity|]. cbn [forallb] in D. now apply andb_prop in D.
Qed.
Lemma fraction_usual : forall x us, fraction x us -> forallb usual x = true.
Proof.
  intros x us [|s n H L]; [reflexivity|]. apply number_digits in H. destruct H as (_ & D & _).
  cbn [forallb]. now rewrite (digits_usual s D).
Qed.
Lemma digit_not_a : forall c, is_digit c = true -> Ascii.eqb c "a"%char = false.
Proof. intros c H. destruct (Ascii.eqb_spec c "a"%char) as [->|_]; [discriminate H|reflexivity]. Qed.
Lemma name_not_a : forall w n s, In (w, n) days -> names s w -> exists c r, s = c :: r /\ Ascii.eqb c "a"%char = false.
Proof.
  intros w n s I N. destruct (day_name w n s I N) as (L & X & E & _). destruct s as [|c r]; [now destruct X|].
  exists c, r. split; [reflexivity|]. destruct (Ascii.eqb_spec c "a"%char) as [->|_]; [|reflexivity].
  exfalso. unfold week_mapping, lower in E. cbn [map] in E. discriminate E.
Qed.

(** A first piece that does not begin with a, and perhaps a second one after a blank *)
Lemma pieces_fit : forall c x r, forallb usual (c :: x) = true -> Ascii.eqb c "a"%char = false ->
  (r = [] \/ exists d y, r = " "%char :: d :: y /\ forallb usual (d :: y) = true /\ Ascii.eqb d "a"%char = false) ->
  word ((c :: x) ++ r) /\ no_and ((c :: x) ++ r).
Proof.
  intros c x r U A R.
  assert (UR : forall z, In z ((c :: x) ++ r) -> usual z = true \/ z = " "%char).
  { intros z I. apply in_app_or in I. rewrite forallb_forall in U. destruct I as [I|I]; [left; now apply U|].
    destruct R as [->|(d & y & -> & V & _)]; [destruct I|]. destruct I as [<- |I]; [now right|left].
    rewrite forallb_forall in V. now apply V. }
  split.
  - split; [discriminate|]. split; intros I; apply UR in I; destruct I as [I|I]; try discriminate I;
      now apply usual_not in I.
  - intros pre post E.
    assert (B : blank_a (" "%char :: (c :: x) ++ r) = true) by (rewrite E; apply blank_a_in).
    cbn [app] in B. rewrite blank_a_one in B by exact A. rewrite app_comm_cons, blank_a_skip in B by (now apply usual_no_blank).
    destruct R as [->|(d & y & -> & V & D)]; [discriminate B|]. rewrite blank_a_one in B by exact D.
    rewrite blank_a_none in B by (now apply usual_no_blank). discriminate B.
Qed.

Lemma spelled_fits : forall c s f u, c <> TYear -> spelled c s f u -> word s /\ no_and s.
Proof.
  intros c s f u K H.
  assert (P1 : forall c x, forallb usual (c :: x) = true -> Ascii.eqb c "a"%char = false ->
            word (c :: x) /\ no_and (c :: x)).
  { intros a x U A. rewrite <- (app_nil_r (a :: x)). apply pieces_fit; [exact U|exact A|now left]. }
  destruct H as [s x second us S B F|m s x minute second us M B S B' F|s us H|s w n I N|s w n x us I N T|s day D
                |s day x us D T|s w first next I N|s w first next d day I N D B|s w first next d day x us I N D B T];
    try (now destruct K).
  - destruct (two_is s second S) as (a & b & -> & Da & Db & _). cbn [app]. apply P1; [|now apply digit_not_a].
    change (a :: b :: x) with ([a; b] ++ x). rewrite forallb_app, (fraction_usual x us F), digits_usual; [reflexivity|].
    cbn [forallb]. now rewrite Da, Db.
  - destruct (two_is m minute M) as (a & b & -> & Da & Db & _). destruct (two_is s second S) as (d & e & -> & Dd & De & _).
    cbn [app]. apply P1; [|now apply digit_not_a]. change (a :: b :: colon ++ d :: e :: x) with ([a; b] ++ colon ++ [d; e] ++ x).
    assert (U : forallb usual [a; b] = true) by (apply digits_usual; cbn [forallb]; now rewrite Da, Db).
    assert (V : forallb usual [d; e] = true) by (apply digits_usual; cbn [forallb]; now rewrite Dd, De).
    rewrite !forallb_app, (fraction_usual x us F), U, V. reflexivity.
  - pose proof (clock_usual s us H) as U. apply clock_shape in H. destruct H as ((a & r & -> & D) & _).
    apply P1; [exact U|now apply digit_not_a].
  - destruct (name_not_a w n s I N) as (a & r & -> & A). apply P1; [|exact A]. apply letters_usual. now apply (day_name w n _ I) in N.
  - destruct (name_not_a w n s I N) as (a & r & -> & A). apply pieces_fit; [|exact A|].
    + apply letters_usual. now apply (day_name w n _ I) in N.
    + right. pose proof (clock_usual x us T) as U. apply clock_shape in T. destruct T as ((b & y & -> & D) & _).
      exists b, y. split; [reflexivity|]. split; [exact U|now apply digit_not_a].
  - destruct (day_usual s day D) as (U & a & r & -> & A). apply P1; [exact U|now apply digit_not_a].
  - destruct (day_usual s day D) as (U & a & r & -> & A). apply pieces_fit; [exact U|now apply digit_not_a|].
    right. pose proof (clock_usual x us T) as V. apply clock_shape in T. destruct T as ((b & y & -> & E) & _).
    exists b, y. split; [reflexivity|]. split; [exact V|now apply digit_not_a].
Qed.

(** ** Sentences *)

Section Sentences.
  Variable clock millis : list ascii -> result Z.
  Variable other_call : pcall -> result anchored.
  Hypothesis C : reads_clock clock.
  Local Notation make := (make_text clock millis other_call).

  Lemma unit_not_year : forall w c, unit_word w c -> c <> TYear.
  Proof using. intros w c H ->. repeat (destruct H as [H|H]; [discriminate H|]). destruct H. Qed.
  Lemma cycle_not_year : forall w c, cycle_word w c -> c <> TYear.
  Proof using. intros w c H ->. repeat (destruct H as [H|H]; [discriminate H|]). destruct H. Qed.

  Theorem time_between : forall w c a b f u f' u', unit_word w c -> spelled c a f u -> spelled c b f' u' ->
    exists p, condition_item make cond_parsers (txt "time of " ++ txt w ++ txt " between " ++ a ++ txt " and " ++ b) =
        Ok (KAtom (AIsPeriod p)) /\
      forall t, acontains p t = true <-> clock_range f u' (since_start c t).
  Proof using C.
    intros w c a b f u f' u' W A B. pose proof (unit_not_year w c W) as N.
    destruct (text_between clock millis C c a b f u f' u' N A B) as (p & E & M). exists p. split; [|exact M].
    apply (spelled_fits c a f u N) in A. apply (spelled_fits c b f' u' N) in B. destruct A as [A _], B as [B B'].
    rewrite (sentences _ make _ _ (say_time_between make w c a b W A B B')).
    unfold w_between, get_cond, is_period. cbn [make_text]. rewrite E. reflexivity.
  Qed.
  Theorem time_after : forall w c a f u, unit_word w c -> spelled c a f u ->
    exists p, condition_item make cond_parsers (txt "time of " ++ txt w ++ txt " after " ++ a) =
        Ok (KAtom (AIsPeriod p)) /\
      forall t, acontains p t = true <-> f <= since_start c t.
  Proof using C.
    intros w c a f u W A. pose proof (unit_not_year w c W) as N.
    destruct (text_after clock millis C c a f u A) as (p & E & M). exists p. split; [|exact M].
    apply (spelled_fits c a f u N) in A. destruct A as [A _].
    rewrite (sentences _ make _ _ (say_time_after make w c a W A)).
    unfold w_after, get_cond, is_period. cbn [make_text]. rewrite E. reflexivity.
  Qed.
  Theorem time_before : forall w c b f u, unit_word w c -> spelled c b f u -> 0 < u ->
    exists p, condition_item make cond_parsers (txt "time of " ++ txt w ++ txt " before " ++ b) =
        Ok (KAtom (AIsPeriod p)) /\
      forall t, acontains p t = true <-> since_start c t < u.
  Proof using C.
    intros w c b f u W B P. pose proof (unit_not_year w c W) as N.
    destruct (text_before clock millis C c b f u N B P) as (p & E & M). exists p. split; [|exact M].
    apply (spelled_fits c b f u N) in B. destruct B as [B _].
    rewrite (sentences _ make _ _ (say_time_before make w c b W B)).
    unfold w_before, get_cond, is_period. cbn [make_text]. rewrite E. reflexivity.
  Qed.
  Theorem cycle_between : forall w c a b f u f' u', cycle_word w c -> spelled c a f u -> spelled c b f' u' ->
    exists p, condition_item make cond_parsers (txt w ++ txt " between " ++ a ++ txt " and " ++ b) =
        Ok (KAtom (AExecutable p)) /\
      forall t, acontains p t = true <-> clock_range f u' (since_start c t).
  Proof using C.
    intros w c a b f u f' u' W A B. pose proof (cycle_not_year w c W) as N.
    destruct (text_between clock millis C c a b f u f' u' N A B) as (p & E & M). exists p. split; [|exact M].
    apply (spelled_fits c a f u N) in A. apply (spelled_fits c b f' u' N) in B. destruct A as [A _], B as [B B'].
    rewrite (sentences _ make _ _ (say_cycle_between make w c a b W A B B')).
    unfold w_between, get_cond. cbn [make_text]. rewrite E. reflexivity.
  Qed.
  Theorem cycle_on : forall w c a f u, cycle_word w c -> spelled c a f u -> f < u ->
    exists p, condition_item make cond_parsers (txt w ++ txt " on " ++ a) = Ok (KAtom (AExecutable p)) /\
      forall t, acontains p t = true <-> f <= since_start c t < u.
  Proof using C.
    intros w c a f u W A L. pose proof (cycle_not_year w c W) as N.
    destruct (text_on_name clock millis C c a f u N A L) as (p & E & M). exists p. split; [|exact M].
    apply (spelled_fits c a f u N) in A. destruct A as [A _].
    rewrite (sentences _ make _ _ (say_cycle_on make w c a W A)).
    unfold w_on, get_cond. cbn [make_text]. rewrite E. reflexivity.
  Qed.
End Sentences.
