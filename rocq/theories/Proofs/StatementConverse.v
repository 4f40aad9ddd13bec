(** A text that has not the form of a sentence is refused. *)
From Coq Require Import List Bool Arith Lia ZifyBool Ascii String ZArith.
From Verif Require Import Model.Base Model.Anchored Model.Statement Spec.StatementSpec Proofs.StatementProofs
  Proofs.StatementResults.
From Verif Require Model.Duration Model.Condition Model.Depend.
Import ListNotations.
Local Open Scope list_scope.
Local Open Scope nat_scope.

Fixpoint language (p : pattern) (s : list ascii) : Prop :=
  match p with
  | [] => s = []
  | PChar c :: p => exists r, s = c :: r /\ language p r
  | PAny _ :: p => exists m r, s = m ++ r /\ some_text m /\ language p r
  | PDigits _ :: p => exists m r, s = m ++ r /\ digits_only m /\ language p r
  | PAlt _ ss :: p => exists m r, s = m ++ r /\ In m ss /\ language p r
  | POpt t :: p => (exists r, s = t ++ r /\ language p r) \/ language p s
  end.

Lemma dots_text : forall m, m <> [] -> forallb dot m = true -> some_text m.
Proof.
  intros m N D. split; [exact N|]. intros I. rewrite forallb_forall in D. specialize (D _ I). discriminate.
Qed.
Lemma digit_of_is : forall c, Duration.is_digit c = true -> exists n, digit_of c n.
Proof.
  intros c H. unfold Duration.is_digit in H. apply andb_true_iff in H. destruct H as [A B].
  apply N.leb_le in A. apply N.leb_le in B. exists (Z.of_N (N_of_ascii c) - 48)%Z. split; [|lia].
  replace (48 + Z.to_nat (Z.of_N (N_of_ascii c) - 48)) with (N.to_nat (N_of_ascii c)) by lia.
  fold (nat_of_ascii c). now rewrite ascii_nat_embedding.
Qed.

Lemma match_language : forall p s r, fullmatch p s = Some r -> language p s.
Proof.
  induction p as [|x p IH]; intros s r H.
  - cbn in *. destruct s; [reflexivity|discriminate].
  - destruct x as [c|g|g|g ss|t]; cbn [fullmatch language] in *.
    + destruct s as [|d s]; [discriminate|]. destruct (Ascii.eqb_spec c d) as [<-|]; [|discriminate].
      exists s. split; [reflexivity|]. exact (IH s r H).
    + apply put_some in H. destruct H as (m & r' & H & _). apply greedy_some in H.
      destruct H as (rest & E & N & K & F). exists m, rest. split; [exact E|].
      split; [now apply dots_text|]. exact (IH rest r' K).
    + apply put_some in H. destruct H as (m & r' & H & _). apply greedy_some in H.
      destruct H as (rest & E & N & K & F). exists m, rest. split; [exact E|]. split; [|exact (IH rest r' K)].
      split; [exact N|]. intros c I. rewrite forallb_forall in F. apply digit_of_is. now apply F.
    + apply put_some in H. destruct H as (m & r' & H & _). apply alternatives_some in H.
      destruct H as (rest & I & E & K). exists m, rest. split; [exact E|]. split; [exact I|].
      exact (IH rest r' K).
    + destruct (strip_prefix t s) as [rest|] eqn:S.
      * destruct (fullmatch p rest) as [r'|] eqn:K.
        { left. exists rest. split; [now apply strip_some|]. exact (IH rest r' K). }
        { right. exact (IH s r H). }
      * right. exact (IH s r H).
Qed.

Lemma lit_language : forall t p s, language (lit t ++ p) s -> exists r, s = txt t ++ r /\ language p r.
Proof.
  intros t p. unfold lit. induction (txt t) as [|c l IH]; intros s H; [exists s; now split|].
  cbn [map app language] in H. destruct H as (r & -> & H). apply IH in H. destruct H as (r' & -> & H).
  exists r'. now split.
Qed.
Lemma lit_end : forall t s, language (lit t) s -> s = txt t.
Proof.
  intros t s H. rewrite <- (app_nil_r (lit t)) in H. apply lit_language in H. destruct H as (r & -> & ->).
  apply app_nil_r.
Qed.
Lemma last_any : forall g s, language [PAny g] s -> some_text s.
Proof. intros g s (m & r & -> & T & ->). now rewrite app_nil_r. Qed.

(** The keys of the table *)
Lemma set_keys : forall st q d x, In x (map fst (set_parser st q d)) -> x = st \/ In x (map fst d).
Proof.
  intros st q d x. induction d as [|[st' q'] d IH]; cbn; intros H.
  - destruct H as [H|[]]. now left.
  - destruct (statement_dec st' st) as [->|N]; cbn in H.
    + right. exact H.
    + destruct H as [<-|H]; [right; now left|]. destruct (IH H); tauto.
Qed.
Lemma update_keys : forall new d x, In x (map fst (update d new)) -> In x (map fst d) \/ In x (map fst new).
Proof.
  induction new as [|[st q] new IH]; intros d x H; [now left|].
  unfold update in *. cbn [fold_left fst snd] in H. apply IH in H. destruct H as [H|H].
  - apply set_keys in H. destruct H as [->|H]; [right; now left|now left].
  - right. now right.
Qed.
Lemma find_in : forall d s q r, find_parser d s = Some (q, r) ->
  exists st, In st (map fst d) /\ matches st s = Some r.
Proof.
  induction d as [|[st q'] d IH]; intros s q r H; [discriminate|]. cbn [find_parser] in H.
  destruct (matches st s) as [r'|] eqn:M.
  - injection H as <- <-. exists st. split; [now left|exact M].
  - destruct (IH s q r H) as (st' & I & M'). exists st'. split; [now right|exact M'].
Qed.

Definition of_form (st : statement) : Prop := forall s r, matches st s = Some r -> sentence s.
Lemma pat_form : forall p, (forall s, language p s -> sentence s) -> of_form (SPat p).
Proof. intros p H s r M. apply H. exact (match_language p s r M). Qed.
Lemma text_form : forall t, sentence t -> of_form (SText t).
Proof.
  intros t H s r M. cbn in M. destruct (list_eq_dec ascii_dec t s) as [<-|]; [exact H|discriminate].
Qed.

Ltac lits := repeat match goal with
  | H : language (lit ?t ++ ?p) ?s |- _ => apply lit_language in H; destruct H as (? & -> & H)
  | H : language (lit ?t) ?s |- _ => apply lit_end in H; subst
  | H : language [PAny ?g] ?s |- _ => apply last_any in H
  | H : language (PAny ?g :: ?p) ?s |- _ => destruct H as (? & ? & -> & ? & H)
  | H : language (PDigits ?g :: ?p) ?s |- _ => destruct H as (? & ? & -> & ? & H)
  | H : language [] ?s |- _ => cbn in H; subst
  end.

Lemma alt_word : forall ws m, In m (map txt ws) -> exists w, In w ws /\ m = txt w.
Proof. intros ws m H. apply in_map_iff in H. destruct H as (w & <- & I). now exists w. Qed.
Lemma unit_named : forall w, In w time_names -> exists c, unit_word w c.
Proof.
  intros w H. cbn in H. unfold unit_word. cbn.
  repeat (destruct H as [<-|H]; [eexists; tauto|]). destruct H.
Qed.
Lemma span_named : forall w, In w span_names -> exists c, span_word w c.
Proof.
  intros w H. cbn in H. unfold span_word. cbn.
  repeat (destruct H as [<-|H]; [eexists; tauto|]). destruct H.
Qed.

Lemma time_forms : forall st, In st (map fst time_statements) -> of_form st.
Proof.
  intros st H. cbn [time_statements map fst In] in H.
  destruct H as [<-|[<-|[<-|[<-|[<-|[<-|[<-|[<-|[]]]]]]]]].
  - apply pat_form. intros s H. lits. destruct H as (m & r & -> & I & H). lits.
    apply alt_word in I. destruct I as (w & I & ->). apply unit_named in I. destruct I as (c & I).
    now apply (sen_time_between w c).
  - apply pat_form. intros s H. lits. destruct H as (m & r & -> & I & H). lits.
    apply alt_word in I. destruct I as (w & I & ->). apply unit_named in I. destruct I as (c & I).
    apply (sen_time_at w c " after "); trivial. cbn. tauto.
  - apply pat_form. intros s H. lits. destruct H as (m & r & -> & I & H). lits.
    apply alt_word in I. destruct I as (w & I & ->). apply unit_named in I. destruct I as (c & I).
    apply (sen_time_at w c " before "); trivial. cbn. tauto.
  - apply pat_form. intros s H. lits. destruct H as (m & r & -> & I & H). lits.
    apply alt_word in I. destruct I as (w & I & ->).
    destruct I as [<-|[<-|[]]].
    + apply (sen_time_on "month" TMonth); trivial. { unfold unit_word. cbn. tauto. } { now left. }
    + apply (sen_time_on "week" TWeek); trivial. { unfold unit_word. cbn. tauto. } { now right. }
  - apply pat_form. intros s H. lits. apply (sen_free "every "); trivial. cbn. tauto.
  - apply pat_form. intros s H. lits. apply (sen_free "past "); trivial. cbn. tauto.
  - apply text_form, (sen_constant "always"). cbn. tauto.
  - apply text_form, (sen_constant "never"). cbn. tauto.
Qed.

(** With or without the name of a task *)
Lemma has_forms : forall prefix, (forall p s, language (prefix ++ p) s ->
    exists task r, any_subject task /\ s = subject task ++ r /\ language p r) ->
  forall w a, action_word w a -> forall st, In st (map fst (has_statements prefix w a)) -> of_form st.
Proof.
  intros prefix Pre w a A st H. unfold has_statements in H. cbv zeta in H. cbn [map fst In] in H.
  destruct H as [<-|[<-|[<-|[<-|[<-|[<-|[<-|[<-|[]]]]]]]]]; apply pat_form; intros s H;
    rewrite <- ?app_assoc in H; apply Pre in H; destruct H as (task & r & T & -> & H); lits.
  - now apply (sen_has task w a).
  - cbn [app] in H. destruct H as (m & r' & -> & I & H). lits. cbn [app] in H.
    destruct H as (m' & r'' & -> & I' & H). lits.
    apply alt_word in I. destruct I as (v & I & ->). apply span_named in I. destruct I as (c & I).
    destruct I' as [<-|[]].
    apply (sen_has_at task w a v c " starting "); trivial. cbn. tauto.
  - cbn [app] in H. destruct H as (m & r' & -> & I & H). lits. cbn [app] in H.
    destruct H as (m' & r'' & -> & I' & H). lits.
    apply alt_word in I. destruct I as (v & I & ->). apply span_named in I. destruct I as (c & I).
    destruct I' as [<-|[]]. now apply (sen_has_between task w a v c).
  - cbn [app] in H. destruct H as (m & r' & -> & I & H). lits. cbn [app] in H.
    destruct H as (m' & r'' & -> & I' & H). lits.
    apply alt_word in I. destruct I as (v & I & ->). apply span_named in I. destruct I as (c & I).
    destruct I' as [<-|[]].
    apply (sen_has_at task w a v c " after "); trivial. cbn. tauto.
  - cbn [app] in H. destruct H as (m & r' & -> & I & H). lits. cbn [app] in H.
    destruct H as (m' & r'' & -> & I' & H). lits.
    apply alt_word in I. destruct I as (v & I & ->). apply span_named in I. destruct I as (c & I).
    destruct I' as [<-|[]].
    apply (sen_has_at task w a v c " before "); trivial. cbn. tauto.
  - destruct H as (m & r' & -> & I & H). lits. rewrite app_nil_r.
    apply alt_word in I. destruct I as (v & I & ->). apply span_named in I. destruct I as (c & I).
    now apply (sen_has_span task w a v c).
  - cbn [app] in H. destruct H as (m & r' & -> & I & H). lits. cbn [app] in H.
    destruct H as (m' & r'' & -> & I' & H). lits.
    apply alt_word in I. destruct I as (v & I & ->). apply span_named in I. destruct I as (c & I).
    destruct I' as [<-|[]].
    apply (sen_has_at task w a v c " on "); trivial. cbn. tauto.
  - cbn [language] in H. destruct H as [(r' & -> & H)|H]; lits.
    + apply (sen_has_past task w a " in past "); trivial. cbn. tauto.
    + apply (sen_has_past task w a " past "); trivial. cbn. tauto.
Qed.
Lemma task_has_forms : forall st, In st (map fst task_has_statements) -> of_form st.
Proof.
  intros st H. apply in_map_iff in H. destruct H as (x & <- & H). unfold task_has_statements in H.
  apply in_flat_map in H. destruct H as ([w a] & I & H). cbn [fst snd] in H.
  assert (A : action_word w a).
  { unfold action_names in I. unfold action_word. cbn in I |- *. tauto. }
  apply in_app_or in H. destruct H as [H|H]; apply (in_map fst) in H.
  - revert H. apply (has_forms []); [|exact A]. intros p s L. exists None, s. split; [exact Logic.I|].
    now split.
  - revert H. apply (has_forms task_prefix); [|exact A]. intros p s L. unfold task_prefix in L.
    rewrite <- app_assoc in L. lits. cbn [app] in L. lits. eexists (Some _), _.
    split; [eassumption|]. split; [|exact L]. cbn [subject]. now rewrite <- !app_assoc.
Qed.

Lemma scheduler_forms : forall st, In st (map fst scheduler_statements) -> of_form st.
Proof.
  intros st H. cbn [scheduler_statements map fst In] in H.
  destruct H as [<-|[<-|[<-|[<-|[<-|[]]]]]]; apply pat_form; intros s H; lits.
  - apply (sen_free "scheduler has run over "); trivial. cbn. tauto.
  - now apply sen_started.
  - apply (sen_cycles "scheduler has more than "); trivial. cbn. tauto.
  - apply (sen_cycles "scheduler has less than "); trivial. cbn. tauto.
  - apply (sen_cycles "scheduler has "); trivial. cbn. tauto.
Qed.

Lemma cycle_forms : forall w c, cycle_word w c -> forall st,
  In st (map fst (cycle_statements w c)) -> of_form st.
Proof.
  intros w c W st H. unfold cycle_statements in H. cbn [map fst In] in H.
  destruct H as [<-|[<-|[<-|[<-|[<-|[<-|[]]]]]]]; [now apply text_form, (sen_cycle w c)|..];
    apply pat_form; intros s H; lits.
  - apply (sen_cycle_at w c " before "); trivial. cbn. tauto.
  - now apply (sen_cycle_between w c).
  - apply (sen_cycle_at w c " after "); trivial. cbn. tauto.
  - apply (sen_cycle_at w c " starting "); trivial. cbn. tauto.
  - apply (sen_cycle_at w c " on "); trivial. cbn. tauto.
Qed.
Lemma exec_forms : forall st, In st (map fst exec_statements) -> of_form st.
Proof.
  intros st H. apply in_map_iff in H. destruct H as (x & <- & H). unfold exec_statements in H.
  apply in_app_or in H. destruct H as [H|[<-|[<-|[]]]].
  - apply in_flat_map in H. destruct H as ([w c] & I & H). cbn [fst snd] in H.
    apply (in_map fst) in H. revert H. apply cycle_forms.
    unfold cycle_names in I. unfold cycle_word. exact I.
  - apply pat_form. intros s H. lits. apply (sen_free "every "); trivial. cbn. tauto.
  - apply pat_form. intros s H. lits. apply (sen_free "cron "); trivial. cbn. tauto.
Qed.

Lemma running_forms : forall st, In st (map fst running_statements) -> of_form st.
Proof.
  intros st H. cbn [running_statements map fst In] in H.
  destruct H as [<-|[<-|[]]]; apply pat_form; intros s H; lits.
  - apply (sen_running "while task '"); trivial. cbn. tauto.
  - apply (sen_running "task '"); trivial. cbn. tauto.
Qed.

Lemma depend_forms : forall tail,
  (forall s, language tail s -> exists w r, outcome_word w r /\ s = txt w) ->
  forall r st, In st (map fst (depend_statements tail r)) -> of_form st.
Proof.
  intros tail Tl r st H. unfold depend_statements in H. cbn [map fst In] in H.
  destruct H as [<-|[<-|[<-|[]]]]; apply pat_form; intros s H; lits; apply Tl in H;
    destruct H as (w & r' & W & ->).
  - apply (sen_after "after task '" _ w r'); trivial. cbn. tauto.
  - apply (sen_after "after tasks '" _ w r'); trivial. cbn. tauto.
  - apply (sen_after "after any tasks '" _ w r'); trivial. cbn. tauto.
Qed.
Lemma pipelining_forms : forall st, In st (map fst pipelining_statements) -> of_form st.
Proof.
  intros st H. unfold pipelining_statements in H. rewrite !map_app in H.
  apply in_app_or in H. destruct H as [H|H]; [|apply in_app_or in H; destruct H as [H|H]]; revert H;
    apply depend_forms.
  - intros s [(r & -> & ->) | -> ].
    + exists " succeeded"%string, Depend.RSuccess. split; [unfold outcome_word; cbn; tauto|apply app_nil_r].
    + exists ""%string, Depend.RSuccess. split; [unfold outcome_word; cbn; tauto|reflexivity].
  - intros s H. lits. exists " failed"%string, Depend.RFailure. split; [unfold outcome_word; cbn; tauto|reflexivity].
  - intros s H. lits. exists " finished"%string, Depend.RFinish. split; [unfold outcome_word; cbn; tauto|reflexivity].
Qed.

Lemma misc_forms : forall st, In st (map fst misc_statements) -> of_form st.
Proof.
  intros st H. cbn [misc_statements map fst In] in H.
  destruct H as [<-|[<-|[<-|[]]]]; apply pat_form; intros s H; lits.
  - now apply sen_env.
  - now apply sen_param.
  - now apply sen_param_is.
Qed.
Lemma core_forms : forall st, In st (map fst core_statements) -> of_form st.
Proof.
  intros st H. cbn [core_statements map fst In] in H.
  destruct H as [<-|[<-|[<-|[<-|[]]]]]; apply text_form.
  - apply (sen_constant "true"). cbn. tauto.
  - apply (sen_constant "false"). cbn. tauto.
  - apply (sen_constant "always false"). cbn. tauto.
  - apply (sen_constant "always true"). cbn. tauto.
Qed.

Theorem found_sentence : forall s q r, find_parser cond_parsers s = Some (q, r) -> sentence s.
Proof.
  intros s q r H. apply find_in in H. destruct H as (st & I & M).
  unfold cond_parsers in I. apply update_keys in I. destruct I as [[]|I]. rewrite !map_app in I.
  assert (F : of_form st); [|exact (F s r M)].
  repeat (apply in_app_or in I; destruct I as [I|I]).
  - now apply time_forms.
  - now apply task_has_forms.
  - now apply scheduler_forms.
  - now apply exec_forms.
  - now apply running_forms.
  - now apply pipelining_forms.
  - now apply misc_forms.
  - now apply core_forms.
Qed.

Theorem no_sentence : forall P (make : pcall -> result P) s, ~ sentence s ->
  condition_item make cond_parsers s = Err ParserError.
Proof.
  intros P make s N. unfold condition_item. destruct (find_parser cond_parsers s) as [[q r]|] eqn:F; [|reflexivity].
  elim N. exact (found_sentence s q r F).
Qed.

(** How sentences begin *)
Lemma sentence_opening : forall s, sentence s -> exists w rest, In w openings /\ s = txt w ++ rest.
Proof.
  assert (C : forall w c, cycle_word w c -> In w openings).
  { intros w c H. unfold cycle_word in H. cbn [In] in H.
    repeat (destruct H as [H|H]; [injection H as <- _; cbn; tauto|]). destruct H. }
  assert (S : forall task w rest, exists u rest', In u openings /\
            subject task ++ txt "has " ++ txt w ++ rest = txt u ++ rest').
  { intros [n|] w rest.
    - exists "task '"%string, (n ++ txt "' " ++ txt "has " ++ txt w ++ rest). split; [cbn; tauto|].
      cbn [subject]. now rewrite <- !app_assoc.
    - exists "has "%string, (txt w ++ rest). split; [cbn; tauto|reflexivity]. }
  intros s H. destruct H.
  - assert (E : In w openings \/ w = "always true"%string \/ w = "always false"%string).
    { cbn in H |- *. repeat (destruct H as [<-|H]; [tauto|]). destruct H. }
    destruct E as [E|[->| ->]].
    + exists w, []. split; [exact E|]. now rewrite app_nil_r.
    + exists "always"%string, (txt " true"). split; [cbn; tauto|reflexivity].
    + exists "always"%string, (txt " false"). split; [cbn; tauto|reflexivity].
  - cbn [In] in H. destruct H as [<-|[<-|[<-|[<-|[]]]]].
    + exists "every "%string, x. split; [cbn; tauto|reflexivity].
    + exists "past "%string, x. split; [cbn; tauto|reflexivity].
    + exists "cron "%string, x. split; [cbn; tauto|reflexivity].
    + exists "scheduler "%string, (txt "has run over " ++ x). split; [cbn; tauto|reflexivity].
  - exists w, []. split; [now apply (C w c)|]. now rewrite app_nil_r.
  - exists w. eexists. split; [now apply (C w c)|reflexivity].
  - exists w. eexists. split; [now apply (C w c)|reflexivity].
  - exists "time of "%string. eexists. split; [cbn; tauto|reflexivity].
  - exists "time of "%string. eexists. split; [cbn; tauto|reflexivity].
  - exists "time of "%string. eexists. split; [cbn; tauto|reflexivity].
  - destruct (S task w []) as (u & r & I & E). rewrite app_nil_r in E. now exists u, r.
  - apply S.
  - apply S.
  - apply S.
  - apply S.
  - destruct H as [<-|[<-|[]]].
    + exists "task '"%string. eexists. split; [cbn; tauto|reflexivity].
    + exists "while task '"%string. eexists. split; [cbn; tauto|reflexivity].
  - destruct H as [<-|[<-|[<-|[]]]].
    + exists "after task"%string, (txt " '" ++ n ++ txt "'" ++ txt w). split; [cbn; tauto|reflexivity].
    + exists "after task"%string, (txt "s '" ++ n ++ txt "'" ++ txt w). split; [cbn; tauto|reflexivity].
    + exists "after any tasks '"%string. eexists. split; [cbn; tauto|reflexivity].
  - exists "scheduler "%string, (txt "started " ++ x ++ txt " ago"). split; [cbn; tauto|reflexivity].
  - destruct H as [<-|[<-|[<-|[]]]].
    + exists "scheduler "%string, (txt "has more than " ++ n ++ txt " cycles"). split; [cbn; tauto|reflexivity].
    + exists "scheduler "%string, (txt "has less than " ++ n ++ txt " cycles"). split; [cbn; tauto|reflexivity].
    + exists "scheduler "%string, (txt "has " ++ n ++ txt " cycles"). split; [cbn; tauto|reflexivity].
  - exists "env '"%string. eexists. split; [cbn; tauto|reflexivity].
  - exists "param '"%string. eexists. split; [cbn; tauto|reflexivity].
  - exists "param '"%string. eexists. split; [cbn; tauto|reflexivity].
Qed.
Lemma ex_no_sentence : ~ sentence (txt "dayly after 10:00").
Proof.
  intros H. apply sentence_opening in H. destruct H as (w & rest & I & E). cbn in I.
  repeat (destruct I as [<-|I]; [cbn in E; discriminate E|]). exact I.
Qed.
