(** C56: condition sentences and the calls they stand for. *)
From Coq Require Import List Ascii String ZArith.
From Verif Require Import Model.Base Model.Anchored Model.Statement Spec.StatementSpec Spec.ParseSpec.
From Verif Require Model.Condition Model.Depend Model.Parse.
From Verif Require Import Proofs.StatementResults Proofs.StatementConverse Proofs.StatementExamples.
Import ListNotations.

(** Every sentence of the language, with whatever names and times, gives the condition (or the
    exception) of the API call it stands for. *)
Theorem c56_sentences : forall P (make : pcall -> result P) s r, says make s r ->
  condition_item make cond_parsers s = r.
Proof. exact sentences. Qed.
Print Assumptions c56_sentences.

Example c56_sentences_nonvacuous :
  says plain (txt "daily between 10:00 and 12:00"%string)
    (Ok (KAtom (AExecutable (TimeOf TDay (Some (txt "10:00"%string)) (Some (txt "12:00"%string)) false false)))) /\
  says plain (txt "after tasks 'fetch', 'clean' failed"%string)
    (Ok (KAll [KAtom (ADepend Depend.RFailure (txt "fetch"%string));
               KAtom (ADepend Depend.RFailure (txt "clean"%string))])).
Proof. exact (conj ex_daily_says ex_after_says). Qed.

(** Sentences put together with operators and parentheses. *)
Theorem c56_string : forall P (make : pcall -> result P) num text_atom meant s e,
  reads true LAny s e -> (forall t, In t (items e) -> says make t (Ok (meant t))) ->
  exists c, Parse.parse_condition (numbered_item make num) text_atom s = Returns c /\
    forall env, Condition.observe env c = answer env (fun t => as_condition num (meant t)) e.
Proof. exact sentence_string. Qed.
Print Assumptions c56_string.

Example c56_string_nonvacuous : reads true LAny ex_sentences ex_tree /\
  (forall t, In t (items ex_tree) -> says plain t (Ok (ex_meant t))) /\
  (forall num text_atom, Parse.parse_condition (numbered_item plain num) text_atom ex_sentences =
     Returns (Condition.CAll
       [Condition.CAtom (num (AExecutable (TimeOf TDay (Some (txt "10:00"%string)) (Some (txt "12:00"%string)) false false)));
        Condition.CNot (Condition.CAny
          [Condition.CAll [Condition.CAtom (num (ADepend Depend.RFailure (txt "fetch"%string)));
                           Condition.CAtom (num (ADepend Depend.RFailure (txt "clean"%string)))];
           Condition.CAtom (num (AIsPeriod (TimeOf TWeek (Some (txt "Monday"%string)) None true false)))])])).
Proof. exact ex_string_ok. Qed.

(** A sentence by itself gives exactly its condition. *)
Theorem c56_alone : forall P (make : pcall -> result P) num text_atom s r,
  says make s r -> item_text s ->
  Parse.parse_condition (numbered_item make num) text_atom s =
    match r with Ok t => Returns (as_condition num t) | Err x => Raises x end.
Proof. exact one_sentence. Qed.
Print Assumptions c56_alone.

(** A text that has not the form of a sentence is refused. *)
Theorem c56_rejected : forall P (make : pcall -> result P) s, ~ sentence s ->
  condition_item make cond_parsers s = Err ParserError.
Proof. exact no_sentence. Qed.
Print Assumptions c56_rejected.

Example c56_rejected_nonvacuous : ~ sentence (txt "dayly after 10:00").
Proof. exact ex_no_sentence. Qed.

(** In particular a text that begins like no sentence. *)
Theorem c56_unknown : forall P (make : pcall -> result P) s,
  (forall w rest, In w openings -> s <> txt w ++ rest) ->
  condition_item make cond_parsers s = Err ParserError.
Proof. exact other_strings. Qed.
Print Assumptions c56_unknown.

Example c56_unknown_nonvacuous : forall w rest, In w openings ->
  txt "dayly after 10:00"%string <> txt w ++ rest.
Proof. exact ex_other. Qed.

(** The documented sentence about terminated tasks does not exist, whatever the task. *)
Theorem c56_terminated_refuted : forall P (make : pcall -> result P) n, word n ->
  condition_item make cond_parsers (txt "after task '" ++ n ++ txt "' terminated") = Err ParserError.
Proof. exact (@after_terminated). Qed.
Print Assumptions c56_terminated_refuted.

(** Sentences that are registered but raise. *)
Theorem c56_periods_refuted : forall P (make : pcall -> result P),
  condition_item make cond_parsers (txt "always") = Err TypeError /\
  condition_item make cond_parsers (txt "never") = Err TypeError /\
  forall d p, word d -> make (DeltaOf d) = Ok p ->
    condition_item make cond_parsers (txt "past " ++ d) = Err AttributeError.
Proof. exact (@not_conditions). Qed.
Print Assumptions c56_periods_refuted.

(** Asking for a parameter asks for parameters named like the letters. *)
Theorem c56_param_refuted : forall P (make : pcall -> result P) n, word n ->
  condition_item make cond_parsers (txt "param '" ++ n ++ txt "' exists") =
    Ok (KAtom (AParam (map (fun c => [c]) n) [])).
Proof. exact (@param_exists). Qed.
Print Assumptions c56_param_refuted.

(** The period of a past event that starts at some time also ends at that time, so it need not be
    the whole period the API gives. *)
Theorem c56_starting_refuted :
  (forall P (make : pcall -> result P) task w a v c s, proper_subject task -> action_word w a ->
     span_word v c -> word s ->
     condition_item make cond_parsers
       (subject task ++ txt "has " ++ txt w ++ txt " " ++ txt v ++ txt " starting " ++ s) =
     w_between make (WStatus a task) c s s) /\
  exists s p q, s = txt "has succeeded this week starting Monday" /\
    condition_item (fixed_periods monday) cond_parsers s = Ok (KAtom (AStatus Succeeded (Some p) None [])) /\
    w_starting (fixed_periods monday) (WStatus Succeeded None) TWeek (txt "Monday") =
      Ok (KAtom (AStatus Succeeded (Some q) None [])) /\
    exists t, acontains q t = true /\ acontains p t = false.
Proof. exact (conj (@starting) starting_differs). Qed.
Print Assumptions c56_starting_refuted.

(** Names with operators or parentheses cannot be used in a string. *)
Theorem c56_names_refuted : forall P (make : pcall -> result P) num text_atom,
  condition_item make cond_parsers (txt "task 'R&D' is running") = Ok (KAtom (ARunning (Some (txt "R&D")))) /\
  Parse.parse_condition (numbered_item make num) text_atom (txt "task 'R&D' is running") = Raises ParserError /\
  Parse.parse_condition (numbered_item make num) text_atom (txt "task 'load (daily)' is running") = Raises ParserError.
Proof. exact operators_in_names. Qed.
Print Assumptions c56_names_refuted.

(** Names separated by a comma without a blank are taken for one name. *)
Theorem c56_comma_refuted : forall P (make : pcall -> result P),
  condition_item make cond_parsers (txt "after tasks 'a','b'") =
    Ok (KAll [KAtom (ADepend Depend.RSuccess (txt "a','b"))]).
Proof. exact (@comma). Qed.
Print Assumptions c56_comma_refuted.
